(** C79: OCaml files are compiled after what they use, and linked in that order. *)
From Coq Require Import Ascii String List NArith Bool Arith Lia Permutation.
From Verif Require Import FnModel PathModel PathSpec PathFacts LinkSpec GlobModel GlobSpec TreeCheck.
From Verif Require Import OcamlSpec OcamlFacts OcamlBuildModel OcamlBuildSpec PropsOcamlBuild.
From Verif Require Import SchedModel SchedFacts SchedThms SchedWhole PropsSched.
From Verif Require OcamlModel.
Import ListNotations.
Open Scope list_scope.
Open Scope nat_scope.

Lemma left_before (a x y : str) before after : x = y -> In a before -> left_of a y (before ++ x :: after).
Proof. intros <- H. apply in_split in H as (l1 & l2 & ->). exists l1, l2, after. rewrite <- app_assoc. reflexivity. Qed.
Lemma kept_in P l k x : kept P l k -> (In x l <-> In x k /\ P x).
Proof.
  induction 1 as [|y l k Hy _ IH|y l k Hy _ IH]; simpl.
  - tauto.
  - rewrite IH. split; [intros [<-|[? ?]]; tauto|tauto].
  - rewrite IH. split; [tauto|]. intros [[<-|?] ?]; tauto.
Qed.
Lemma kept_split P l k1 x k2 : kept P l (k1 ++ x :: k2) -> P x -> exists l1 l2, l = l1 ++ x :: l2 /\ kept P l1 k1 /\ kept P l2 k2.
Proof.
  revert l. induction k1 as [|y k1 IH]; intros l H Hx; inversion H; subst; try contradiction.
  - exists [], l0. split; [reflexivity|]. split; [constructor|assumption].
  - destruct (IH _ H4 Hx) as (l1 & l2 & -> & A & B). exists (y :: l1), l2. split; [reflexivity|]. split; [constructor; assumption|exact B].
  - destruct (IH _ H4 Hx) as (l1 & l2 & -> & A & B). exists l1, l2. split; [reflexivity|]. split; [constructor; assumption|exact B].
Qed.
Lemma kept_left P l k a b : kept P l k -> left_of a b k -> P a -> P b -> left_of a b l.
Proof.
  intros H (k1 & k2 & k3 & ->) Ha Hb. destruct (kept_split _ _ _ _ _ H Ha) as (l1 & l2 & -> & _ & H2).
  destruct (kept_split _ _ _ _ _ H2 Hb) as (l3 & l4 & -> & _ & _). exists l1, l3, l4. reflexivity.
Qed.

(** The sources are numbered; the values of the functions are texts by way of [decode] and [objname]. *)
Section Build.
  Context (w : world) (includes : list str) (root : str) (modules : str -> list str).
  Context (name : nat -> str) (decode : value -> list nat) (objname : value -> str).

  (** Each source_dependencies that ended answered as it does; each compile returned its path: with this
      builder or, for interfaces, with another one. *)
  Definition answered (srcs : list nat) (s1 : est) : Prop :=
    forall j v, j < length srcs -> In (Finished j (OVal v)) (e_trace s1) ->
    exists l, OcamlModel.source_dependencies w includes root (modules (name (nth j srcs 0))) (name (nth j srcs 0)) = Some l /\
      forall n, In n (decode v) <-> In (name n) l.
  Definition compiled (b : ocaml) (k : ocall) (srcs : list nat) (s2 : est) : Prop :=
    forall i v, i < length (keys srcs) -> In (Finished i (OVal v)) (e_trace s2) ->
    exists b' ex args, compile b' ex root (name (nth i (keys srcs) 0)) None k = Some (args, objname v) /\
      plain_call b' k /\ (oc_obj_suffix b' = oc_obj_suffix b \/ interface (name (nth i (keys srcs) 0))).

  (** Sources and tree are as source_dependencies expects. *)
  Record sources_ok (srcs : list nat) : Prop := SourcesOk {
    so_world : world_ok w;
    so_includes : Forall (include_ok w) includes;
    so_modules : forall n, In n srcs -> Forall module_ok (modules (name n));
    so_names : forall n m, name n = name m -> n = m;
    so_source : forall n, In n srcs -> source (name n);
    so_placed : forall n, In n srcs -> placed root (name n);
    so_root : no_dash root
  }.

  Lemma source_is_ok s : source s -> source_ok s.
  Proof.
    intros (b & n & c & [->| ->] & Hn & Hc & Hd) b' E.
    - apply app_inv_tail in E. subst b'. exists n, c. auto.
    - symmetry in E. destruct (not_both _ _ E).
  Qed.
  Lemma nth_keys srcs i : i < length (keys srcs) -> In (nth i (keys srcs) 0) srcs.
  Proof. intros H. apply C24_items. apply nth_In. exact H. Qed.

  (** One source depends on another as far as the scheduler is concerned if and only if it needs it. *)
  Lemma depends_needs srcs ls1 ls2 s1 s2 i d : sources_ok srcs -> request decode srcs ls1 ls2 s1 s2 -> answered srcs s1 ->
    i < length (keys srcs) -> d < length (keys srcs) ->
    (depends_on decode srcs s1 i d <-> needs w includes root modules (name (nth i (keys srcs) 0)) (name (nth d (keys srcs) 0))).
  Proof.
    intros Hso Hr Ha Hi Hd. destruct Hso as [W1 W2 W3 W4 W5 W6 W7].
    assert (forall n, In n srcs -> exists l, OcamlModel.source_dependencies w includes root (modules (name n)) (name n) = Some l /\
      forall p, In p l <-> needs w includes root modules (name n) p) as Hdep.
    { intros n Hn. apply (source_dependencies_ok w W1 includes root (modules (name n)) (name n) (W3 n Hn) W2 (source_is_ok _ (W5 n Hn))). }
    split.
    - intros (_ & _ & j & v & Hj & Hf & En & Hin). destruct (Ha j v Hj Hf) as (l & El & Hl). rewrite En in El.
      destruct (Hdep _ (nth_keys srcs i Hi)) as (l' & El' & Hl'). rewrite El in El'. injection El' as <-. apply Hl'. apply Hl. exact Hin.
    - intros Hn. split; [exact Hi|]. split; [exact Hd|].
      pose proof (nth_keys srcs i Hi) as Hin. destruct (In_nth _ _ 0 Hin) as (j & Hj & Ej).
      pose proof Hr as [H1 (rs & g & H2 & H3 & H4)].
      destruct (returned_outcomes _ _ _ _ _ j H1 H2 Hj) as (o & O1 & _ & O2).
      destruct (second_shape _ _ _ _ _ _ H1 H2 H3) as (_ & _ & Hv & _). destruct (Hv j Hj) as [v Ev].
      rewrite Ev in O1. injection O1 as <-. exists j, v. split; [exact Hj|]. split; [exact O2|]. split; [exact Ej|].
      destruct (Ha j v Hj O2) as (l & El & Hl). rewrite Ej in El. apply Hl.
      destruct (Hdep _ Hin) as (l' & El' & Hl'). rewrite El in El'. injection El' as <-. apply Hl'. exact Hn.
  Qed.

  Lemma compiled_object b' ex s k args o suffix : placed root s -> source s -> no_dash root -> plain_call b' k ->
    (oc_obj_suffix b' = suffix \/ interface s) -> compile b' ex root s None k = Some (args, o) -> object_of suffix root s o.
  Proof.
    intros Hp Hs Hd Hk Hx H. destruct (C79_compile b' ex root s k Hk Hp Hs Hd) as (args' & o' & _ & _ & _ & E & (c & b & Hc & Ho) & _).
    rewrite H in E. injection E as <- <-. exists c, b. split; [exact Hc|]. destruct Hx as [<-|(bi & Ei)]; [exact Ho|].
    right. destruct Ho as [[E1 _]|Ho]; [|exact Ho]. exfalso.
    destruct (copy_dir _ _ _ Hc) as (d & -> & _). rewrite Ei, app_assoc in E1. symmetry in E1. exact (not_both _ _ E1).
  Qed.
  Lemma object_cmi suffix s o : suffix = [46; 99; 109; 111]%N \/ suffix = [46; 99; 109; 120]%N -> object_of suffix root s o ->
    (implementation s <-> not_cmi o) /\ (implementation s \/ interface s).
  Proof.
    intros Hx (c & b & Hc & Ho). destruct (copy_dir _ _ _ Hc) as (d & Ed & Hdd).
    assert (forall e, (3 <= length e) -> ~ In c_sep e -> c = b ++ e -> exists b', s = b' ++ e) as Hb.
    { intros e He Hn E. destruct Hc as [[(r' & Er') Ec]|[_ Ec]].
      - exists b. rewrite <- Ec. exact E.
      - rewrite Ec in E. destruct (sep_before root s b e E Hn) as (r' & ->). exists r'.
        rewrite <- app_assoc in E. simpl in E. apply app_inv_head in E. injection E as E. exact E. }
    assert (forall (x y : str) p q, x ++ [46; 99; 109; p]%N = y ++ [46; 99; 109; q]%N -> p = q) as Hlast.
    { intros x y p q E. change [46; 99; 109; p]%N with ([46; 99; 109]%N ++ [p]) in E. change [46; 99; 109; q]%N with ([46; 99; 109]%N ++ [q]) in E.
      rewrite !app_assoc in E. apply app_inj_tail in E as [_ E]. exact E. }
    destruct Ho as [[E1 ->]|[E1 ->]].
    - destruct (Hb [46; 109; 108]%N) as (b' & Es); [simpl; lia|unfold c_sep; simpl; intuition discriminate|exact E1|].
      split; [|left; exists b'; exact Es]. split; [|intros _; exists b'; exact Es].
      intros _ x E. destruct Hx as [->| ->]; apply Hlast in E; discriminate.
    - destruct (Hb [46; 109; 108; 105]%N) as (b' & Es); [simpl; lia|unfold c_sep; simpl; intuition discriminate|exact E1|].
      split; [|right; exists b'; exact Es]. split.
      + intros (b'' & E). rewrite Es in E. symmetry in E. destruct (not_both _ _ E).
      + intros H. destruct (H b eq_refl).
  Qed.

  Lemma kept_objects suffix order objs used : suffix = [46; 99; 109; 111]%N \/ suffix = [46; 99; 109; 120]%N ->
    Forall2 (object_of suffix root) order objs -> kept not_cmi used objs ->
    exists impls, kept implementation impls order /\ Forall2 (object_of suffix root) impls used.
  Proof.
    intros Hx H. revert used. induction H as [|s o order objs Ho _ IH]; intros used Hk; inversion Hk; subst.
    - exists []. split; constructor.
    - destruct (IH _ H3) as (impls & A & B). exists (s :: impls). split; constructor; try assumption. apply (object_cmi suffix s o Hx Ho). assumption.
    - destruct (IH _ H3) as (impls & A & B). exists impls. split; [|exact B]. constructor; [|exact A].
      intros K. apply H2. apply (object_cmi suffix s o Hx Ho). exact K.
  Qed.

  (** Compiling starts only when what is needed has been compiled. *)
  Theorem C79_started srcs ls1 ls2 s1 s2 later i earlier d : sources_ok srcs -> request decode srcs ls1 ls2 s1 s2 -> answered srcs s1 ->
    (forall j e, ~ In (Finished j (OFatal e)) (e_trace s2)) ->
    e_trace s2 = later ++ Started i :: earlier -> i < length (keys srcs) -> d < length (keys srcs) ->
    needs w includes root modules (name (nth i (keys srcs) 0)) (name (nth d (keys srcs) 0)) ->
    exists v, In (Finished d (OVal v)) earlier.
  Proof.
    intros Hso Hr Ha Hf Ht Hi Hd Hn. apply (C25_partial _ _ _ _ _ _ _ _ _ _ Hr Hf Ht). apply (depends_needs srcs ls1 ls2 s1 s2); assumption.
  Qed.

  (** The objects that build_objects returns: of each source one, what it needs to the left. *)
  Theorem C79_objects b k depth srcs ls1 ls2 vs : sources_ok srcs ->
    (forall s1, first_run srcs ls1 = Some s1 -> answered srcs s1) ->
    (forall s1 s2, request decode srcs ls1 ls2 s1 s2 -> compiled b k srcs s2) ->
    mwd_result decode depth srcs ls1 ls2 = Some (WList vs) ->
    exists order, NoDup order /\ (forall s, In s order <-> exists n, In n srcs /\ name n = s) /\
      Forall2 (object_of (oc_obj_suffix b) root) order (map objname vs) /\
      forall s t, In s order -> In t order -> needs w includes root modules s t -> left_of t s order.
  Proof.
    intros Hso Ha Hc H. destruct (C29_order _ _ _ _ _ _ H) as (s1 & s2 & order & Hr & Hp & Hv & Hbefore).
    pose proof Hso as [W1 W2 W3 W4 W5 W6 W7].
    set (item := fun i => name (nth i (keys srcs) 0)).
    assert (forall i, In i order <-> i < length (keys srcs)) as Hin.
    { intros i. split; intros Hi.
      - apply (Permutation_in _ Hp) in Hi. apply in_seq in Hi. lia.
      - apply (Permutation_in _ (Permutation_sym Hp)). apply in_seq. lia. }
    assert (NoDup (keys srcs)) as Hnk by apply C24_items.
    assert (forall i j, i < length (keys srcs) -> j < length (keys srcs) -> item i = item j -> i = j) as Hinj.
    { intros i j Hi Hj E. apply W4 in E. apply (proj1 (NoDup_nth (keys srcs) 0) Hnk i j Hi Hj E). }
    exists (map item order). split; [|split; [|split]].
    - assert (NoDup order) as Hno by (apply (Permutation_NoDup (Permutation_sym Hp)); apply seq_NoDup).
      assert (forall l, NoDup l -> (forall i, In i l -> i < length (keys srcs)) -> NoDup (map item l)) as Hm.
      { induction l as [|i l IH]; intros Hl Hb; simpl; constructor; inversion Hl; subst.
        - intros K. apply in_map_iff in K as (j & Ej & Hj). apply H2. rewrite <- (Hinj j i); [exact Hj| | |exact Ej]; apply Hb; [right; exact Hj|left; reflexivity].
        - apply IH; [assumption|]. intros j Hj. apply Hb. right. exact Hj. }
      apply Hm; [exact Hno|]. intros i. apply Hin.
    - intros s. rewrite in_map_iff. split.
      + intros (i & <- & Hi). exists (nth i (keys srcs) 0). split; [apply nth_keys; apply Hin; exact Hi|reflexivity].
      + intros (n & Hn & <-). apply C24_items in Hn. destruct (In_nth _ _ 0 Hn) as (i & Hi & E). exists i. split; [unfold item; rewrite E; reflexivity|apply Hin; exact Hi].
    - pose proof Hr as [H1 (rs & g & H2 & H3 & H4)].
      pose proof (v_out _ _ _ (n_core _ _ _ (reach_inv _ _ _ _ H4))) as Hout.
      assert (forall i v, In i order -> e_out s2 i = Some (OVal v) -> object_of (oc_obj_suffix b) root (item i) (objname v)) as Hobj.
      { intros i v Hi E. apply Hout in E. destruct (Hc s1 s2 Hr i v (proj1 (Hin i) Hi) E) as (b' & ex & args & Ec & Hk & Hx).
        pose proof (nth_keys srcs i (proj1 (Hin i) Hi)) as Hn.
        apply (compiled_object b' ex (item i) k args); [apply W6; exact Hn|apply W5; exact Hn|exact W7|exact Hk|exact Hx|exact Ec]. }
      clear - Hv Hobj. revert vs Hv. induction order as [|i order IH]; intros [|v vs] E; try discriminate; simpl; [constructor|].
      simpl in E. injection E as E1 E2. constructor; [apply Hobj; [left; reflexivity|exact E1]|].
      apply IH; [intros j x Hj; apply Hobj; right; exact Hj|exact E2].
    - intros s t Hs Ht Hn. apply in_map_iff in Hs as (i & <- & Hi). apply in_map_iff in Ht as (d & <- & Hd).
      apply in_split in Hi as (before & after & E). rewrite E, map_app. simpl. apply left_before; [reflexivity|]. apply in_map.
      apply (Hbefore before i after d E).
      pose proof Hr as [H1 _].
      apply (depends_needs srcs ls1 ls2 s1 s2); auto; apply Hin; [rewrite E; apply in_or_app; right; left; reflexivity|exact Hd].
  Qed.

  (** The command that links an executable from these objects: after the libraries the objects of the
      implementations; what they need is to their left. *)
  Theorem C79_linked b k depth srcs ls1 ls2 vs ex dst k' args path : sources_ok srcs ->
    (forall s1, first_run srcs ls1 = Some s1 -> answered srcs s1) ->
    (forall s1 s2, request decode srcs ls1 ls2 s1 s2 -> compiled b k srcs s2) ->
    mwd_result decode depth srcs ls1 ls2 = Some (WList vs) ->
    (oc_obj_suffix b = [46; 99; 109; 111]%N \/ oc_obj_suffix b = [46; 99; 109; 120]%N) -> plain_call b k' ->
    link_exe b ex root dst (map objname vs) k' = Some (args, path) ->
    exists l files impls objs, oitems args = Some l /\ o_inputs l = files ++ objs /\ o_outputs l = [path] /\
      Forall2 (library_file b ex) (libraries b k') files /\
      Forall2 (object_of (oc_obj_suffix b) root) impls objs /\
      NoDup impls /\ (forall s, In s impls <-> implementation s /\ exists n, In n srcs /\ name n = s) /\
      forall s t, In s impls -> In t impls -> needs w includes root modules s t -> left_of t s impls.
  Proof.
    intros Hso Ha Hc H Hx Hk Hl. destruct (C79_objects b k depth srcs ls1 ls2 vs Hso Ha Hc H) as (order & Hn & Hin & Ho & Hb).
    pose proof Hso as [W1 W2 W3 W4 W5 W6 W7].
    assert (forall o, In o (map objname vs) -> no_dash o) as Hd.
    { intros o Hio. assert (exists s, In s order /\ object_of (oc_obj_suffix b) root s o) as (s & Hs & c & x & Hcp & Hxo).
      { clear - Ho Hio. induction Ho as [|s o' order objs H _ IH]; [destruct Hio|]. destruct Hio as [->|Hio]; [exists s; split; [left; reflexivity|exact H]|].
        destruct (IH Hio) as (s' & A & B). exists s'. split; [right; exact A|exact B]. }
      apply Hin in Hs as (n & Hn' & <-). pose proof (W6 n Hn') as (_ & Hr & _).
      destruct (copy_root _ _ _ Hcp) as (r & Er).
      assert (exists e e', c = x ++ e /\ o = x ++ e' /\ ~ In c_sep e) as (e & e' & E1 & -> & He).
      { destruct Hxo as [[-> ->]|[-> ->]]; do 2 eexists; (split; [reflexivity|split; [reflexivity|]]); unfold c_sep; cbn; intuition discriminate. }
      rewrite Er in E1. destruct (sep_before root r x e E1 He) as (r' & ->). destruct root as [|z root']; [congruence|].
      intros t E. simpl in E. injection E as Ez _. subst z. apply (W7 root'). reflexivity. }
    destruct (C79_link_exe b ex root dst (map objname vs) k' args path Hk Hd Hl) as (l & files & used & E1 & E2 & E3 & _ & E5 & E6).
    destruct (kept_objects _ order (map objname vs) used Hx Ho E6) as (impls & Hki & Hf).
    exists l, files, impls, used. split; [exact E1|]. split; [exact E2|]. split; [exact E3|]. split; [exact E5|]. split; [exact Hf|].
    split; [|split].
    - clear - Hki Hn. induction Hki as [|x i o Hx Hk IH|x i o Hx Hk IH]; [constructor| |]; inversion Hn; subst; [|auto].
      constructor; [|auto]. intros K. apply (kept_in _ _ _ x Hk) in K as [K _]. contradiction.
    - intros s. rewrite (kept_in _ _ _ s Hki), Hin. tauto.
    - intros s t Hs Ht Hneed. apply (kept_in _ _ _ _ Hki) in Hs as [Hs Ps], Ht as [Ht Pt].
      apply (kept_left _ _ _ _ _ Hki); auto.
  Qed.
End Build.

(** *** An instance: x.ml uses B, which has an interface *)
Definition nm (s : string) : str := map (fun c => N.of_nat (nat_of_ascii c)) (list_ascii_of_string s).
Definition ex_world : world := World (NDir [(nm "x.ml", NFile); (nm "b.mli", NFile); (nm "b.ml", NFile); (nm "r", NDir [])]) [].
Lemma ex_world_ok : world_ok ex_world.
Proof. eapply world_check; reflexivity. Qed.
Definition ex_uses (s : str) : list str := if str_eqb s (nm "x.ml") then [nm "B"] else [].
Definition ex_name (n : nat) : str :=
  match n with 0 => nm "x.ml" | 1 => nm "b.mli" | 2 => nm "b.ml" | _ => repeat 122%N n end.
Definition ex_needed (v : value) : list nat := match v with 1 => [1; 2] | 2 => [1] | _ => [] end.
Definition ex_object (v : value) : str := match v with 10 => nm "r/x.cmo" | 11 => nm "r/b.cmi" | _ => nm "r/b.cmo" end.
Definition ocamlc : ocaml := Ocaml (nm ".cmo") (nm ".cma") [] [] [nm "str"] None [] [] [nm "-w"; nm "A"] false false [nm "-g"] [].
Definition ex_call : ocall := OCall (objects_includes (nm "r") [] [] [] [nm "x.ml"; nm "b.mli"; nm "b.ml"]) [] [] [] [] (Some true) None false None [] None None.
Definition ex_link : ocall := OCall [] [nm "lib/l"] [] [] [] None None true None [nm "m"] None None.
Definition ex_exists (p : str) : bool := str_eqb p (nm "r").
Definition ex_ls1 : list label := [LStart 0; LFinish 0 (OVal 1); LProcess; LStart 1; LFinish 1 (OVal 0); LProcess; LStart 2; LFinish 2 (OVal 2); LProcess].
Definition ex_ls2 : list label := [LStart 1; LFinish 1 (OVal 11); LProcess; LStart 2; LFinish 2 (OVal 12); LProcess; LStart 0; LFinish 0 (OVal 10); LProcess].
Lemma ex_name_inj n m : ex_name n = ex_name m -> n = m.
Proof.
  assert (forall n, 3 <= n -> ex_name n = repeat 122%N n) as H by (intros [|[|[|k]]] Hk; try lia; reflexivity).
  assert (forall n m, n < 3 -> 3 <= m -> ex_name n <> ex_name m) as Hx.
  { intros [|[|[|k]]] j Hk Hj; try lia; rewrite (H j Hj); destruct j as [|j]; try lia; discriminate. }
  destruct (Nat.lt_ge_cases n 3) as [Hn|Hn], (Nat.lt_ge_cases m 3) as [Hm|Hm]; intros E.
  - destruct n as [|[|[|n]]], m as [|[|[|m]]]; try lia; try reflexivity; discriminate.
  - destruct (Hx n m Hn Hm E).
  - destruct (Hx m n Hm Hn (eq_sym E)).
  - rewrite (H n Hn), (H m Hm) in E. apply (f_equal (@length N)) in E. rewrite !repeat_length in E. exact E.
Qed.
Lemma high_name n l : 3 <= n -> Forall (fun p => exists c, In c p /\ c <> 122%N) l -> ~ In (ex_name n) l.
Proof.
  intros Hn Hl Hin. assert (ex_name n = repeat 122%N n) as E by (destruct n as [|[|[|k]]]; try lia; reflexivity).
  rewrite Forall_forall in Hl. destruct (Hl _ Hin) as (c & Hc & Hd). rewrite E in Hc. apply repeat_spec in Hc. contradiction.
Qed.
Ltac source_by b n := exists (nm b), (nm n); eexists; split; [first [left; reflexivity|right; reflexivity]|];
  split; [split; [vm_compute; intuition discriminate|first [exists []; split; [reflexivity|left; reflexivity]]]|split; [left; reflexivity|discriminate]].
Lemma r_placed s : isabs s = false -> (forall q, s <> 114%N :: q) -> placed (nm "r") s.
Proof.
  intros Ha Hn. split; [exact Ha|]. split; [discriminate|]. split; [reflexivity|]. intros q E. destruct (Hn q E).
Qed.
Lemma ex_sources : sources_ok ex_world [nm "r"] (nm "r") ex_uses ex_name [0; 1; 2].
Proof.
  constructor.
  - exact ex_world_ok.
  - constructor; [intros _; reflexivity|constructor].
  - intros n _. unfold ex_uses. destruct (str_eqb (ex_name n) (nm "x.ml")); [|constructor]. constructor; [|constructor].
    split; [vm_compute; intuition discriminate|]. exists 66%N. split; [left; reflexivity|discriminate].
  - exact ex_name_inj.
  - intros n [<-|[<-|[<-|[]]]]; [source_by "x"%string "x"%string|source_by "b"%string "b"%string|source_by "b"%string "b"%string].
  - intros n [<-|[<-|[<-|[]]]]; apply r_placed; try reflexivity; intros q E; discriminate.
  - intros r E. discriminate.
Qed.
Lemma no_words b k : oc_pre_flags b = [] -> k_pre_flags k = [] -> oc_debug_flags b = [nm "-g"] -> oc_optimize_flags b = [] ->
  oc_flags b = [nm "-w"; nm "A"] -> k_flags k = [] -> oc_obj_suffix b = nm ".cmo" -> oc_lib_suffix b = nm ".cma" ->
  Forall (fun l => exists c r, l = c :: r /\ c <> 45%N) (libraries b k) -> plain_call b k.
Proof.
  intros E1 E2 E3 E4 E5 E6 E7 E8 Hl. constructor.
  - rewrite E1. exists []. split; [reflexivity|apply quiet_nil].
  - rewrite E2. exists []. split; [reflexivity|apply quiet_nil].
  - rewrite E3. eexists. split; [reflexivity|split; reflexivity].
  - rewrite E4. exists []. split; [reflexivity|apply quiet_nil].
  - rewrite E5, E6. eexists. split; [reflexivity|split; reflexivity].
  - intros l Hin. rewrite Forall_forall in Hl. destruct (Hl l Hin) as (c & r & -> & Hc). split; intros q E; simpl in E; injection E as E _; contradiction.
  - rewrite E7. vm_compute. intuition discriminate.
Qed.
Lemma ex_call_plain : plain_call ocamlc ex_call.
Proof. apply no_words; try reflexivity. apply Forall_cons; [|apply Forall_nil]. do 2 eexists. split; [reflexivity|discriminate]. Qed.
Lemma ex_link_plain : plain_call ocamlc ex_link.
Proof.
  apply no_words; try reflexivity. apply Forall_cons; [|apply Forall_cons; [|apply Forall_nil]]; do 2 eexists; (split; [reflexivity|discriminate]).
Qed.
Lemma ex_answered s1 : first_run [0; 1; 2] ex_ls1 = Some s1 -> answered ex_world [nm "r"] (nm "r") ex_uses ex_name ex_needed [0; 1; 2] s1.
Proof.
  intros E. vm_compute in E. injection E as <-. intros j v _ Hf. cbn [e_trace] in Hf.
  assert ((j = 0 /\ v = 1) \/ (j = 1 /\ v = 0) \/ (j = 2 /\ v = 2)) as Hc.
  { repeat (destruct Hf as [Hf|Hf]; [try discriminate; injection Hf as <- <-; auto|]). destruct Hf. }
  clear Hf. destruct Hc as [[-> ->]|[[-> ->]|[-> ->]]]; eexists; (split; [vm_compute; reflexivity|]); intros n;
    (destruct (Nat.lt_ge_cases n 3) as [Hn|Hn];
     [destruct n as [|[|[|n]]]; try lia; vm_compute; intuition discriminate
     |split; [intros H; exfalso; simpl in H; lia
             |intros H; exfalso; revert H; apply high_name; [exact Hn|repeat (apply Forall_cons; [eexists; split; [left; reflexivity|discriminate]|]); apply Forall_nil]]]).
Qed.
Lemma ex_compiled s1 s2 : request ex_needed [0; 1; 2] ex_ls1 ex_ls2 s1 s2 ->
  compiled (nm "r") ex_name ex_object ocamlc ex_call [0; 1; 2] s2.
Proof.
  intros [H1 (rs & g & H2 & H3 & H4)]. vm_compute in H1. injection H1 as <-. cbn [e_status] in H2. injection H2 as <-.
  vm_compute in H3. injection H3 as <-. vm_compute in H4. injection H4 as <-.
  intros i v Hi Hf. cbn [e_trace] in Hf.
  assert ((i = 0 /\ v = 10) \/ (i = 1 /\ v = 11) \/ (i = 2 /\ v = 12)) as Hc.
  { repeat (destruct Hf as [Hf|Hf]; [try discriminate; injection Hf as <- <-; auto|]). destruct Hf. }
  clear Hf. destruct Hc as [[-> ->]|[[-> ->]|[-> ->]]]; exists ocamlc, ex_exists; eexists;
    (split; [vm_compute; reflexivity|split; [exact ex_call_plain|left; reflexivity]]).
Qed.
Example C79_example :
  sources_ok ex_world [nm "r"] (nm "r") ex_uses ex_name [0; 1; 2] /\
  mwd_result ex_needed 9 [0; 1; 2] ex_ls1 ex_ls2 = Some (WList [11; 12; 10]) /\
  link_exe ocamlc ex_exists (nm "r") (nm "bin/x") (map ex_object [11; 12; 10]) ex_link =
    Some ([nm "-custom"; nm "-cclib"; nm "-lm"; nm "-w"; nm "A"; nm "-o"; nm "r/bin/x"; nm "str.cma"; nm "lib/l.cma"; nm "r/b.cmo"; nm "r/x.cmo"], nm "r/bin/x") /\
  needs ex_world [nm "r"] (nm "r") ex_uses (nm "x.ml") (nm "b.ml").
Proof.
  split; [exact ex_sources|]. split; [vm_compute; reflexivity|]. split; [vm_compute; reflexivity|].
  left. exists (nm "B"). split; [left; reflexivity|]. left. exists [46; 109; 108]%N. split; [right; reflexivity|]. split; [reflexivity|left; reflexivity].
Qed.
Example C79_example_compile :
  compile ocamlc ex_exists (nm "r") (nm "b.mli") None ex_call =
    Some ([nm "-c"; nm "-g"; nm "-I"; nm "r"; nm "-w"; nm "A"; nm "-o"; nm "r/b.cmi"; nm "str.cma"; nm "r/b.mli"], nm "r/b.cmi").
Proof. vm_compute. reflexivity. Qed.

(** *** What does not hold *)
(** Sources that the compiler takes in some order are refused: a.mli uses B and b.ml uses A.  Each
    mention of a module is taken to need its implementation, even if there is an interface. *)
Definition never_refused : Prop := forall w includes root modules name decode srcs ls1 ls2 s1 s2 p,
  sources_ok w includes root modules name srcs -> request decode srcs ls1 ls2 s1 s2 ->
  answered w includes root modules name decode srcs s1 ->
  ~ cyclic (fun i d => i < length (keys srcs) /\ d < length (keys srcs) /\
      compile_needs w includes root modules (name (nth i (keys srcs) 0)) (name (nth d (keys srcs) 0))) ->
  e_status s2 <> LoopError p.
Definition loop_world : world := World (NDir [(nm "a.mli", NFile); (nm "a.ml", NFile); (nm "b.mli", NFile); (nm "b.ml", NFile)]) [].
Lemma loop_world_ok : world_ok loop_world.
Proof. eapply world_check; reflexivity. Qed.
Definition loop_uses (s : str) : list str :=
  if str_eqb s (nm "a.mli") then [nm "B"] else if str_eqb s (nm "b.ml") then [nm "A"] else [].
Definition loop_name (n : nat) : str :=
  match n with 0 => nm "a.mli" | 1 => nm "a.ml" | 2 => nm "b.mli" | 3 => nm "b.ml" | _ => repeat 122%N n end.
Definition loop_needed (v : value) : list nat := match v with 1 => [2; 3] | 2 => [0] | 3 => [0; 1; 2] | _ => [] end.
Definition loop_ls1 : list label :=
  [LStart 0; LFinish 0 (OVal 1); LProcess; LStart 1; LFinish 1 (OVal 2); LProcess;
   LStart 2; LFinish 2 (OVal 0); LProcess; LStart 3; LFinish 3 (OVal 3); LProcess].
Definition loop_ls2 : list label := [LStart 2; LFinish 2 (OVal 7); LProcess].
Lemma loop_name_inj n m : loop_name n = loop_name m -> n = m.
Proof.
  assert (forall n, 4 <= n -> loop_name n = repeat 122%N n) as H by (intros [|[|[|[|k]]]] Hk; try lia; reflexivity).
  assert (forall n m, n < 4 -> 4 <= m -> loop_name n <> loop_name m) as Hx.
  { intros [|[|[|[|k]]]] j Hk Hj; try lia; rewrite (H j Hj); destruct j as [|j]; try lia; discriminate. }
  destruct (Nat.lt_ge_cases n 4) as [Hn|Hn], (Nat.lt_ge_cases m 4) as [Hm|Hm]; intros E.
  - destruct n as [|[|[|[|n]]]], m as [|[|[|[|m]]]]; try lia; try reflexivity; discriminate.
  - destruct (Hx n m Hn Hm E).
  - destruct (Hx m n Hm Hn (eq_sym E)).
  - rewrite (H n Hn), (H m Hm) in E. apply (f_equal (@length N)) in E. rewrite !repeat_length in E. exact E.
Qed.
Lemma loop_high n l : 4 <= n -> Forall (fun p => exists c, In c p /\ c <> 122%N) l -> ~ In (loop_name n) l.
Proof.
  intros Hn Hl Hin. assert (loop_name n = repeat 122%N n) as E by (destruct n as [|[|[|[|k]]]]; try lia; reflexivity).
  rewrite Forall_forall in Hl. destruct (Hl _ Hin) as (c & Hc & Hd). rewrite E in Hc. apply repeat_spec in Hc. contradiction.
Qed.
Lemma loop_modules n : Forall module_ok (loop_uses (loop_name n)).
Proof.
  unfold loop_uses. destruct (str_eqb (loop_name n) (nm "a.mli")); [|destruct (str_eqb (loop_name n) (nm "b.ml"))].
  - constructor; [|constructor]. split; [vm_compute; intuition discriminate|]. eexists. split; [left; reflexivity|discriminate].
  - constructor; [|constructor]. split; [vm_compute; intuition discriminate|]. eexists. split; [left; reflexivity|discriminate].
  - constructor.
Qed.
Lemma loop_sources : sources_ok loop_world [] (nm "r") loop_uses loop_name [0; 1; 2; 3].
Proof.
  constructor.
  - exact loop_world_ok.
  - constructor.
  - intros n _. apply loop_modules.
  - exact loop_name_inj.
  - intros n [<-|[<-|[<-|[<-|[]]]]]; [source_by "a"%string "a"%string|source_by "a"%string "a"%string|source_by "b"%string "b"%string|source_by "b"%string "b"%string].
  - intros n [<-|[<-|[<-|[<-|[]]]]]; apply r_placed; try reflexivity; intros q E; discriminate.
  - intros r E. discriminate.
Qed.
Lemma loop_answered s1 : first_run [0; 1; 2; 3] loop_ls1 = Some s1 -> answered loop_world [] (nm "r") loop_uses loop_name loop_needed [0; 1; 2; 3] s1.
Proof.
  intros E. vm_compute in E. injection E as <-. intros j v _ Hf. cbn [e_trace] in Hf.
  assert ((j = 0 /\ v = 1) \/ (j = 1 /\ v = 2) \/ (j = 2 /\ v = 0) \/ (j = 3 /\ v = 3)) as Hc.
  { repeat (destruct Hf as [Hf|Hf]; [try discriminate; injection Hf as <- <-; auto|]). destruct Hf. }
  clear Hf. destruct Hc as [[-> ->]|[[-> ->]|[[-> ->]|[-> ->]]]]; eexists; (split; [vm_compute; reflexivity|]); intros n;
    (destruct (Nat.lt_ge_cases n 4) as [Hn|Hn];
     [destruct n as [|[|[|[|n]]]]; try lia; vm_compute; intuition discriminate
     |split; [intros H; exfalso; simpl in H; lia
             |intros H; exfalso; revert H; apply loop_high; [exact Hn|repeat (apply Forall_cons; [eexists; split; [left; reflexivity|discriminate]|]); apply Forall_nil]]]).
Qed.
(** b.mli, a.mli, then the implementations *)
Definition loop_rank (n : nat) : nat := match n with 2 => 0 | 0 => 1 | _ => 2 end.
Lemma loop_interface i d : i < 4 -> d < 4 -> has_interface loop_world [] (nm "r") (loop_name i) (loop_name d) -> loop_rank d < loop_rank i.
Proof.
  intros Hi Hd Hn. apply find_interface_ok in Hn.
  2:{ apply source_is_ok. apply (so_source _ _ _ _ _ _ loop_sources). destruct i as [|[|[|[|i]]]]; try lia; simpl; tauto. }
  destruct i as [|[|[|[|i]]]], d as [|[|[|[|d]]]]; try lia; vm_compute in Hn; first [exfalso; intuition discriminate|vm_compute; lia].
Qed.
Lemma loop_edge i d : i < 4 -> d < 4 -> compile_needs loop_world [] (nm "r") loop_uses (loop_name i) (loop_name d) -> loop_rank d < loop_rank i.
Proof.
  intros Hi Hd [Hn|(m & Hm & Hf & Hx)]; [apply loop_interface; assumption|].
  assert (exists b, names_file loop_world [] m (b ++ [46; 109; 108; 105]%N)) as (b & Hb).
  { assert (m = nm "A" \/ m = nm "B") as [-> | ->].
    { unfold loop_uses in Hm. destruct (str_eqb (loop_name i) (nm "a.mli")); [destruct Hm as [<-|[]]; auto|].
      destruct (str_eqb (loop_name i) (nm "b.ml")); [destruct Hm as [<-|[]]; auto|destruct Hm]. }
    - exists (nm "a"). left. exists [46; 109; 108; 105]%N. split; [left; reflexivity|]. split; [reflexivity|left; reflexivity].
    - exists (nm "b"). left. exists [46; 109; 108; 105]%N. split; [left; reflexivity|]. split; [reflexivity|left; reflexivity]. }
  destruct (Hx _ Hb (ex_intro _ b eq_refl)) as (b' & Eb).
  destruct (find_modules_ok loop_world loop_world_ok [] (loop_uses (loop_name i)) (loop_modules i) (Forall_nil _)) as (l & El & Hl).
  assert (In (loop_name d) l) as Hin by (apply Hl; exists m; auto).
  destruct i as [|[|[|[|i]]]]; try lia; vm_compute in El; injection El as <-.
  - assert (d <> 3) as Hd3. { intros ->. change (loop_name 3) with (nm "b" ++ [46; 109; 108]%N) in Eb. exact (not_both _ _ Eb). }
    destruct d as [|[|[|[|d]]]]; try lia; vm_compute in Hin; try (intuition discriminate). vm_compute. lia.
  - destruct Hin.
  - destruct Hin.
  - assert (d <> 1) as Hd1. { intros ->. change (loop_name 1) with (nm "a" ++ [46; 109; 108]%N) in Eb. exact (not_both _ _ Eb). }
    destruct d as [|[|[|[|d]]]]; try lia; vm_compute in Hin; try (intuition discriminate). vm_compute. lia.
Qed.
Theorem C79_refused_refuted : ~ never_refused.
Proof.
  intros H.
  assert (exists s1 s2 p, request loop_needed [0; 1; 2; 3] loop_ls1 loop_ls2 s1 s2 /\ e_status s2 = LoopError p) as (s1 & s2 & p & Hr & He).
  { do 3 eexists. split; [split; [vm_compute; reflexivity|do 2 eexists; split; [reflexivity|split; [vm_compute; reflexivity|vm_compute; reflexivity]]]|reflexivity]. }
  apply (H loop_world [] (nm "r") loop_uses loop_name loop_needed [0; 1; 2; 3] loop_ls1 loop_ls2 s1 s2 p loop_sources Hr); [| |exact He].
  - apply loop_answered. apply Hr.
  - intros (i & Hc).
    assert (forall i j, reaches (fun i d => i < 4 /\ d < 4 /\ compile_needs loop_world [] (nm "r") loop_uses
        (loop_name (nth i [0; 1; 2; 3] 0)) (loop_name (nth d [0; 1; 2; 3] 0))) i j -> loop_rank j < loop_rank i) as Hrank.
    { assert (forall i, i < 4 -> nth i [0; 1; 2; 3] 0 = i) as Hnth by (intros [|[|[|[|k]]]] Hk; try lia; reflexivity).
      induction 1 as [a b (Ha & Hb & Hn)|a b c (Ha & Hb & Hn) _ IH]; rewrite (Hnth a Ha), (Hnth b Hb) in Hn;
        pose proof (loop_edge a b Ha Hb Hn); lia. }
    pose proof (Hrank i i Hc). lia.
Qed.

(** What a source needs is looked up in the set of include directories in the order of its iteration: only
    in the first one for the interface. *)
Definition set_of_includes : Prop := forall w includes includes' root modules s p,
  world_ok w -> (forall d, In d includes <-> In d includes') ->
  needs w includes root modules s p -> needs w includes' root modules s p.
Definition set_world : world := World (NDir [(nm "a", NDir []); (nm "b", NDir [(nm "x.mli", NFile)]); (nm "x.ml", NFile)]) [].
Theorem C79_iteration_refuted : ~ set_of_includes.
Proof.
  intros H. assert (world_ok set_world) as Hw by (eapply world_check; reflexivity).
  assert (source_ok (nm "x.ml")) as Hs by (apply source_is_ok; source_by "x"%string "x"%string).
  assert (forall l, l = [nm "a"; nm "b"] \/ l = [nm "b"; nm "a"] -> Forall (include_ok set_world) l) as Hi
    by (intros l [-> | ->]; repeat (apply Forall_cons; [intros _; reflexivity|]); apply Forall_nil).
  destruct (source_dependencies_ok set_world Hw [nm "a"; nm "b"] (nm "r") [] (nm "x.ml") (Forall_nil _) (Hi _ (or_introl eq_refl)) Hs) as (l & El & Hl).
  destruct (source_dependencies_ok set_world Hw [nm "b"; nm "a"] (nm "r") [] (nm "x.ml") (Forall_nil _) (Hi _ (or_intror eq_refl)) Hs) as (l' & El' & Hl').
  vm_compute in El, El'. injection El as <-. injection El' as <-.
  apply (Hl (nm "b/x.mli")).
  apply (H set_world [nm "b"; nm "a"] [nm "a"; nm "b"] (nm "r") (fun _ => []) (nm "x.ml") (nm "b/x.mli") Hw).
  - intros d. simpl. tauto.
  - apply Hl'. left. reflexivity.
Qed.

(** The objects of the other sources are not searched if the build root of the call is not that of the
    context, or if one source is absolute. *)
Definition searched (any_root any_path : Prop) : Prop := forall b ex root here includes libs external_libs srcs s t args path o argst k d l,
  (any_root \/ here = root) -> (any_path \/ placed root t) ->
  plain_call b k -> k_includes k = objects_includes here includes libs external_libs srcs ->
  In s srcs -> In t srcs -> compile b ex root s None k = Some (args, path) -> oitems args = Some l ->
  compile b ex root t None k = Some (argst, o) -> GccSpec.directory o d -> ex d = true -> In (OInc d) l.
Definition far_call (here s t : str) : ocall := OCall (objects_includes here [] [] [] [s; t]) [] [] [] [] None None false None [] None None.
Lemma far_plain here s t : plain_call ocamlc (far_call here s t).
Proof. apply no_words; try reflexivity. apply Forall_cons; [|apply Forall_nil]. do 2 eexists. split; [reflexivity|discriminate]. Qed.
Theorem C79_other_root_refuted : ~ searched True False.
Proof.
  intros H. set (s := nm "d/x.ml"). set (t := nm "e/y.ml").
  assert (In (OInc (nm "o/e")) [OOpt (nm "-c"); OInc (nm "d"); OInc (nm "e"); OInc (nm "o/d"); OInc (nm "r/d"); OInc (nm "r/e");
    OOpt2 (nm "-w") (nm "A"); OOut (nm "o/d/x.cmo"); OIn (nm "str"); OIn (nm "o/d/x.ml")]) as K.
  { eapply (H ocamlc (fun _ => true) (nm "o") (nm "r") [] [] [] [s; t] s t _ _ (nm "o/e/y.cmo") _ (far_call (nm "r") s t)).
    - left. exact I.
    - right. split; [reflexivity|]. split; [discriminate|]. split; [reflexivity|]. intros q E. discriminate.
    - apply far_plain.
    - reflexivity.
    - left. reflexivity.
    - right. left. reflexivity.
    - vm_compute. reflexivity.
    - vm_compute. reflexivity.
    - vm_compute. reflexivity.
    - apply GccFacts.directory_iff. reflexivity.
    - reflexivity. }
  vm_compute in K. intuition discriminate.
Qed.
Theorem C79_absolute_refuted : ~ searched False True.
Proof.
  intros H. set (s := nm "d/x.ml"). set (t := nm "/e/y.ml").
  assert (In (OInc (nm "r")) [OOpt (nm "-c"); OInc (nm "/e"); OInc (nm "d"); OInc (nm "r/d"); OInc (nm "r/e");
    OOpt2 (nm "-w") (nm "A"); OOut (nm "r/d/x.cmo"); OIn (nm "str"); OIn (nm "r/d/x.ml")]) as K.
  { eapply (H ocamlc (fun _ => true) (nm "r") (nm "r") [] [] [] [s; t] s t _ _ (nm "r/y.cmo") _ (far_call (nm "r") s t)).
    - right. reflexivity.
    - left. exact I.
    - apply far_plain.
    - reflexivity.
    - left. reflexivity.
    - right. left. reflexivity.
    - vm_compute. reflexivity.
    - vm_compute. reflexivity.
    - vm_compute. reflexivity.
    - apply GccFacts.directory_iff. reflexivity.
    - reflexivity. }
  vm_compute in K. intuition discriminate.
Qed.

(** A packed object is not put below the build root of the call. *)
Definition packed_below : Prop := forall b root buildroot dst, placed buildroot dst -> exists r, pack b root buildroot dst = buildroot ++ c_sep :: r.
Theorem C79_pack_refuted : ~ packed_below.
Proof.
  intros H. destruct (H ocamlc (nm "r") (nm "o") (nm "x")) as (r & E); [|discriminate E].
  split; [reflexivity|]. split; [discriminate|]. split; [reflexivity|]. intros q E. discriminate.
Qed.
Theorem C79_pack_partial b root dst : placed root dst -> exists r, pack b root root dst = root ++ c_sep :: r.
Proof.
  intros Hp. destruct (copy_root _ _ _ (placed_copy root dst Hp)) as (r & E). exists (r ++ oc_obj_suffix b). unfold pack. rewrite E.
  destruct (addroot_cases ((root ++ c_sep :: r) ++ oc_obj_suffix b) root) as [[_ K]|[K _]]; [rewrite K, <- app_assoc; reflexivity|].
  rewrite <- app_assoc, startswith_app in K. discriminate.
Qed.

(** Packing two objects and an interface. *)
Example C79_packed_ex :
  pack_run ocamlc (fun _ => false) (nm "r") (nm "r") (nm "p") [nm "r/a.cmi"; nm "r/a.cmo"; nm "r/b.cmo"] (OCall [] [] [] [nm "-g"] [] None None false None [] None None) =
    Some ([nm "-g"; nm "-pack"; nm "-w"; nm "A"; nm "-o"; nm "r/p.cmo"; nm "str.cma"; nm "r/a.cmo"; nm "r/b.cmo"], nm "r/p.cmo").
Proof. vm_compute. reflexivity. Qed.

(** The flags of Ocamlopt for profiling come after the others, if profiling is asked for: in the call, or
    else for the builder. *)
Theorem C79_profile self self_flags flags profile ps :
  opt_flags self self_flags flags profile ps =
    if match profile with Some p => p | None => self end then flags ++ self_flags else flags.
Proof. unfold opt_flags, GccModel.wanted. destruct profile as [[]|], self; reflexivity. Qed.
(** Flags for profiling that are given to Ocamlopt in a call are not used. *)
Definition profile_given : Prop := forall self self_flags flags p ps, In p ps -> In p (opt_flags self self_flags flags (Some true) (Some ps)).
Theorem C79_profile_refuted : ~ profile_given.
Proof. intros H. specialize (H true [nm "-p"] [] (nm "-pg") [nm "-pg"] (or_introl eq_refl)). vm_compute in H. intuition discriminate. Qed.

Print Assumptions C79_started.
Print Assumptions C79_objects.
Print Assumptions C79_linked.
Print Assumptions C79_refused_refuted.
Print Assumptions C79_iteration_refuted.
Print Assumptions C79_other_root_refuted.
Print Assumptions C79_absolute_refuted.
Print Assumptions C79_pack_refuted.
Print Assumptions C79_profile_refuted.
Print Assumptions C79_profile.
