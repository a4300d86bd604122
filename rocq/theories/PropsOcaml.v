(** C72: the source files an OCaml file depends on. *)
From stdpp Require Import base list gmap relations.
From Coq Require Import NArith.
From Verif Require Import ScanModel ScanFacts.
From Verif Require Import FnModel PathModel PathSpec GlobModel GlobSpec TreeCheck OcamlModel OcamlSpec OcamlFacts.
Open Scope N_scope.
Notation In := List.In.

(** Ocamldep.source_dependencies answers, with the files of the modules and the interface. *)
Theorem C72_exact w includes buildroot modules src :
  world_ok w -> List.Forall module_ok modules -> List.Forall (include_ok w) includes -> source_ok src ->
  exists l, source_dependencies w includes buildroot modules src = Some l /\
    forall p, In p l <-> (exists m, In m modules /\ names_file w includes m p) \/ has_interface w includes buildroot src p.
Proof. intros Hw Hm Hi Hs. exact (source_dependencies_ok w Hw includes buildroot modules src Hm Hi Hs). Qed.

(** Every file in the answer is there. *)
Theorem C72_exist w includes buildroot modules src l p :
  world_ok w -> List.Forall module_ok modules -> List.Forall (include_ok w) includes -> source_ok src ->
  source_dependencies w includes buildroot modules src = Some l -> In p l -> present w p.
Proof.
  intros Hw Hm Hi Hs El Hp. destruct (C72_exact w includes buildroot modules src Hw Hm Hi Hs) as (l' & El' & H).
  rewrite El in El'. injection El' as <-. apply H in Hp. destruct Hp as [(m & _ & Hp)|[Hp _]]; [|exact Hp].
  destruct Hp as [(s & _ & Hp & _)|[_ (i & _ & _ & s & _ & Hp & _)]]; exact Hp.
Qed.

(** One step of dependency, and what the scan of the native builder (C54) finds with it. *)
Definition needs (w : world) (includes : list str) (buildroot : str) (modules : str -> list str) (src p : str) : Prop :=
  (exists m, In m (modules src) /\ names_file w includes m p) \/ has_interface w includes buildroot src p.
Definition dependencies (w : world) (includes : list str) (buildroot : str) (modules : str -> list str) (src : list N) : list (list N) :=
  default [] (source_dependencies w includes buildroot (modules src) src).
Lemma dependencies_needs w includes buildroot modules src :
  world_ok w -> List.Forall module_ok (modules src) -> List.Forall (include_ok w) includes -> source_ok src ->
  forall p, p ∈ dependencies w includes buildroot modules src <-> needs w includes buildroot modules src p.
Proof.
  intros Hw Hm Hi Hs p. unfold dependencies.
  destruct (C72_exact w includes buildroot (modules src) src Hw Hm Hi Hs) as (l & -> & H). cbn [default].
  rewrite elem_of_list_In. exact (H p).
Qed.
Theorem C72_scan w includes buildroot modules depth src r :
  world_ok w -> List.Forall (include_ok w) includes -> (forall f, List.Forall module_ok (modules f)) -> source_ok src ->
  native_scan (dependencies w includes buildroot modules) depth src = Some r ->
  forall p, p ∈ r <-> tc (needs w includes buildroot modules) src p.
Proof.
  intros Hw Hi Hf Hs Hr p. rewrite (native_exact _ depth src r Hr p). clear Hr.
  assert (forall x y : list N, source_ok x ->
    (y ∈ dependencies w includes buildroot modules x <-> needs w includes buildroot modules x y)) as He.
  { intros x y Hx. exact (dependencies_needs w includes buildroot modules x Hw (Hf x) Hi Hx y). }
  assert (forall x y : list N, source_ok x -> needs w includes buildroot modules x y -> source_ok y) as Hn.
  { intros x y _ H. exact (dependency_source w includes buildroot (modules x) x y (Hf x) H). }
  split; intros Ht; induction Ht as [x y Hy|x y z Hy _ IH].
  - apply tc_once. apply He; [exact Hs|exact Hy].
  - apply He in Hy; [|exact Hs]. apply tc_l with y; [exact Hy|exact (IH (Hn x y Hs Hy))].
  - apply tc_once. apply He; [exact Hs|exact Hy].
  - apply tc_l with y; [apply He; [exact Hs|exact Hy]|exact (IH (Hn x y Hs Hy))].
Qed.

(** "... so search the include path for it": an interface in an include directory is found. *)
Definition C72_includes : Prop := forall w includes buildroot modules src i p l,
  world_ok w -> List.Forall module_ok modules -> List.Forall (include_ok w) includes -> source_ok src ->
  In i includes -> in_directory buildroot src i p -> present w p ->
  source_dependencies w includes buildroot modules src = Some l ->
  exists q, In q l /\ has_interface w [i] buildroot src q.
(** Only the first of the include directories is searched (the loop is left after it). *)
Definition n_a : str := [97]. Definition n_b : str := [98]. Definition n_x : str := [120].
Definition ex_tree1 : world :=
  World (NDir [(n_a, NDir []); (n_b, NDir [(n_x ++ s_mli, NFile)]); (n_x ++ s_ml, NFile)]) [].
Lemma ex_tree1_ok : world_ok ex_tree1.
Proof. eapply world_check; reflexivity. Qed.
Lemma x_source_ok : source_ok (n_x ++ s_ml).
Proof.
  intros b E. apply (app_inv_tail s_ml) in E. subst b. exists n_x, 120. split; [|split; [left; reflexivity|discriminate]].
  split; [cbn; intuition discriminate|]. exists []. split; [reflexivity|left; reflexivity].
Qed.
Lemma x_in_directory d : in_directory [114] (n_x ++ s_ml) d (pjoin d (n_x ++ s_mli)).
Proof.
  exists (n_x ++ s_mli), (n_x ++ s_mli). split; [|split; [|reflexivity]].
  - exists (n_x ++ s_mli). split; [exists n_x; split; reflexivity|]. right. split; [reflexivity|]. intros r H. discriminate.
  - split; [cbn; intuition discriminate|]. exists []. split; [reflexivity|left; reflexivity].
Qed.
Theorem C72_includes_refuted : ~ C72_includes.
Proof.
  intros H. destruct (H ex_tree1 [n_a; n_b] [114] [] (n_x ++ s_ml) n_b (pjoin n_b (n_x ++ s_mli)) []) as (q & Hq & _).
  - exact ex_tree1_ok.
  - constructor.
  - repeat constructor.
  - exact x_source_ok.
  - right. left. reflexivity.
  - exact (x_in_directory n_b).
  - reflexivity.
  - reflexivity.
  - exact Hq.
Qed.
(** With one include directory it is. *)
Theorem C72_includes_partial w buildroot modules src i p l :
  world_ok w -> List.Forall module_ok modules -> include_ok w i -> source_ok src ->
  in_directory buildroot src i p -> present w p ->
  source_dependencies w [i] buildroot modules src = Some l ->
  exists q, In q l /\ has_interface w [i] buildroot src q.
Proof.
  intros Hw Hm Hi Hs Hd Hp El.
  destruct (C72_exact w [i] buildroot modules src Hw Hm (List.Forall_cons _ _ _ Hi (List.Forall_nil _)) Hs) as (l' & El' & H).
  rewrite El in El'. injection El' as <-.
  assert (exists q, has_interface w [i] buildroot src q) as [q Hq].
  { destruct Hd as (q & n & Hq & Hn & ->). pose proof Hq as (q0 & Hb & Ho).
    assert (forall q', beside src q' -> q' = q0) as Hb1.
    { intros q' (b & E & ->). destruct Hb as (b' & E' & ->). rewrite E in E'. apply List.app_inv_tail in E'. subst b'. reflexivity. }
    destruct (lexists w q0) eqn:E0; [exists q0; split; [exact E0|left; exact Hb]|].
    assert (forall q', beside src q' -> ~ present w q') as N1.
    { intros q' H'. rewrite (Hb1 q' H'). unfold present. congruence. }
    destruct (lexists w q) eqn:E1; [exists q; split; [exact E1|right; split; [exact N1|left; exact Hq]]|].
    exists (pjoin i n). split; [exact Hp|]. right. split; [exact N1|]. right. split.
    - intros q' (q1 & Hb' & Ho'). rewrite (Hb1 q1 Hb') in Ho'. apply (outside_removeroot buildroot q0) in Ho, Ho'. subst q q'.
      unfold present. congruence.
    - exists i, []. split; [reflexivity|]. exists q, n. split; [exact Hq|split; [exact Hn|reflexivity]]. }
  exists q. split; [apply H; right; exact Hq|exact Hq].
Qed.

(** An instance: x.ml uses B and C; b.mli and B.ml are here, c.ml and C.mli in the directory a. *)
Definition n_c : str := [99].
Definition ex_tree2 : world :=
  World (NDir [(n_a, NDir [(n_c ++ s_ml, NFile); ([67] ++ s_mli, NFile); (n_b ++ s_ml, NFile)]);
               (n_b ++ s_mli, NFile); ([66] ++ s_ml, NFile); (n_x ++ s_ml, NFile); (n_x ++ s_mli, NFile)]) [].
Lemma ex_tree2_ok : world_ok ex_tree2.
Proof. eapply world_check; reflexivity. Qed.
Definition ex_modules (f : str) : list str := if str_eqb f (n_x ++ s_ml) then [[66]; [67]] else [].
Example C72_example :
  world_ok ex_tree2 /\ (forall f, List.Forall module_ok (ex_modules f)) /\ List.Forall (include_ok ex_tree2) [n_a; [122]] /\ source_ok (n_x ++ s_ml) /\
  source_dependencies ex_tree2 [n_a; [122]] [114] [[66]; [67]] (n_x ++ s_ml) =
    Some [n_b ++ s_mli; [66] ++ s_ml; pjoin n_a ([67] ++ s_mli); pjoin n_a (n_c ++ s_ml); n_x ++ s_mli] /\
  (exists r, native_scan (dependencies ex_tree2 [n_a] [114] ex_modules) 9 (n_x ++ s_ml) = Some r /\ size r = 5%nat).
Proof.
  split; [exact ex_tree2_ok|]. split.
  { intros f. unfold ex_modules. destruct (str_eqb f (n_x ++ s_ml)); repeat constructor; try (cbn; intuition discriminate); eexists; (split; [left; reflexivity|discriminate]). }
  split.
  { constructor; [intros _; reflexivity|constructor; [intros H; discriminate|constructor]]. }
  split; [exact x_source_ok|]. split; [reflexivity|]. eexists. split; vm_compute; reflexivity.
Qed.
Example C72_example_include :
  world_ok ex_tree1 /\ in_directory [114] (n_x ++ s_ml) n_b (pjoin n_b (n_x ++ s_mli)) /\
  source_dependencies ex_tree1 [n_b] [114] [] (n_x ++ s_ml) = Some [pjoin n_b (n_x ++ s_mli)].
Proof. split; [exact ex_tree1_ok|]. split; [exact (x_in_directory n_b)|reflexivity]. Qed.

Print Assumptions C72_exact.
Print Assumptions C72_exist.
Print Assumptions C72_scan.
Print Assumptions C72_includes_refuted.
Print Assumptions C72_includes_partial.
