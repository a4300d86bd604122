(** Facts about the order of libraries. *)
From Coq Require Import List NArith Bool Lia.
From Verif Require Import FnModel PathModel PathFacts LinkModel LinkSpec.
Import ListNotations.

Lemma mem_ok s l : mem s l = true <-> In s l.
Proof.
  unfold mem. rewrite existsb_exists. split.
  - intros (x & Hx & H). apply str_eqb_true in H. subst. exact Hx.
  - intros H. exists s. split; [exact H|apply str_eqb_refl].
Qed.

Lemma add_new_in l s x : In x (add_new l s) <-> In x l \/ x = s.
Proof.
  unfold add_new. destruct (mem s l) eqn:E.
  - apply mem_ok in E. split; [auto|]. intros [H| ->]; assumption.
  - rewrite in_app_iff. simpl. split; [intros [H|[H|[]]]; auto|intros [H|H]; auto].
Qed.

Lemma add_new_nodup l s : NoDup l -> NoDup (add_new l s).
Proof.
  intros H. unfold add_new. destruct (mem s l) eqn:E; [exact H|].
  assert (~ In s l) as Hn by (intros K; apply mem_ok in K; congruence).
  rewrite <- (rev_involutive (l ++ [s])). apply NoDup_rev. rewrite rev_app_distr. simpl.
  constructor; [rewrite <- in_rev; exact Hn|apply NoDup_rev; exact H].
Qed.

Lemma add_new_prefix l s : exists e, add_new l s = l ++ e.
Proof. unfold add_new. destruct (mem s l); [exists []; symmetry; apply app_nil_r|eauto]. Qed.

Lemma fold_add_in ss : forall l x, In x (fold_left add_new ss l) <-> In x l \/ In x ss.
Proof.
  induction ss as [|s ss IH]; intros l x; simpl; [tauto|]. rewrite IH, add_new_in.
  split; [intros [[H|H]|H]; auto|intros [H|[H|H]]; auto].
Qed.
Lemma fold_add_nodup ss : forall l, NoDup l -> NoDup (fold_left add_new ss l).
Proof. induction ss as [|s ss IH]; intros l H; simpl; [exact H|]. apply IH. apply add_new_nodup. exact H. Qed.

(** Induction over libraries. *)
Fixpoint lib_ind' (P : lib -> Prop) (HP : forall p, P (Plain p))
  (HL : forall p a ls e, Forall P ls -> P (Library p a ls e)) (l : lib) : P l :=
  match l with
  | Plain p => HP p
  | Library p a ls e =>
      HL p a ls e ((fix go (ls : list lib) : Forall P ls :=
        match ls with
        | [] => Forall_nil P
        | x :: xs => Forall_cons x (lib_ind' P HP HL x) (go xs)
        end) ls)
  end.

Definition visits (ls : list lib) (s : st) : st := fold_left (fun s l => visit l s) ls s.

(** What is always kept. *)
Record grows (s s' : st) : Prop := Grows {
  g_paths : forall x, In x (libpaths s) -> In x (libpaths s');
  g_exts : forall x, In x (externals s) -> In x (externals s');
  g_libs : exists e, new_libs s' = new_libs s ++ e
}.
Lemma grows_refl s : grows s s.
Proof. split; auto. exists []. symmetry. apply app_nil_r. Qed.
Lemma grows_trans a b c : grows a b -> grows b c -> grows a c.
Proof.
  intros [P1 E1 [l1 L1]] [P2 E2 [l2 L2]]. split; auto. exists (l1 ++ l2). rewrite L2, L1. symmetry. apply app_assoc.
Qed.
Lemma add_lib_grows s p : grows s (add_lib s p).
Proof.
  split; simpl; auto.
  - intros x H. apply add_new_in. auto.
  - apply add_new_prefix.
Qed.
Lemma visits_grows ls : Forall (fun l => forall s, grows s (visit l s)) ls -> forall s, grows s (visits ls s).
Proof.
  induction 1 as [|l ls Hl Hls IH]; intros s; simpl; [apply grows_refl|].
  eapply grows_trans; [apply Hl|apply IH].
Qed.
Lemma visit_grows l : forall s, grows s (visit l s).
Proof.
  induction l as [p|p a ls e IH] using lib_ind'; intros s; simpl.
  - destruct (mem p (new_libs s)); [apply grows_refl|apply add_lib_grows].
  - eapply grows_trans; [|apply add_lib_grows].
    eapply grows_trans; [|apply visits_grows; exact IH].
    split; simpl; auto.
    + intros x H. apply fold_add_in. auto.
    + intros x H. apply fold_add_in. auto.
    + exists []. symmetry. apply app_nil_r.
Qed.

(** No name twice. *)
Lemma visit_nodup l : forall s, NoDup (new_libs s) -> NoDup (new_libs (visit l s)).
Proof.
  induction l as [p|p a ls e IH] using lib_ind'; intros s H; simpl.
  - destruct (mem p (new_libs s)); [exact H|]. simpl. apply add_new_nodup. exact H.
  - apply add_new_nodup. set (s0 := St _ _ (new_libs s)). assert (NoDup (new_libs s0)) as H0 by exact H.
    clearbody s0. clear H s. revert s0 H0. induction IH as [|l ls Hl Hls IH']; intros s H; simpl; [exact H|].
    apply IH'. apply Hl. exact H.
Qed.
Lemma visits_nodup ls : forall s, NoDup (new_libs s) -> NoDup (new_libs (visits ls s)).
Proof. induction ls as [|l ls IH]; intros s H; simpl; [exact H|]. apply IH. apply visit_nodup. exact H. Qed.

(** *** With distinct names *)
Section Order.
  Variable roots : list lib.
  Hypothesis Hnames : distinct_names roots.

  Lemma used_dep l d : used roots l -> In d (deps l) -> used roots d.
  Proof.
    intros (r & Hr & H) Hd. exists r. split; [exact Hr|]. clear Hr. induction H as [l|l e f He _ IH].
    - apply (reach_step l d d Hd). constructor.
    - apply (reach_step l e d He). apply IH. exact Hd.
  Qed.

  Definition after (a b : str) (l : list str) : Prop := exists l1 l2 l3, l = l1 ++ b :: l2 ++ a :: l3.

  (** What is listed is used, and comes after its dependencies. *)
  Record inv (s : st) : Prop := Inv {
    i_used : forall n, In n (new_libs s) -> exists l, used roots l /\ named l = n;
    i_deps : forall l d, used roots l -> In (named l) (new_libs s) -> In d (deps l) ->
               after (named l) (named d) (new_libs s)
  }.

  Lemma after_app a b l e : after a b l -> after a b (l ++ e).
  Proof. intros (l1 & l2 & l3 & ->). exists l1, l2, (l3 ++ e). rewrite <- !app_assoc. simpl. rewrite <- app_assoc. reflexivity. Qed.

  Lemma add_lib_inv l s :
    inv s -> used roots l -> (forall d, In d (deps l) -> In (named d) (new_libs s)) ->
    inv (add_lib s (path_of l)).
  Proof.
    intros [I1 I2] Hu Hd. unfold add_lib. fold (named l).
    unfold add_new at 2. destruct (mem (named l) (new_libs s)) eqn:E.
    - split; simpl; assumption.
    - assert (~ In (named l) (new_libs s)) as Hn by (intros K; apply mem_ok in K; congruence).
      split; simpl.
      + intros n [H|[H|[]]]%in_app_or; [apply I1; exact H|]. exists l. auto.
      + intros k d Hk Hin Hdk. apply in_app_or in Hin as [Hin|[Hin|[]]].
        * apply after_app. apply I2; assumption.
        * assert (k = l) as -> by (apply (proj1 Hnames); auto).
          specialize (Hd d Hdk). apply in_split in Hd as (l1 & l2 & ->).
          exists l1, l2, []. rewrite <- app_assoc. reflexivity.
  Qed.

  Lemma in_grows n s s' : grows s s' -> In n (new_libs s) -> In n (new_libs s').
  Proof. intros [_ _ [e ->]] H. apply in_or_app. auto. Qed.

  Lemma visits_inv ls :
    Forall (fun l => forall s, inv s -> used roots l -> inv (visit l s) /\ In (named l) (new_libs (visit l s))) ls ->
    forall s, inv s -> (forall l, In l ls -> used roots l) ->
    inv (visits ls s) /\ forall l, In l ls -> In (named l) (new_libs (visits ls s)).
  Proof.
    induction 1 as [|l ls Hl Hls IH]; intros s Hi Hu; simpl; [split; [exact Hi|contradiction]|].
    destruct (Hl s Hi (Hu l (or_introl eq_refl))) as [H1 H2].
    destruct (IH (visit l s) H1 (fun k Hk => Hu k (or_intror Hk))) as [H3 H4]. split; [exact H3|].
    intros k [<-|Hk]; [|apply H4; exact Hk].
    eapply in_grows; [|exact H2]. apply visits_grows. apply Forall_forall. intros k _. apply visit_grows.
  Qed.

  Lemma visit_inv l : forall s, inv s -> used roots l -> inv (visit l s) /\ In (named l) (new_libs (visit l s)).
  Proof.
    induction l as [p|p a ls e IH] using lib_ind'; intros s Hi Hu; simpl.
    - destruct (mem p (new_libs s)) eqn:E.
      + exfalso. apply mem_ok in E. destruct (i_used s Hi p E) as (l & Hl & Hn).
        apply (proj2 Hnames p l Hu Hl). symmetry. exact Hn.
      + split; [apply (add_lib_inv (Plain p) s Hi Hu); intros d []|].
        simpl. apply add_new_in. right. reflexivity.
    - set (s0 := St _ _ (new_libs s)).
      assert (inv s0) as Hi0 by (destruct Hi as [I1 I2]; split; assumption).
      destruct (visits_inv ls IH s0 Hi0) as [H1 H2].
      { intros d Hd. apply (used_dep (Library p a ls e) d Hu). exact Hd. }
      split; [apply (add_lib_inv (Library p a ls e)); [exact H1|exact Hu|exact H2]|].
      simpl. apply add_new_in. right. reflexivity.
  Qed.
End Order.

Theorem link_nodup sp p se e sl l : NoDup (r_libs (link sp p se e sl l)).
Proof. simpl. apply NoDup_rev. apply visits_nodup. constructor. Qed.

Lemma left_trans a b c l : NoDup l -> left_of a b l -> left_of b c l -> left_of a c l.
Proof.
  intros Hnd (l1 & l2 & l3 & E1) (m1 & m2 & m3 & E2).
  assert (l1 ++ a :: l2 = m1 /\ l3 = m2 ++ c :: m3) as [Hm ->].
  { rewrite E1 in Hnd, E2. clear E1 l. change (l1 ++ a :: l2 ++ b :: l3) with (l1 ++ (a :: l2) ++ b :: l3) in *.
    rewrite app_assoc in Hnd, E2. remember (l1 ++ a :: l2) as k eqn:Hk. clear Hk. revert m1 E2.
    induction k as [|x k IH]; intros [|y m1] E2; simpl in E2.
    - injection E2 as E2. auto.
    - injection E2 as <- E2. exfalso. simpl in Hnd. inversion Hnd as [|? ? Hb _]; subst.
      apply Hb. apply in_or_app. right. left. reflexivity.
    - injection E2 as -> E2. exfalso. simpl in Hnd. inversion Hnd as [|? ? Hb _]; subst.
      apply Hb. apply in_or_app. right. left. reflexivity.
    - injection E2 as <- E2. simpl in Hnd. inversion Hnd as [|? ? _ Hnd']; subst.
      destruct (IH Hnd' m1 E2) as [-> ->]. auto. }
  exists l1, (l2 ++ b :: m2), m3. rewrite E1. rewrite <- app_assoc. reflexivity.
Qed.

Theorem link_order sp p se e sl l :
  distinct_names (sl ++ l) ->
  let r := r_libs (link sp p se e sl l) in
  (forall n, In n r <-> exists k, used (sl ++ l) k /\ named k = n) /\
  (forall k d d', used (sl ++ l) k -> In d (deps k) -> reach d d' -> left_of (named k) (named d') r).
Proof.
  intros Hn r. set (roots := sl ++ l) in *. set (s0 := St (fold_left add_new (sp ++ p) []) (fold_left add_new (se ++ e) []) []).
  destruct (visits_inv roots roots) with (s := s0) as [Hi Hin].
  { apply Forall_forall. intros k _. apply (visit_inv roots Hn). }
  { split; simpl; contradiction. }
  { intros k Hk. exists k. split; [exact Hk|constructor]. }
  assert (NoDup r) as Hnd by apply (link_nodup sp p se e sl l).
  assert (forall k, used roots k -> In (named k) (new_libs (visits roots s0))) as Hall.
  { intros k (r0 & Hr & Hk). assert (used roots r0) as Hu by (exists r0; split; [exact Hr|constructor]).
    specialize (Hin r0 Hr). clear Hr. induction Hk as [l0|l0 d e0 Hd Hde IH]; [exact Hin|].
    apply IH.
    - destruct (i_deps _ _ Hi l0 d Hu Hin Hd) as (l1 & l2 & l3 & ->). apply in_or_app. right. left. reflexivity.
    - apply (used_dep roots l0); assumption. }
  assert (forall k d, used roots k -> In d (deps k) -> left_of (named k) (named d) r) as Hstep.
  { intros k d Hk Hd. destruct (i_deps _ _ Hi k d Hk (Hall k Hk) Hd) as (l1 & l2 & l3 & E).
    exists (rev l3), (rev l2), (rev l1). change r with (rev (new_libs (visits roots s0))). rewrite E.
    rewrite rev_app_distr. simpl. rewrite rev_app_distr. simpl. rewrite <- !app_assoc. reflexivity. }
  split.
  - intros n. change r with (rev (new_libs (visits roots s0))). rewrite <- in_rev. split.
    + apply (i_used _ _ Hi).
    + intros (k & Hk & <-). apply Hall. exact Hk.
  - intros k d d' Hk Hd Hr. revert k Hk Hd. induction Hr as [d|d x d' Hx Hr IH]; intros k Hk Hd.
    + apply Hstep; assumption.
    + apply (left_trans _ (named d)); [exact Hnd|apply Hstep; assumption|].
      apply IH; [|exact Hx]. apply (used_dep roots k); assumption.
Qed.

(** Whatever the names: external libraries and directories of all are there. *)
Lemma visit_exts l : forall s k, reach l k -> forall x, In x (needs_external k) -> In x (externals (visit l s)).
Proof.
  induction l as [p|p a ls e IH] using lib_ind'; intros s k Hr x Hx.
  - inversion Hr; subst; [destruct Hx|contradiction].
  - simpl. set (s0 := St _ _ (new_libs s)).
    inversion Hr as [|? d ? Hd Hde]; subst.
    + apply (g_exts s0); [apply visits_grows; apply Forall_forall; intros; apply visit_grows|].
      simpl. apply fold_add_in. right. exact Hx.
    + clear Hr. simpl in Hd. change (In x (externals (visits ls s0))). clearbody s0. revert s0.
      induction IH as [|y ys Hy Hys IH']; intros s1; [destruct Hd|]. simpl. destruct Hd as [->|Hd].
      * apply (g_exts (visit d s1)); [apply visits_grows; apply Forall_forall; intros; apply visit_grows|].
        apply (Hy s1 k Hde x Hx).
      * apply IH'. exact Hd.
Qed.

Theorem link_externals sp p se e sl l k x :
  used (sl ++ l) k -> In x (needs_external k) -> In x (r_externals (link sp p se e sl l)).
Proof.
  intros (r & Hr & Hk) Hx. set (s0 := St (fold_left add_new (sp ++ p) []) (fold_left add_new (se ++ e) []) []).
  change (In x (externals (visits (sl ++ l) s0))). clearbody s0.
  revert s0. induction (sl ++ l) as [|y ys IH]; intros s0; [destruct Hr|]. simpl. destruct Hr as [->|Hr].
  - apply (g_exts (visit r s0)); [apply visits_grows; apply Forall_forall; intros; apply visit_grows|].
    apply (visit_exts r s0 k Hk x Hx).
  - apply IH. exact Hr.
Qed.
