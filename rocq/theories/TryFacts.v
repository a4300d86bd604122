(** Facts about tries. *)
From Coq Require Import List NArith Bool Arith Lia.
From Verif Require Import FnModel PathModel PathSpec PathFacts GccModel TryModel TrySpec.
Import ListNotations.
Open Scope N_scope.

(** *** Splitting and joining *)
Lemma split_at_names p : split_at c_sep p = names p.
Proof. induction p as [|c p IH]; [reflexivity|]. cbn. unfold is_sep. rewrite IH. reflexivity. Qed.
Lemma split_at_nonnil c p : split_at c p <> [].
Proof. destruct p as [|d p]; cbn; [discriminate|]. destruct (N.eqb d c); [discriminate|]. destruct (split_at c p); discriminate. Qed.
Lemma split_at_join c p : join_by c (split_at c p) = p.
Proof.
  induction p as [|d p IH]; [reflexivity|]. cbn [split_at]. pose proof (split_at_nonnil c p) as Hn.
  destruct (N.eqb d c) eqn:E.
  - apply N.eqb_eq in E. subst d. cbn [join_by]. destruct (split_at c p); [contradiction|]. rewrite IH. reflexivity.
  - destruct (split_at c p) as [|n [|m ns]]; [contradiction|cbn in *; congruence|]. cbn [join_by] in *. rewrite <- IH. reflexivity.
Qed.
Lemma split_at_none c p l : In l (split_at c p) -> ~ In c l.
Proof.
  revert l. induction p as [|d p IH]; intros l; cbn [split_at].
  - intros [<-|[]] [].
  - destruct (N.eqb d c) eqn:E.
    + intros [<-|H]; [intros []|exact (IH l H)].
    + apply N.eqb_neq in E. destruct (split_at c p) as [|n ns].
      * intros [<-|[]] [K|[]]. congruence.
      * intros [<-|H]; [|apply IH; right; exact H]. intros [K|K]; [congruence|]. exact (IH n (or_introl eq_refl) K).
Qed.

(** *** dedent *)
Lemma unlines_join ls : unlines ls = join_by c_nl ls.
Proof. induction ls as [|l [|l' ls] IH]; [reflexivity|reflexivity|]. cbn [unlines join_by] in *. rewrite IH. reflexivity. Qed.
Lemma blank_white l : forallb blank_chr l = true <-> Forall white l.
Proof.
  rewrite forallb_forall, Forall_forall. unfold blank_chr, white. split; intros H c Hc; specialize (H c Hc).
  - apply orb_true_iff in H as [H|H]; apply N.eqb_eq in H; auto.
  - apply orb_true_iff. destruct H as [->| ->]; auto.
Qed.
Lemma indent_white l : Forall white (indent l).
Proof.
  induction l as [|c l IH]; [constructor|]. cbn. destruct (blank_chr c) eqn:E; [|constructor]. constructor; [|exact IH].
  unfold blank_chr in E. apply orb_true_iff in E as [E|E]; apply N.eqb_eq in E; [left|right]; exact E.
Qed.
Lemma indent_prefix l : exists o, l = indent l ++ o.
Proof. induction l as [|c l [o IH]]; [exists []; reflexivity|]. cbn. destruct (blank_chr c); [exists o; cbn; congruence|eexists; reflexivity]. Qed.
Lemma white_blank c : white c -> blank_chr c = true.
Proof. intros [->| ->]; reflexivity. Qed.
(** White space at the beginning of a line is part of the indentation. *)
Lemma indent_longest m o : Forall white m -> exists w, indent (m ++ o) = m ++ w.
Proof.
  induction 1 as [|c m Hc Hm [w IH]]; [exists (indent o); reflexivity|]. cbn. rewrite (white_blank c Hc), IH. exists w. reflexivity.
Qed.
Lemma common_prefix a b : (exists o, a = common a b ++ o) /\ (exists o, b = common a b ++ o).
Proof.
  revert b. induction a as [|c a IH]; intros [|d b]; cbn; [split; eexists; reflexivity..|].
  destruct (N.eqb c d) eqn:E; [|split; eexists; reflexivity]. apply N.eqb_eq in E. subst d.
  destruct (IH b) as [[o1 H1] [o2 H2]]. split; [exists o1|exists o2]; cbn; congruence.
Qed.
Lemma common_longest p a b : exists w, common (p ++ a) (p ++ b) = p ++ w.
Proof. induction p as [|c p [w IH]]; [eexists; reflexivity|]. cbn. rewrite N.eqb_refl, IH. exists w. reflexivity. Qed.

Definition prefix_of (p l : str) : Prop := exists o, l = p ++ o.
Lemma margin_spec is : forall m0,
  match fold_left margin_step is m0 with
  | None => m0 = None /\ is = []
  | Some m => (forall i, In i is -> prefix_of m i) /\ (forall a, m0 = Some a -> prefix_of m a) /\
      (forall p, (forall i, In i is -> prefix_of p i) -> (forall a, m0 = Some a -> prefix_of p a) -> prefix_of p m)
  end.
Proof.
  induction is as [|i is IH]; intros m0; cbn [fold_left].
  - destruct m0 as [m|]; [|auto]. split; [intros i []|]. split; [intros a [= ->]; exists []; symmetry; apply app_nil_r|].
    intros p _ H. apply H. reflexivity.
  - specialize (IH (margin_step m0 i)). destruct (fold_left margin_step is (margin_step m0 i)) as [m|].
    2:{ destruct IH as [H _]. destruct m0; cbn in H; [|discriminate]. destruct (startswith i s); [discriminate|]. destruct (startswith s i); discriminate. }
    destruct IH as (H1 & H2 & H3).
    assert (prefix_of m i /\ (forall a, m0 = Some a -> prefix_of m a)) as [Hi Ha].
    { destruct m0 as [a|]; cbn in H2; [|split; [apply H2; reflexivity|discriminate]].
      destruct (startswith i a) eqn:E1.
      - destruct (startswith_true _ _ E1) as [b ->]. destruct (H2 a eq_refl) as [o ->]. split; [exists (o ++ b); symmetry; apply app_assoc|].
        intros ? [= <-]. exists o. reflexivity.
      - destruct (startswith a i) eqn:E2.
        + destruct (startswith_true _ _ E2) as [b ->]. destruct (H2 i eq_refl) as [o ->]. split; [exists o; reflexivity|].
          intros ? [= <-]. exists (o ++ b). symmetry. apply app_assoc.
        + destruct (H2 _ eq_refl) as [o Ho]. destruct (common_prefix a i) as [[o1 K1] [o2 K2]]. rewrite Ho in K1, K2. split.
          * exists (o ++ o2). rewrite app_assoc. exact K2.
          * intros ? [= <-]. exists (o ++ o1). rewrite app_assoc. exact K1. }
    split; [intros j [<-|Hj]; [exact Hi|exact (H1 j Hj)]|]. split; [exact Ha|].
    intros p Hp Hp0. apply H3; [intros j Hj; apply Hp; right; exact Hj|]. intros a Ea.
    destruct (Hp i (or_introl eq_refl)) as [oi Hoi]. destruct m0 as [b|]; cbn in Ea; [|injection Ea as <-; exists oi; exact Hoi].
    destruct (Hp0 b eq_refl) as [ob Hob].
    destruct (startswith i b); [injection Ea as <-; exists ob; exact Hob|].
    destruct (startswith b i); [injection Ea as <-; exists oi; exact Hoi|].
    injection Ea as <-. rewrite Hoi, Hob. destruct (common_longest p ob oi) as [w Hw]. exists w. exact Hw.
Qed.

Lemma Forall2_map_self {A B} (P : A -> B -> Prop) (f : A -> B) l : (forall x, In x l -> P x (f x)) -> Forall2 P l (map f l).
Proof. induction l as [|x l IH]; intros H; constructor; [apply H; left; reflexivity|]. apply IH. intros y Hy. apply H. right. exact Hy. Qed.

Theorem dedent_ok code : dedented code (dedent code).
Proof.
  set (ls := split_at c_nl code).
  set (wipe := fun l : str => if forallb blank_chr l then [] else l).
  set (is := map indent (filter (fun l => negb (forallb blank_chr l)) (map wipe ls))).
  assert (forall i, In i is <-> exists l, In l ls /\ ~ Forall white l /\ i = indent l) as His.
  { intros i. unfold is. rewrite in_map_iff. split.
    - intros (l & <- & Hl). apply filter_In in Hl as [Hl Hb]. apply in_map_iff in Hl as (l0 & <- & Hl0). unfold wipe in *.
      destruct (forallb blank_chr l0) eqn:E; [discriminate|]. exists l0. split; [exact Hl0|]. split; [|reflexivity].
      intros K. apply blank_white in K. congruence.
    - intros (l & Hl & Hw & ->). assert (forallb blank_chr l = false) as E.
      { destruct (forallb blank_chr l) eqn:E; [|reflexivity]. apply blank_white in E. contradiction. }
      exists l. split; [reflexivity|]. apply filter_In. split; [|rewrite E; reflexivity].
      apply in_map_iff. exists l. split; [unfold wipe; rewrite E; reflexivity|exact Hl]. }
  pose proof (margin_spec is None) as HM.
  set (m := match fold_left margin_step is None with Some m => m | None => [] end).
  set (cutm := fun l : str => if startswith l m then skipn (length m) l else l).
  assert (dedent code = join_by c_nl (map (fun l => cutm (wipe l)) ls)) as Ed.
  { assert (dedent code = match fold_left margin_step is None with
                             | None | Some [] => join_by c_nl (map wipe ls)
                             | Some m => join_by c_nl (map (fun l => if startswith l m then skipn (length m) l else l) (map wipe ls))
                             end) as -> by reflexivity.
    rewrite <- (map_map wipe cutm). unfold cutm, m.
    assert (forall l : list str, map (fun l => if startswith l [] then skipn (length (@nil chr)) l else l) l = l) as Hid.
    { intros l. rewrite <- (map_id l) at 2. apply map_ext. reflexivity. }
    destruct (fold_left margin_step is None) as [[|c m']|]; [rewrite Hid; reflexivity|reflexivity|rewrite Hid; reflexivity]. }
  assert (forall l, In l ls -> ~ Forall white l -> prefix_of m l) as Hm.
  { intros l Hl Hw. unfold m. assert (In (indent l) is) as Hi by (apply His; exists l; auto).
    destruct (fold_left margin_step is None) as [m'|]; [|destruct HM as [_ HM]; rewrite HM in Hi; destruct Hi].
    destruct HM as [HM _]. destruct (HM _ Hi) as [o Ho]. destruct (indent_prefix l) as [o' Ho']. rewrite Ho, <- app_assoc in Ho'.
    eexists. exact Ho'. }
  exists ls, (map (fun l => cutm (wipe l)) ls), m. split; [apply split_at_nonnil|].
  split; [rewrite unlines_join; symmetry; apply split_at_join|]. split; [apply split_at_none|].
  split; [rewrite unlines_join; exact Ed|]. split; [|split].
  - apply Forall2_map_self. intros l Hl. unfold wipe. destruct (forallb blank_chr l) eqn:E.
    + left. split; [apply blank_white; exact E|]. unfold cutm. destruct m; [reflexivity|reflexivity].
    + right. assert (~ Forall white l) as Hw by (intros K; apply blank_white in K; congruence). split; [exact Hw|].
      destruct (Hm l Hl Hw) as [o ->]. unfold cutm. rewrite startswith_app, skipn_app_len. reflexivity.
  - unfold m. destruct (fold_left margin_step is None) as [m'|] eqn:E; [|constructor]. destruct HM as (H1 & _ & H3).
    destruct is as [|i is'] eqn:Eis; [cbn in E; discriminate|]. destruct (H1 i (or_introl eq_refl)) as [o Ho].
    destruct (proj1 (His i) (or_introl eq_refl)) as (l & _ & _ & El). pose proof (indent_white l) as K. rewrite <- El, Ho in K.
    apply Forall_app in K as [K _]. exact K.
  - intros m' Hw (l0 & Hl0 & Hw0) Hall. unfold m.
    assert (In (indent l0) is) as Hi0 by (apply His; exists l0; auto).
    destruct (fold_left margin_step is None) as [mm|]; [|destruct HM as [_ HM]; rewrite HM in Hi0; destruct Hi0].
    destruct HM as (_ & _ & H3). apply H3; [|discriminate]. intros i Hi. apply His in Hi as (l & Hl & Hlw & ->).
    destruct (Hall l Hl Hlw) as [o ->]. destruct (indent_longest m' o Hw) as [w Ew]. exists w. exact Ew.
Qed.
