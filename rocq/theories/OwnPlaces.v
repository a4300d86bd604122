(** Where programs of several sources have their objects. *)
From Coq Require Import List NArith Bool Arith Lia.
From Verif Require Import FnModel PathModel PathSpec PathFacts LinkModel GccModel TryModel TrySpec TryFacts TryPlaces OwnModel OwnSpec.
Import ListNotations.
Open Scope N_scope.

(** *** Names *)
Lemma good_chr n : good_name n -> (exists c, In c n /\ c <> c_dot) \/ (length n > 2)%nat.
Proof.
  intros (H1 & _ & H2 & H3). destruct n as [|a [|b [|c n]]]; [contradiction| | |right; cbn; lia].
  - left. exists a. split; [left; reflexivity|]. intros ->. apply H2. reflexivity.
  - left. destruct (N.eq_dec a c_dot) as [->|Ha]; [|exists a; split; [left; reflexivity|exact Ha]].
    exists b. split; [right; left; reflexivity|]. intros ->. apply H3. reflexivity.
Qed.
Lemma good_by n : n <> [] -> ~ In c_sep n -> (exists c, In c n /\ c <> c_dot) \/ (length n > 2)%nat -> good_name n.
Proof.
  intros H1 H2 H. split; [exact H1|]. split; [exact H2|].
  split; intros ->; (destruct H as [(c & Hc & Hd)|Hl]; [|cbn in Hl; lia]); cbn in Hc; unfold c_dot in Hd;
    repeat (destruct Hc as [Hc|Hc]; [congruence|]); destruct Hc.
Qed.
Lemma good_around a n b : ~ In c_sep a -> ~ In c_sep b -> good_name n -> good_name (a ++ n ++ b).
Proof.
  intros Ha Hb Hn. apply good_by.
  - destruct Hn as (H & _). destruct a; [|discriminate]. destruct n; [contradiction|discriminate].
  - apply not_in_app; [exact Ha|]. apply not_in_app; [apply Hn|exact Hb].
  - destruct (good_chr n Hn) as [(c & Hc & Hd)|Hl].
    + left. exists c. split; [|exact Hd]. apply in_or_app. right. apply in_or_app. left. exact Hc.
    + right. rewrite !app_length. lia.
Qed.
Lemma stem_split n r : stem n r <-> fst (splitext n) = r.
Proof.
  unfold stem. split.
  - intros (e & H). apply splitext_ext in H. rewrite H. reflexivity.
  - intros <-. destruct (splitext n) as [r e] eqn:E. exists e. apply splitext_ext. exact E.
Qed.
Lemma stem_good n r : good_name n -> stem n r -> good_name r.
Proof.
  intros Hn (e & H). destruct H as [H1 H2 H3 H4]. destruct e as [|c e]; [rewrite app_nil_r in H1; subst; exact Hn|].
  destruct (H3 ltac:(discriminate)) as (e' & m & d & _ & _ & Hm & Hd & Hdot).
  assert (In d r) as Hdr by (destruct Hm as (_ & h & -> & _); apply in_or_app; right; exact Hd).
  apply good_by.
  - intros ->. destruct Hdr.
  - intros K. apply (proj1 (proj2 Hn)). rewrite H1. apply in_or_app. left. exact K.
  - left. exists d. auto.
Qed.

(** *** Paths *)
Lemma joined_cons n ns : ns <> [] -> joined (n :: ns) = n ++ c_sep :: joined ns.
Proof. destruct ns; [contradiction|reflexivity]. Qed.
Lemma joined_rel ns : Forall good_name ns -> isabs (joined ns) = false.
Proof.
  intros H. destruct ns as [|n [|m ns]]; [reflexivity| |]; inversion H as [|? ? Hn _]; subst.
  - apply nosep_rel. apply Hn.
  - rewrite joined_cons by discriminate. rewrite isabs_app by apply Hn. apply nosep_rel, Hn.
Qed.
Lemma pjoin_more D n p : good_name n -> isabs p = false -> pjoin (pjoin D n) p = pjoin D (n ++ c_sep :: p).
Proof.
  intros Hn Hp. destruct (exists_last (proj1 Hn)) as (x' & c & Ex). assert (is_sep c = false) as Hc.
  { apply is_sep_false. intros ->. apply (proj1 (proj2 Hn)). rewrite Ex. apply in_or_app. right. left. reflexivity. }
  assert (forall h, pjoin (h ++ n) p = h ++ n ++ c_sep :: p) as H.
  { intros h. unfold pjoin. rewrite Hp. rewrite Ex, app_assoc. destruct ((h ++ x') ++ [c]) eqn:K; [destruct (h ++ x'); discriminate|].
    rewrite <- K, ends_sep_snoc, Hc. rewrite <- !app_assoc. reflexivity. }
  pose proof (nosep_rel n (proj1 (proj2 Hn))) as Hr.
  assert (isabs (n ++ c_sep :: p) = false) as Hr' by (rewrite isabs_app by apply Hn; exact Hr).
  unfold pjoin at 2 3. rewrite Hr, Hr'. destruct D as [|d D]; [exact (H [])|].
  destruct (ends_sep (d :: D)); [apply H|].
  replace ((d :: D) ++ c_sep :: n) with (((d :: D) ++ [c_sep]) ++ n) by (rewrite <- app_assoc; reflexivity).
  rewrite H. rewrite <- app_assoc. reflexivity.
Qed.

Section Place.
  Context (cwd : str) (Hcwd : isabs cwd = true).

  Lemma pjoin_joined ns : forall D n, Forall good_name (ns ++ [n]) -> exists h,
    pjoin D (joined (ns ++ [n])) = h ++ n /\ dirlike h /\ place cwd h = place cwd D ++ ns.
  Proof.
    induction ns as [|m ns IH]; intros D n H; cbn [app] in *.
    - inversion H as [|? ? Hn _]; subst. destruct (pjoin_form cwd D n (proj1 (proj2 Hn))) as (h & H1 & H2 & H3 & _).
      exists h. rewrite app_nil_r. auto.
    - inversion H as [|? ? Hm Hns]; subst. rewrite joined_cons by (destruct ns; discriminate).
      rewrite <- pjoin_more; [|exact Hm|apply joined_rel; exact Hns].
      destruct (IH (pjoin D m) n Hns) as (h & -> & Hh & Hp). exists h. split; [reflexivity|]. split; [exact Hh|].
      rewrite Hp, (place_join cwd Hcwd D m Hm), <- app_assoc. reflexivity.
  Qed.
  Lemma place_joined D ns : Forall good_name ns -> ns <> [] -> place cwd (pjoin D (joined ns)) = place cwd D ++ ns.
  Proof.
    intros H Hne. destruct (exists_last Hne) as (ms & n & ->). destruct (pjoin_joined ms D n H) as (h & -> & Hh & Hp).
    rewrite (place_dir cwd Hcwd h n Hh); [|apply Forall_app in H as [_ H]; inversion H; assumption].
    rewrite Hp, <- app_assoc. reflexivity.
  Qed.

  Lemma slashed_form ms n : exists h, slashed (ms ++ [n]) = h ++ n /\ dirlike h /\ h <> [] /\ isabs h = true.
  Proof.
    induction ms as [|m ms (h & E & Hd & Hne & _)]; cbn [app slashed].
    - exists [c_sep]. rewrite app_nil_r. split; [reflexivity|]. split; [right; exists []; reflexivity|]. split; [discriminate|reflexivity].
    - exists (c_sep :: m ++ h). rewrite E. cbn. rewrite <- app_assoc. split; [reflexivity|]. split; [|split; [discriminate|reflexivity]].
      destruct Hd as [->|[h' ->]]; [contradiction|]. right. exists (c_sep :: m ++ h'). cbn. rewrite <- app_assoc. reflexivity.
  Qed.
  Lemma starts_no p r : no_prefix r p -> startswith p r = false.
  Proof. intros H. destruct (startswith p r) eqn:E; [|reflexivity]. destruct (startswith_true _ _ E) as [q ->]. destruct (H q eq_refl). Qed.
  (** Adding a root keeps what is kept. *)
  Lemma addroot_kept p D ns n : kept p ns n -> no_prefix D p ->
    Forall good_name (ns ++ [n]) /\ exists h, addroot p D = h ++ n /\ dirlike h /\ place cwd h = place cwd D ++ ns.
  Proof.
    intros [(_ & Hg & ->)|(-> & Hg & ms & Hm & ->)] Hn; unfold addroot; rewrite (starts_no _ _ Hn); cbn [negb].
    - split; [exact Hg|]. rewrite (joined_rel _ Hg), path_new_two. apply pjoin_joined. exact Hg.
    - split; [constructor; [exact Hg|constructor]|]. destruct (slashed_form ms n) as (h & -> & Hh & Hne & Ha).
      rewrite isabs_app by exact Hne. rewrite Ha, path_new_two, psplit_snd, (cut_app h n Hh (proj1 (proj2 Hg))). cbn [snd].
      apply (pjoin_joined [] D n). constructor; [exact Hg|constructor].
  Qed.

  Context (root dep : str).
  Lemma obj_root_place b ds : relative (b_dst b) ds -> place cwd (obj_root root b) = place cwd root ++ [obj_dir] ++ ds.
  Proof.
    intros (Hne & Hg & E). unfold obj_root. rewrite E, (place_joined _ ds Hg Hne).
    change s_obj with obj_dir. rewrite (place_join cwd Hcwd root obj_dir), <- app_assoc; [reflexivity|].
    repeat split; try discriminate. intros K. repeat (destruct K as [K|K]; [discriminate|]). destruct K.
  Qed.
  Lemma obj_place b p ds ns n r : tidy root b -> In p (b_srcs b) -> relative (b_dst b) ds -> kept p ns n -> stem n r ->
    place cwd (snd (compiled root dep b p)) = place cwd root ++ [obj_dir] ++ ds ++ ns ++ [r ++ b_osuffix b].
  Proof.
    intros Hb Hp Hd Hk Hr. destruct (td_plain _ _ Hb) as (Hs & _). unfold compiled, compile, compiler. cbn [snd].
    destruct (addroot_kept p (obj_root root b) ns n Hk (td_srcs _ _ Hb p Hp)) as (Hg & h & -> & Hh & Hph).
    unfold replaceext. rewrite path_new_one. destruct Hr as (e & He). pose proof He as Hs'. apply splitext_ext in Hs'.
    rewrite (splitext_dir h n r e Hh Hs'). cbn [fst]. rewrite <- app_assoc, (place_dir cwd Hcwd h).
    - rewrite Hph, (obj_root_place b ds Hd). rewrite <- !app_assoc. reflexivity.
    - exact Hh.
    - apply (good_around [] r (b_osuffix b)); [intros []|exact Hs|]. apply (stem_good n); [|exists e; exact He].
      apply Forall_app in Hg as [_ Hg]. inversion Hg; assumption.
  Qed.
  Lemma kept_rel p ns n : relative p (ns ++ [n]) -> kept p ns n.
  Proof. left. assumption. Qed.
  Lemma prod_place b ds n : tidy root b -> product_names b ds n -> prodp cwd root dep b = place cwd root ++ ds ++ [n].
  Proof.
    intros Hb (m & Hd & ->). destruct (td_plain _ _ Hb) as (_ & H1 & H2). unfold prodp.
    assert (snd (linked root dep b) = product root (b_prefix b) (b_lsuffix b) (b_dst b)) as ->.
    { unfold linked. destruct (b_static b); reflexivity. }
    unfold product. destruct (addroot_kept (b_dst b) root ds m (kept_rel _ _ _ Hd) (td_outside _ _ Hb)) as (Hg & h & -> & Hh & Hph).
    apply Forall_app in Hg as [_ Hg]. inversion Hg as [|? ? Hm _]; subst.
    rewrite psplit_snd, (cut_app h m Hh (proj1 (proj2 Hm))). cbn [snd].
    pose proof (good_around _ m _ H1 H2 Hm) as Hgood. rewrite pjoin_app; [|apply nosep_rel; exact H1|apply nosep_rel, Hgood].
    rewrite (place_join cwd Hcwd _ _ Hgood), (place_parent cwd h m Hh (proj1 (proj2 Hm))), Hph, <- app_assoc. reflexivity.
  Qed.
  Lemma prod_some b : tidy root b -> exists ds n, product_names b ds n.
  Proof.
    intros Hb. destruct (td_dst _ _ Hb) as (ds & Hd & _). destruct (exists_last (proj1 Hd)) as (es & m & ->).
    exists es, (b_prefix b ++ m ++ b_lsuffix b). exists m. split; [exact Hd|reflexivity].
  Qed.
  Lemma relative_inj p ns ms : relative p ns -> relative p ms -> ns = ms.
  Proof.
    intros (H1 & H2 & ->) (H3 & H4 & E).
    pose proof (place_joined root ns H2 H1) as A. pose proof (place_joined root ms H4 H3) as B. rewrite E, B in A.
    apply app_inv_head in A. symmetry. exact A.
  Qed.
End Place.
