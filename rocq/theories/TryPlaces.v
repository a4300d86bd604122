(** Which files tries use. *)
From Coq Require Import List NArith Bool Arith Lia.
From Verif Require Import FnModel PathModel PathSpec PathFacts GccModel TryModel TrySpec TryFacts.
Import ListNotations.
Open Scope N_scope.

Lemma eqb_no a b : a <> b -> str_eqb a b = false.
Proof. intros H. destruct (str_eqb a b) eqn:E; [apply str_eqb_true in E; contradiction|reflexivity]. Qed.
Lemma nosep_rel x : ~ In c_sep x -> isabs x = false.
Proof. destruct x as [|c x]; [reflexivity|]. intros H. apply is_sep_false. intros ->. apply H. left. reflexivity. Qed.
Lemma pjoin_app a b c : isabs b = false -> isabs (b ++ c) = false -> pjoin a b ++ c = pjoin a (b ++ c).
Proof.
  intros H1 H2. unfold pjoin. rewrite H1, H2. destruct a as [|x a]; [reflexivity|].
  destruct (ends_sep (x :: a)); [rewrite <- app_assoc; reflexivity|]. simpl. rewrite <- app_assoc. reflexivity.
Qed.
Lemma not_in_app (c : chr) a b : ~ In c a -> ~ In c b -> ~ In c (a ++ b).
Proof. intros Ha Hb H. apply in_app_or in H as [H|H]; auto. Qed.

(** *** Places *)
Lemma norm_good b acc n : good_name n -> norm_step b acc n = n :: acc.
Proof.
  intros (H1 & _ & H2 & H3). unfold norm_step, n_dot, n_dotdot. rewrite (eqb_no _ _ H1), (eqb_no _ _ H2), (eqb_no _ _ H3). reflexivity.
Qed.
Lemma split_sep a b : split_at c_sep (a ++ c_sep :: b) = split_at c_sep a ++ split_at c_sep b.
Proof. rewrite !split_at_names. apply names_app. Qed.
Lemma split_one n : ~ In c_sep n -> split_at c_sep n = [n].
Proof. rewrite split_at_names. apply names_nosep. Qed.
Lemma norm_nosep b n : good_name n -> norm_names b n = [n].
Proof. intros H. unfold norm_names. rewrite (split_one n) by apply H. cbn [fold_left]. rewrite (norm_good b [] n H). reflexivity. Qed.
Lemma norm_dir b s n : dirlike s -> good_name n -> norm_names b (s ++ n) = norm_names b s ++ [n].
Proof.
  intros [->|[s' ->]] Hn; [apply norm_nosep; exact Hn|]. rewrite <- app_assoc. cbn [app]. unfold norm_names. rewrite !split_sep.
  rewrite (split_one n) by apply Hn. rewrite !fold_left_app. cbn [fold_left]. rewrite (norm_good _ _ n Hn). reflexivity.
Qed.
Lemma norm_sep b s : norm_names b (s ++ [c_sep]) = norm_names b s.
Proof. unfold norm_names. rewrite split_sep, fold_left_app. reflexivity. Qed.
Lemma norm_seps b seps : forall s, forallb is_sep seps = true -> norm_names b (s ++ seps) = norm_names b s.
Proof.
  induction seps as [|c seps IH]; intros s H; [rewrite app_nil_r; reflexivity|]. cbn in H. apply andb_true_iff in H as [Hc H].
  apply is_sep_true in Hc. subst c. replace (s ++ c_sep :: seps) with ((s ++ [c_sep]) ++ seps) by (rewrite <- app_assoc; reflexivity).
  rewrite (IH _ H). apply norm_sep.
Qed.

Section Places.
  Context (cwd root : str) (Hcwd : isabs cwd = true).
  Notation place := (place cwd).

  Lemma full_app s b : s <> [] -> full cwd (s ++ b) = full cwd s ++ b.
  Proof.
    intros Hs. unfold full. rewrite (isabs_app s b Hs). destruct (isabs s) eqn:E; [reflexivity|].
    symmetry. apply pjoin_app; [exact E|]. rewrite isabs_app; assumption.
  Qed.
  Lemma full_abs p : isabs (full cwd p) = true.
  Proof.
    unfold full. destruct (isabs p) eqn:E; [exact E|]. unfold pjoin. rewrite E. destruct cwd as [|c w]; [discriminate|].
    destruct (ends_sep (c :: w)); exact Hcwd.
  Qed.
  Lemma place_seps s seps : s <> [] -> forallb is_sep seps = true -> place (s ++ seps) = place s.
  Proof. intros Hs H. unfold TryModel.place. rewrite (full_app s seps Hs). apply norm_seps. exact H. Qed.
  Lemma place_dir s n : dirlike s -> good_name n -> place (s ++ n) = place s ++ [n].
  Proof.
    intros Hs Hn. pose proof Hs as Hs'. destruct Hs as [->|[s' ->]].
    - unfold TryModel.place, full. cbn [app]. rewrite (nosep_rel n) by apply Hn. cbn [isabs].
      assert (cwd <> []) as Hne by (destruct cwd; [discriminate|discriminate]).
      destruct (pjoin_rel cwd n (nosep_rel n (proj1 (proj2 Hn))) Hne) as (s & -> & Hs & Hsc).
      rewrite (norm_dir true s n Hs Hn). f_equal.
      destruct (pjoin_rel cwd [] eq_refl Hne) as (t & -> & _ & Ht). rewrite app_nil_r.
      destruct Hsc as [->| ->], Ht as [->| ->]; rewrite ?norm_sep; reflexivity.
    - unfold TryModel.place. rewrite full_app by (destruct s'; discriminate). apply norm_dir; [|exact Hn].
      right. destruct s' as [|c s']; [|exists (full cwd (c :: s')); apply full_app; discriminate].
      exists []. reflexivity.
  Qed.
  Lemma place_join D n : good_name n -> place (pjoin D n) = place D ++ [n].
  Proof.
    intros Hn. pose proof (nosep_rel n (proj1 (proj2 Hn))) as Hr. destruct D as [|c D].
    - rewrite pjoin_nil. apply (place_dir [] n); [left; reflexivity|exact Hn].
    - destruct (pjoin_rel (c :: D) n Hr) as (s & -> & Hs & Hc); [discriminate|]. rewrite (place_dir s n Hs Hn). f_equal.
      destruct Hc as [->| ->]; [reflexivity|]. apply place_seps; [discriminate|reflexivity].
  Qed.
  (** The directory of a path has the place of what is before the last name. *)
  Lemma place_parent h n : dirlike h -> ~ In c_sep n -> place (fst (psplit (h ++ n))) = place h.
  Proof.
    intros Hh Hn. unfold psplit. rewrite (cut_app h n Hh Hn). destruct (forallb is_sep h) eqn:E; [reflexivity|].
    cbn [fst]. destruct (rstrip_spec h) as (seps & He & Hs & Hr). rewrite He at 2. symmetry. apply place_seps; [|exact Hs].
    intros K. pose proof (rstrip_nil h K). congruence.
  Qed.

  (** *** Absolute paths *)
  Lemma norm_all_good p : Forall good_name (norm_names true p).
  Proof.
    unfold norm_names. apply Forall_rev.
    assert (forall l acc, (forall x, In x l -> ~ In c_sep x) -> Forall good_name acc -> Forall good_name (fold_left (norm_step true) l acc)) as H.
    { induction l as [|x l IH]; intros acc Hl Ha; [exact Ha|]. cbn [fold_left]. apply IH; [intros y Hy; apply Hl; right; exact Hy|].
      unfold norm_step. destruct (str_eqb x [] || str_eqb x n_dot) eqn:E; [exact Ha|]. apply orb_false_iff in E as [E1 E2].
      destruct (str_eqb x n_dotdot) eqn:E3.
      - destruct acc as [|y acc]; [constructor|]. inversion Ha as [|? ? Hy Ha']; subst.
        destruct Hy as (_ & _ & _ & Hy). rewrite (eqb_no y n_dotdot Hy). exact Ha'.
      - constructor; [|exact Ha]. apply str_eqb_false in E1, E2, E3.
        split; [exact E1|]. split; [exact (Hl x (or_introl eq_refl))|]. split; [exact E2|exact E3]. }
    apply H; [|constructor]. intros x Hx. exact (split_at_none _ _ _ Hx).
  Qed.
  Lemma split_join ns : ns <> [] -> Forall good_name ns -> split_at c_sep (join_by c_sep ns) = ns.
  Proof.
    induction ns as [|n [|m ns] IH]; intros Hn Hg; [contradiction| |].
    - inversion Hg as [|? ? H _]; subst. apply split_one. apply H.
    - inversion Hg as [|? ? H Hg']; subst. change (join_by c_sep (n :: m :: ns)) with (n ++ c_sep :: join_by c_sep (m :: ns)).
      rewrite split_sep, IH; [|discriminate|exact Hg']. rewrite (split_one n) by apply H. reflexivity.
  Qed.
  Lemma fold_good l acc : Forall good_name l -> fold_left (norm_step true) l acc = rev l ++ acc.
  Proof.
    intros H. revert acc. induction H as [|x l Hx Hl IH]; intros acc; [reflexivity|]. cbn. rewrite (norm_good _ _ x Hx), IH.
    rewrite <- app_assoc. reflexivity.
  Qed.
  Lemma norm_slashed sl ns : forallb is_sep sl = true -> sl <> [] -> Forall good_name ns ->
    norm_names true (sl ++ join_by c_sep ns) = ns.
  Proof.
    intros Hs Hne Hg. destruct ns as [|n ns].
    - cbn [join_by]. rewrite app_nil_r. change sl with ([] ++ sl). rewrite (norm_seps true sl [] Hs). reflexivity.
    - destruct (exists_last Hne) as (s' & c & ->). rewrite forallb_app in Hs. apply andb_true_iff in Hs as [Hs Hc]. cbn in Hc.
      rewrite andb_true_r in Hc. apply is_sep_true in Hc. subst c. rewrite <- app_assoc. cbn [app]. unfold norm_names.
      rewrite split_sep, fold_left_app, split_join by (discriminate || exact Hg). rewrite fold_good by exact Hg.
      rewrite rev_app_distr, rev_involutive.
      pose proof (norm_seps true s' [] Hs) as K. unfold norm_names in K. cbn [app] in K. rewrite K. reflexivity.
  Qed.
  Lemma slashes_abs p : isabs p = true -> forallb is_sep (slashes p) = true /\ slashes p <> [] /\ isabs (slashes p) = true.
  Proof.
    intros H. destruct p as [|a [|b [|c p]]]; [discriminate| | |]; cbn in *; rewrite H.
    - cbn. rewrite H. repeat split; discriminate.
    - destruct (is_sep b) eqn:E; cbn; rewrite H, ?E; repeat split; discriminate.
    - destruct (is_sep b) eqn:E; destruct (is_sep c); cbn; rewrite H, ?E; repeat split; discriminate.
  Qed.
  Lemma normpath_abs p : isabs p = true -> normpath p = slashes p ++ join_by c_sep (norm_names true p) /\ isabs (normpath p) = true.
  Proof.
    intros H. destruct (slashes_abs p H) as (_ & Hne & Ha). unfold normpath. rewrite H. destruct (slashes p) as [|c s]; [contradiction|].
    split; [reflexivity|exact Ha].
  Qed.
  Lemma abspath_abs p : isabs (abspath cwd p) = true.
  Proof. apply normpath_abs. apply full_abs. Qed.
  Lemma place_abspath p : place (abspath cwd p) = place p.
  Proof.
    unfold TryModel.place at 1, full. rewrite abspath_abs. unfold abspath.
    destruct (normpath_abs _ (full_abs p)) as [-> _]. destruct (slashes_abs _ (full_abs p)) as (Hs & Hne & _).
    apply norm_slashed; [exact Hs|exact Hne|apply norm_all_good].
  Qed.

  (** *** The files of a try *)
  Definition in_dir (x : str) (l : loc) : Prop := exists n, good_name n /\ l = place (tmp cwd root) ++ [x; n].
  Definition in_root (l : loc) : Prop := exists n, good_name n /\ l = place root ++ [n].
  Definition owned : Prop := startswith (tmp cwd root) root = true.

  Lemma tmp_place : place (tmp cwd root) = place root ++ [s_tmp].
  Proof.
    unfold tmp. rewrite place_abspath. apply place_join. repeat split; try discriminate.
    intros K. repeat (destruct K as [K|K]; [discriminate|]). destruct K.
  Qed.
  Lemma temp_good a b : ~ In c_sep a -> ~ In c_sep b -> good_name (a ++ s_temp ++ b).
  Proof.
    intros Ha Hb. repeat split.
    - destruct a; discriminate.
    - apply not_in_app; [exact Ha|]. apply not_in_app; [|exact Hb]. intros K. repeat (destruct K as [K|K]; [discriminate|]). destruct K.
    - intros K. apply (f_equal (@length _)) in K. rewrite !app_length in K. cbn in K. lia.
    - intros K. apply (f_equal (@length _)) in K. rewrite !app_length in K. cbn in K. lia.
  Qed.
  Lemma dir_place x : good_name x -> place (dir_of cwd root x) = place (tmp cwd root) ++ [x].
  Proof. intros Hx. apply place_join. exact Hx. Qed.
  Lemma pjoin_form D n : ~ In c_sep n -> exists h, pjoin D n = h ++ n /\ dirlike h /\ place h = place D /\ exists t, h = D ++ t.
  Proof.
    intros Hn. pose proof (nosep_rel n Hn) as Hr. destruct D as [|c D].
    - exists []. rewrite pjoin_nil. split; [reflexivity|]. split; [left; reflexivity|]. split; [reflexivity|exists []; reflexivity].
    - destruct (pjoin_rel (c :: D) n Hr) as (s & -> & Hs & Hc); [discriminate|]. exists s. split; [reflexivity|]. split; [exact Hs|].
      destruct Hc as [->| ->]; [split; [reflexivity|exists []; symmetry; apply app_nil_r]|].
      split; [apply place_seps; [discriminate|reflexivity]|eexists; reflexivity].
  Qed.
  Lemma src_form k x : plain k -> src_of cwd root k x = pjoin (dir_of cwd root x) (s_temp ++ k_src_suffix k).
  Proof.
    intros (H & _). unfold src_of. apply pjoin_app; [reflexivity|reflexivity].
  Qed.
  Lemma temp_suffix_sep s : ~ In c_sep s -> ~ In c_sep (s_temp ++ s).
  Proof. intros H. apply (temp_good [] s); [intros []|exact H]. Qed.
  Lemma src_place k x : plain k -> good_name x ->
    place (src_of cwd root k x) = place (tmp cwd root) ++ [x; s_temp ++ k_src_suffix k].
  Proof.
    intros Hk Hx. rewrite (src_form k x Hk), place_join.
    - rewrite (dir_place x Hx), <- app_assoc. reflexivity.
    - apply (temp_good [] _); [intros []|apply Hk].
  Qed.
  Lemma dir_abs x : good_name x -> isabs (dir_of cwd root x) = true /\ dir_of cwd root x <> [].
  Proof.
    intros Hx. unfold dir_of. destruct (pjoin_form (tmp cwd root) x) as (h & -> & _ & _ & t & ->); [apply Hx|].
    pose proof (abspath_abs (pjoin root s_tmp)) as H. unfold tmp. destruct (abspath cwd (pjoin root s_tmp)); [discriminate|].
    split; [exact H|discriminate].
  Qed.
  Lemma addroot_abs h n : dirlike h -> ~ In c_sep n -> isabs (h ++ n) = true ->
    addroot (h ++ n) root = if startswith (h ++ n) root then h ++ n else pjoin root n.
  Proof.
    intros Hh Hn Ha. unfold addroot. destruct (startswith (h ++ n) root); cbn [negb]; [apply path_new_one|].
    rewrite Ha, path_new_two, psplit_snd, (cut_app h n Hh Hn). reflexivity.
  Qed.
  Lemma splitext_temp s : ~ In c_sep s -> exists r e, splitext (s_temp ++ s) = (s_temp ++ r, e) /\ s = r ++ e.
  Proof.
    intros H. unfold splitext. rewrite (cut_none _ (temp_suffix_sep s H)). cbn.
    destruct (last_dot s) as [[a b]|] eqn:E; cbn.
    - exists a, b. split; [reflexivity|]. destruct (last_dot_spec _ _ _ E) as (b' & _ & K & _). exact K.
    - exists s, []. split; [reflexivity|]. symmetry. apply app_nil_r.
  Qed.
  Lemma replace_form h s e : dirlike h -> ~ In c_sep s -> exists r, ~ In c_sep r /\ replaceext (h ++ s_temp ++ s) e = h ++ s_temp ++ r ++ e.
  Proof.
    intros Hh Hs. destruct (splitext_temp s Hs) as (r & e' & E & ->). exists r. split; [intros K; apply Hs, in_or_app; left; exact K|].
    unfold replaceext. rewrite path_new_one, (splitext_dir h _ _ _ Hh E). cbn [fst]. rewrite <- !app_assoc. reflexivity.
  Qed.
  Lemma obj_place k x : plain k -> good_name x ->
    (startswith (src_of cwd root k x) root = true /\ in_dir x (place (obj_of cwd root k x))) \/
    (startswith (src_of cwd root k x) root = false /\ in_root (place (obj_of cwd root k x))).
  Proof.
    intros Hk Hx. pose proof Hk as (H1 & H2 & _). pose proof (temp_suffix_sep _ H1) as Hn. unfold obj_of. rewrite (src_form k x Hk).
    destruct (dir_abs x Hx) as [Ha Hne].
    destruct (pjoin_form (dir_of cwd root x) _ Hn) as (h & -> & Hh & Hp & t & Ht).
    assert (isabs (h ++ s_temp ++ k_src_suffix k) = true) as Habs.
    { rewrite Ht, <- app_assoc, isabs_app; [exact Ha|exact Hne]. }
    rewrite (addroot_abs h _ Hh Hn Habs). destruct (startswith (h ++ s_temp ++ k_src_suffix k) root) eqn:E.
    - left. split; [reflexivity|]. destruct (replace_form h _ (k_obj_suffix k) Hh H1) as (r & Hr & ->).
      assert (good_name (s_temp ++ r ++ k_obj_suffix k)) as Hg.
      { apply (temp_good [] (r ++ k_obj_suffix k)); [intros []|]. apply not_in_app; assumption. }
      exists (s_temp ++ r ++ k_obj_suffix k). split; [exact Hg|]. rewrite (place_dir h _ Hh Hg), Hp, (dir_place x Hx), <- app_assoc. reflexivity.
    - right. split; [reflexivity|]. destruct (pjoin_form root _ Hn) as (h' & -> & Hh' & Hp' & _).
      destruct (replace_form h' _ (k_obj_suffix k) Hh' H1) as (r & Hr & ->).
      assert (good_name (s_temp ++ r ++ k_obj_suffix k)) as Hg.
      { apply (temp_good [] (r ++ k_obj_suffix k)); [intros []|]. apply not_in_app; assumption. }
      exists (s_temp ++ r ++ k_obj_suffix k). split; [exact Hg|]. rewrite (place_dir h' _ Hh' Hg), Hp'. reflexivity.
  Qed.

  (** The directory of the source is that of the temporary files. *)
  Lemma src_parent k x : plain k -> good_name x -> fst (psplit (src_of cwd root k x)) = dir_of cwd root x.
  Proof.
    intros Hk Hx. pose proof (temp_suffix_sep _ (proj1 Hk)) as Hn. rewrite (src_form k x Hk).
    set (n := s_temp ++ k_src_suffix k) in *. unfold dir_of.
    destruct (pjoin_form (tmp cwd root) x (proj1 (proj2 Hx))) as (h & E & Hh & _). rewrite E.
    destruct (exists_last (proj1 Hx)) as (x' & c & Ex). assert (is_sep c = false) as Hc.
    { apply is_sep_false. intros ->. apply (proj1 (proj2 Hx)). rewrite Ex. apply in_or_app. right. left. reflexivity. }
    assert (pjoin (h ++ x) n = (h ++ x) ++ c_sep :: n) as ->.
    { unfold pjoin. rewrite (nosep_rel n Hn). rewrite Ex, app_assoc. destruct ((h ++ x') ++ [c]) eqn:K; [destruct (h ++ x'); discriminate|].
      rewrite <- K, ends_sep_snoc, Hc. reflexivity. }
    unfold psplit. rewrite (cut_sep (h ++ x) n Hn). assert (forallb is_sep ((h ++ x) ++ [c_sep]) = false) as ->.
    { rewrite Ex, !forallb_app. cbn. rewrite Hc. rewrite !andb_false_r. reflexivity. }
    cbn [fst]. rewrite Ex, app_assoc. apply rstrip_snoc. exact Hc.
  Qed.
  Lemma exe_place k x : plain k -> good_name x ->
    (startswith (pjoin (dir_of cwd root x) s_temp) root = true /\ in_dir x (place (exe_of cwd root k x))) \/
    (startswith (pjoin (dir_of cwd root x) s_temp) root = false /\ in_root (place (exe_of cwd root k x))).
  Proof.
    intros Hk Hx. pose proof Hk as (_ & _ & H3 & H4). unfold exe_of. rewrite (src_parent k x Hk Hx).
    assert (~ In c_sep s_temp) as Hn by (rewrite <- (app_nil_r s_temp); apply temp_suffix_sep; intros []).
    destruct (dir_abs x Hx) as [Ha Hne].
    destruct (pjoin_form (dir_of cwd root x) _ Hn) as (h & -> & Hh & Hp & t & Ht).
    assert (isabs (h ++ s_temp) = true) as Habs.
    { rewrite Ht, <- app_assoc, isabs_app; [exact Ha|exact Hne]. }
    assert (forall g, dirlike g -> place (pjoin (fst (psplit (g ++ s_temp))) (k_prefix k) ++ snd (psplit (g ++ s_temp)) ++ k_suffix k) =
      place g ++ [k_prefix k ++ s_temp ++ k_suffix k]) as Hprod.
    { intros g Hg. rewrite psplit_snd, (cut_app g s_temp Hg Hn). cbn [snd].
      pose proof (temp_good _ _ H3 H4) as Hgood. rewrite pjoin_app.
      - rewrite (place_join _ _ Hgood). rewrite (place_parent g s_temp Hg Hn). reflexivity.
      - apply nosep_rel. exact H3.
      - apply nosep_rel. apply Hgood. }
    unfold product. rewrite (addroot_abs h _ Hh Hn Habs). destruct (startswith (h ++ s_temp) root) eqn:E.
    - left. split; [reflexivity|]. exists (k_prefix k ++ s_temp ++ k_suffix k). split; [apply temp_good; assumption|].
      rewrite (Hprod h Hh), Hp, (dir_place x Hx), <- app_assoc. reflexivity.
    - right. split; [reflexivity|]. exists (k_prefix k ++ s_temp ++ k_suffix k). split; [apply temp_good; assumption|].
      destruct (pjoin_form root _ Hn) as (h' & -> & Hh' & Hp' & _). rewrite (Hprod h' Hh'), Hp'. reflexivity.
  Qed.

  Lemma owned_starts t : owned -> startswith (tmp cwd root ++ t) root = true.
  Proof. intros H. destruct (startswith_true _ _ H) as [b ->]. rewrite <- app_assoc. apply startswith_app. Qed.
  Lemma owned_dir x n : owned -> good_name x -> ~ In c_sep n -> startswith (pjoin (dir_of cwd root x) n) root = true.
  Proof.
    intros H Hx Hn. unfold dir_of. destruct (pjoin_form (tmp cwd root) x (proj1 (proj2 Hx))) as (h & -> & _ & _ & t & ->).
    destruct (pjoin_form ((tmp cwd root ++ t) ++ x) n Hn) as (h' & -> & _ & _ & t' & ->). rewrite <- !app_assoc. apply owned_starts. exact H.
  Qed.
  Lemma obj_owned k x : owned -> plain k -> good_name x -> in_dir x (place (obj_of cwd root k x)).
  Proof.
    intros Ho Hk Hx. destruct (obj_place k x Hk Hx) as [[_ H]|[H _]]; [exact H|]. exfalso.
    rewrite (src_form k x Hk), (owned_dir x _ Ho Hx (temp_suffix_sep _ (proj1 Hk))) in H. discriminate.
  Qed.
  Lemma exe_owned k x : owned -> plain k -> good_name x -> in_dir x (place (exe_of cwd root k x)).
  Proof.
    intros Ho Hk Hx. destruct (exe_place k x Hk Hx) as [[_ H]|[H _]]; [exact H|]. exfalso.
    rewrite (owned_dir x _ Ho Hx) in H; [discriminate|]. rewrite <- (app_nil_r s_temp). apply temp_suffix_sep. intros [].
  Qed.
End Places.

(** *** An absolute build root without special names *)
Lemma slashed_join ns : ns <> [] -> slashed ns = c_sep :: join_by c_sep ns.
Proof.
  induction ns as [|n [|m ns] IH]; intros H; [contradiction|cbn; rewrite app_nil_r; reflexivity|].
  change (slashed (n :: m :: ns)) with (c_sep :: n ++ slashed (m :: ns)). rewrite IH by discriminate. reflexivity.
Qed.
Lemma slashed_app a b : slashed (a ++ b) = slashed a ++ slashed b.
Proof. induction a as [|n a IH]; [reflexivity|]. cbn. rewrite IH, <- app_assoc. reflexivity. Qed.
Lemma slashed_norm ns : ns <> [] -> Forall good_name ns -> normpath (slashed ns) = slashed ns.
Proof.
  intros Hne Hg. rewrite (slashed_join ns Hne).
  destruct (normpath_abs (c_sep :: join_by c_sep ns) eq_refl) as [-> _].
  assert (slashes (c_sep :: join_by c_sep ns) = [c_sep]) as ->.
  { destruct ns as [|n ns]; [contradiction|]. inversion Hg as [|? ? (H1 & H2 & _) _]; subst. destruct n as [|c n]; [contradiction|].
    assert (is_sep c = false) as Hc by (apply is_sep_false; intros ->; apply H2; left; reflexivity).
    destruct ns as [|m ns]; cbn [join_by app].
    - destruct n as [|d n]; cbn [slashes]; rewrite Hc; reflexivity.
    - destruct n as [|d n]; cbn [slashes app]; rewrite Hc; reflexivity. }
  change (c_sep :: join_by c_sep ns) with ([c_sep] ++ join_by c_sep ns) at 1.
  rewrite (norm_slashed [c_sep] ns eq_refl); [reflexivity|discriminate|exact Hg].
Qed.
Lemma full_path_owned cwd root : full_path root -> owned cwd root.
Proof.
  intros (ns & Hne & Hg & ->). unfold owned, tmp, abspath, full.
  assert (pjoin (slashed ns) s_tmp = slashed (ns ++ [s_tmp])) as ->.
  { rewrite slashed_app. cbn [slashed]. rewrite app_nil_r.
    destruct (exists_last Hne) as (ns' & n & ->). apply Forall_app in Hg as [_ Hn]. inversion Hn as [|? ? (H1 & H2 & _) _]; subst.
    rewrite slashed_app. cbn [slashed]. rewrite app_nil_r. destruct (exists_last H1) as (n' & c & ->).
    assert (is_sep c = false) as Hc by (apply is_sep_false; intros ->; apply H2, in_or_app; right; left; reflexivity).
    unfold pjoin. cbn [isabs s_tmp]. change (is_sep 46) with false. cbn [andb].
    assert (slashed ns' ++ 47 :: n' ++ [c] = (slashed ns' ++ 47 :: n') ++ [c]) as -> by (rewrite <- app_assoc; reflexivity).
    rewrite ends_sep_snoc, Hc. destruct ((slashed ns' ++ 47 :: n') ++ [c]) eqn:E; [destruct (slashed ns'); discriminate|reflexivity]. }
  assert (isabs (slashed (ns ++ [s_tmp])) = true) as ->.
  { destruct ns; reflexivity. }
  rewrite slashed_norm.
  - rewrite slashed_app. apply startswith_app.
  - destruct ns; discriminate.
  - apply Forall_app. split; [exact Hg|]. constructor; [|constructor]. repeat split; try discriminate.
    intros K. repeat (destruct K as [K|K]; [discriminate|]). destruct K.
Qed.
