(** Facts about relative paths and the output of the compiler. *)
From Coq Require Import List NArith Bool Arith Lia.
From Verif Require Import FnModel PathModel PathSpec PathFacts TryModel TrySpec TryFacts TryPlaces OwnSpec OwnPlaces JavaModel JavaSpec.
Import ListNotations.
Open Scope N_scope.

(** *** Relative paths *)
Section Rel.
  Context (cwd : str) (Hcwd : isabs cwd = true).
  Lemma good_nonempty ns : Forall good_name ns -> filter nonempty_name ns = ns.
  Proof. induction 1 as [|n ns (Hn & _) _ IH]; [reflexivity|]. cbn. destruct n; [contradiction|]. cbn. rewrite IH. reflexivity. Qed.
  Lemma split_seps s x : forallb is_sep s = true -> filter nonempty_name (split_at c_sep (s ++ x)) = filter nonempty_name (split_at c_sep x).
  Proof.
    induction s as [|c s IH]; [reflexivity|]. cbn [forallb app]. intros H. apply andb_true_iff in H as [Hc H]. cbn [split_at].
    unfold is_sep in Hc. rewrite Hc. cbn. apply IH. exact H.
  Qed.
  Lemma name_list_place p : name_list cwd p = place cwd p.
  Proof.
    unfold name_list, place, abspath. destruct (normpath_abs _ (full_abs cwd Hcwd p)) as [-> _].
    destruct (slashes_abs _ (full_abs cwd Hcwd p)) as (Hs & _ & _). rewrite (split_seps _ _ Hs).
    pose proof (norm_all_good (full cwd p)) as Hg. destruct (norm_names true (full cwd p)) as [|n ns] eqn:E; [reflexivity|].
    rewrite split_join; [apply good_nonempty; exact Hg|discriminate|exact Hg].
  Qed.
  Lemma common_split a : forall b, exists c a' b', a = c ++ a' /\ b = c ++ b' /\ common_len a b = length c.
  Proof.
    induction a as [|x a IH]; intros [|y b]; try (exists [], [], []; repeat split; reflexivity).
    - exists [], [], (y :: b). repeat split; reflexivity.
    - exists [], (x :: a), []. repeat split; reflexivity.
    - cbn. destruct (str_eqb x y) eqn:E; [|exists [], (x :: a), (y :: b); repeat split; reflexivity].
      apply str_eqb_true in E. subst y. destruct (IH b) as (c & a' & b' & -> & -> & ->). exists (x :: c), a', b'. repeat split; reflexivity.
  Qed.
  Definition step_name (n : str) : Prop := good_name n \/ n = n_dotdot.
  Lemma step_nosep n : step_name n -> ~ In c_sep n.
  Proof. intros [(_ & H & _)| ->]; [exact H|]. intros K. repeat (destruct K as [K|K]; [discriminate|]). destruct K. Qed.
  Lemma step_ne n : step_name n -> n <> [].
  Proof. intros [(H & _)| ->]; [exact H|discriminate]. Qed.
  (** Joining names, and the names of what is joined. *)
  Lemma full_step p n : step_name n -> exists h, pjoin p n = h ++ n /\ (h = p \/ h = p ++ [c_sep]) /\ dirlike h.
  Proof.
    intros Hn. pose proof (nosep_rel n (step_nosep n Hn)) as Hr. unfold pjoin. rewrite Hr. destruct p as [|c p].
    - exists []. split; [reflexivity|]. split; [left; reflexivity|left; reflexivity].
    - destruct (ends_sep (c :: p)) eqn:E.
      + exists (c :: p). split; [reflexivity|]. split; [left; reflexivity|]. right.
        unfold ends_sep in E. destruct (rev (c :: p)) as [|d r] eqn:Er; [discriminate|]. apply is_sep_true in E. subst d.
        exists (rev r). rewrite <- (rev_involutive (c :: p)), Er. reflexivity.
      + exists ((c :: p) ++ [c_sep]). rewrite <- app_assoc. split; [reflexivity|]. split; [right; reflexivity|right; exists (c :: p); reflexivity].
  Qed.
  Definition walk (l : loc) (n : str) : loc := rev (norm_step true (rev l) n).
  Lemma norm_walk h n : dirlike h -> step_name n -> norm_names true (h ++ n) = walk (norm_names true h) n.
  Proof.
    intros [->|[h' ->]] Hn; unfold norm_names, walk.
    - cbn [app]. rewrite (split_one n (step_nosep n Hn)). reflexivity.
    - rewrite <- app_assoc. cbn [app]. rewrite !split_sep, (split_one n (step_nosep n Hn)), !fold_left_app, rev_involutive.
      cbn [fold_left split_at norm_step]. reflexivity.
  Qed.
  Lemma place_step p n : isabs p = true -> step_name n -> place cwd (pjoin p n) = walk (place cwd p) n /\ isabs (pjoin p n) = true.
  Proof.
    intros Hp Hn. destruct (full_step p n Hn) as (h & E & Hh & Hd). rewrite E.
    assert (isabs (h ++ n) = true) as Ha. { destruct Hh as [->| ->]; destruct p; try discriminate; exact Hp. }
    split; [|exact Ha]. unfold place, full. rewrite Ha, Hp. rewrite (norm_walk h n Hd Hn). f_equal.
    destruct Hh as [->| ->]; [reflexivity|apply norm_sep].
  Qed.
  Lemma pjoin_assoc_step p q n : q <> [] -> isabs q = false -> step_name n -> pjoin p (pjoin q n) = pjoin (pjoin p q) n.
  Proof.
    intros Hq Hr Hn. destruct (full_step q n Hn) as (h & E & Hh & Hd). pose proof (nosep_rel n (step_nosep n Hn)) as Hnr.
    assert (q ++ [c_sep] <> [] /\ h <> [] /\ isabs h = false) as (_ & Hhne & Hhr).
    { destruct q; [contradiction|]. destruct Hh as [->| ->]; repeat split; try discriminate; exact Hr. }
    rewrite E.
    assert (forall a, a <> [] -> forall x, isabs x = false -> x <> [] -> pjoin a (x ++ n) = pjoin a x ++ n) as Happ.
    { intros a Ha x Hx Hxn. symmetry. apply pjoin_app; [exact Hx|]. rewrite isabs_app; assumption. }
    destruct p as [|c p]; [rewrite !pjoin_nil; symmetry; exact E|].
    rewrite (Happ (c :: p) ltac:(discriminate) h Hhr Hhne).
    assert (exists t, pjoin (c :: p) q = t ++ q) as (t & Et).
    { unfold pjoin. rewrite Hr. destruct (ends_sep (c :: p)); [exists (c :: p); reflexivity|exists ((c :: p) ++ [c_sep]); rewrite <- app_assoc; reflexivity]. }
    assert (ends_sep (t ++ q) = ends_sep q) as Ee.
    { unfold ends_sep. rewrite rev_app_distr. destruct (rev q) eqn:K; [|reflexivity].
      apply (f_equal (@rev N)) in K. rewrite rev_involutive in K. contradiction. }
    assert (t ++ q <> []) as Htq by (destruct t; [exact Hq|discriminate]).
    unfold pjoin at 2. rewrite Hnr, Et. destruct (t ++ q) as [|d w] eqn:K; [contradiction|]. rewrite Ee.
    destruct Hh as [Eh|Eh].
    - assert (ends_sep q = true) as Hq'.
      { subst h. unfold pjoin in E. rewrite Hnr in E. destruct q as [|e q]; [contradiction|]. destruct (ends_sep (e :: q)); [reflexivity|].
        exfalso. apply (f_equal (@length N)) in E. rewrite !app_length in E. cbn in E. unfold chr in *. lia. }
      rewrite Hq', Eh, Et. reflexivity.
    - assert (ends_sep q = false) as Hq'.
      { subst h. unfold pjoin in E. rewrite Hnr in E. destruct q as [|e q]; [contradiction|]. destruct (ends_sep (e :: q)); [|reflexivity].
        exfalso. apply (f_equal (@length N)) in E. rewrite !app_length in E. cbn in E. unfold chr in *. lia. }
      rewrite Hq', Eh. rewrite <- (pjoin_app (c :: p) q [c_sep] Hr); [|rewrite isabs_app; assumption].
      rewrite Et, <- app_assoc. reflexivity.
  Qed.
  Lemma path_steps ns : Forall step_name ns -> ns <> [] ->
    isabs (path_new ns) = false /\ path_new ns <> [] /\
    forall p, isabs p = true -> place cwd (pjoin p (path_new ns)) = fold_left walk ns (place cwd p) /\ isabs (pjoin p (path_new ns)) = true.
  Proof.
    induction ns as [|n ns IH] using rev_ind; [contradiction|]. intros H _. apply Forall_app in H as [H Hn]. inversion Hn as [|? ? Hn' _]; subst.
    unfold path_new. rewrite fold_left_app. cbn [fold_left]. change (fold_left pjoin ns []) with (path_new ns).
    destruct ns as [|m ns].
    - cbn [path_new fold_left]. rewrite pjoin_nil. split; [apply nosep_rel, step_nosep; exact Hn'|]. split; [apply step_ne; exact Hn'|].
      intros p Hp. cbn [app fold_left]. apply place_step; assumption.
    - destruct (IH H ltac:(discriminate)) as (Ha & Hne & Hp). split; [|split].
      + unfold pjoin. rewrite (nosep_rel n (step_nosep n Hn')). destruct (path_new (m :: ns)) as [|c q]; [contradiction|].
        destruct (ends_sep (c :: q)); exact Ha.
      + unfold pjoin. rewrite (nosep_rel n (step_nosep n Hn')). destruct (path_new (m :: ns)) as [|c q]; [contradiction|].
        destruct (ends_sep (c :: q)); discriminate.
      + intros p Hpa. destruct (Hp p Hpa) as [Hp1 Hp2]. rewrite fold_left_app, <- Hp1. cbn [fold_left].
        rewrite (pjoin_assoc_step p _ n Hne Ha Hn'). apply place_step; assumption.
  Qed.
  Lemma walk_up l c : Forall good_name l -> fold_left walk (repeat n_dotdot (length l)) (c ++ l) = c.
  Proof.
    induction l as [|n l IH] using rev_ind; intros H; [cbn; apply app_nil_r|]. apply Forall_app in H as [H Hn].
    inversion Hn as [|? ? (_ & _ & _ & Hd) _]; subst.
    rewrite app_length, Nat.add_comm. cbn [length Nat.add repeat fold_left]. rewrite app_assoc. unfold walk at 2. rewrite rev_app_distr. cbn [rev app].
    cbn [norm_step str_eqb n_dotdot]. replace (norm_step true (n :: rev (c ++ l)) n_dotdot) with (rev (c ++ l)).
    - rewrite rev_involutive. apply IH. exact H.
    - unfold norm_step. cbn. rewrite (eqb_no n n_dotdot Hd). reflexivity.
  Qed.
  Lemma walk_down l : forall c, Forall good_name l -> fold_left walk l c = c ++ l.
  Proof.
    induction l as [|n l IH]; intros c H; [symmetry; apply app_nil_r|]. inversion H; subst. cbn [fold_left].
    unfold walk at 2. rewrite norm_good by assumption. cbn [rev]. rewrite rev_involutive, IH by assumption. rewrite <- app_assoc. reflexivity.
  Qed.
  Lemma place_good p : Forall good_name (place cwd p).
  Proof. apply norm_all_good. Qed.
  Lemma place_own p : isabs p = true -> place p [] = place cwd p.
  Proof. intros H. unfold place, full. cbn [isabs]. rewrite H. unfold pjoin. cbn. destruct p as [|c p]; [discriminate|].
    destruct (ends_sep (c :: p)); [rewrite app_nil_r; reflexivity|apply norm_sep]. Qed.

  Lemma relpath_place p start : p <> [] -> exists r, relpath cwd p start = Some r /\ place (abspath cwd start) r = place cwd p.
  Proof.
    intros Hp. unfold relpath. destruct p as [|c p]; [contradiction|]. rewrite !name_list_place. set (q := c :: p) in *.
    destruct (common_split (place cwd start) (place cwd q)) as (k & a & b & Ea & Eb & Ec). rewrite Ec, Ea, Eb.
    assert (Forall good_name a /\ Forall good_name b) as [Ga Gb].
    { pose proof (place_good start) as H1. pose proof (place_good q) as H2. rewrite Ea in H1. rewrite Eb in H2.
      apply Forall_app in H1, H2. tauto. }
    rewrite app_length. replace (length k + length a - length k)%nat with (length a) by lia.
    rewrite skipn_app, skipn_all, Nat.sub_diag. cbn [app skipn].
    pose proof (abspath_abs cwd Hcwd start) as Habs. pose proof (place_abspath cwd Hcwd start) as Hpl.
    destruct (repeat n_dotdot (length a) ++ b) as [|n ns] eqn:E.
    - apply app_eq_nil in E as [E1 E2]. destruct a; [|discriminate]. subst b. rewrite app_nil_r in *. exists n_dot. split; [reflexivity|].
      rewrite <- Ea, <- Hpl. unfold place at 1, full at 1. change (isabs n_dot) with false. cbv iota.
      destruct (pjoin_form cwd (abspath cwd start) n_dot) as (h & Eh & Hd & Hh & t & Et).
      { intros K. repeat (destruct K as [K|K]; [discriminate|]). destruct K. }
      rewrite Eh. rewrite <- Hh. unfold place, full.
      assert (isabs h = true) as Hah. { rewrite Et. destruct (abspath cwd start); [discriminate|exact Habs]. }
      rewrite Hah. destruct Hd as [->|[h' ->]]; [discriminate|]. rewrite <- app_assoc. cbn [app]. unfold norm_names. rewrite !split_sep, !fold_left_app. reflexivity.
    - exists (path_new (n :: ns)). split; [reflexivity|].
      assert (Forall step_name (n :: ns)) as Hs.
      { rewrite <- E. apply Forall_app. split.
        - apply Forall_forall. intros x Hx. apply repeat_spec in Hx. right. exact Hx.
        - eapply Forall_impl; [|exact Gb]. intros x Hx. left. exact Hx. }
      destruct (path_steps (n :: ns) Hs ltac:(discriminate)) as (Hr & _ & Hpp).
      unfold place at 1, full at 1. rewrite Hr. destruct (Hpp (abspath cwd start) Habs) as [H1 H2].
      rewrite <- E, fold_left_app, Hpl, Ea, (walk_up a k Ga), (walk_down b k Gb) in H1.
      rewrite <- H1, E. unfold place, full. rewrite H2. reflexivity.
  Qed.
  Lemma joined_path ns : Forall good_name ns -> ns <> [] -> path_new ns = joined ns.
  Proof.
    intros H Hne. destruct (exists_last Hne) as (ms & n & ->). clear Hne.
    assert (forall ms n a, Forall good_name (ms ++ [n]) -> a <> [] -> ends_sep a = false -> fold_left pjoin (ms ++ [n]) a = a ++ c_sep :: joined (ms ++ [n])) as K.
    { clear. induction ms as [|m ms IH]; intros n a H Ha He.
      - cbn. inversion H; subst. unfold pjoin. rewrite (nosep_rel n) by (apply H2). destruct a; [contradiction|]. rewrite He. reflexivity.
      - inversion H as [|? ? Hm H']; subst. cbn [app fold_left]. unfold pjoin at 2. rewrite (nosep_rel m) by apply Hm. destruct a as [|c a]; [contradiction|]. rewrite He.
        rewrite IH; [|exact H'|discriminate|].
        + rewrite joined_cons by (destruct ms; discriminate). rewrite <- app_assoc. reflexivity.
        + unfold ends_sep. rewrite rev_app_distr. cbn [rev]. destruct Hm as (Hm1 & Hm2 & _). destruct (exists_last Hm1) as (m' & d & ->).
          rewrite rev_app_distr. cbn. apply is_sep_false. intros ->. apply Hm2, in_or_app. right. left. reflexivity. }
    destruct ms as [|m ms].
    - cbn. apply pjoin_nil.
    - inversion H as [|? ? Hm H']; subst. cbn [app]. unfold path_new. cbn [fold_left]. rewrite pjoin_nil, K.
      + rewrite joined_cons by (destruct ms; discriminate). reflexivity.
      + exact H'.
      + apply Hm.
      + unfold ends_sep. destruct Hm as (Hm1 & Hm2 & _). destruct (exists_last Hm1) as (m' & d & ->).
        rewrite rev_app_distr. cbn. apply is_sep_false. intros ->. apply Hm2, in_or_app. right. left. reflexivity.
  Qed.
  Lemma relpath_below p start ns : p <> [] -> place cwd p = place cwd start ++ ns -> ns <> [] -> relpath cwd p start = Some (joined ns).
  Proof.
    intros Hp E Hne. unfold relpath. destruct p as [|c p]; [contradiction|]. rewrite !name_list_place. rewrite E.
    assert (Forall good_name ns) as G. { pose proof (place_good (c :: p)) as H. rewrite E in H. apply Forall_app in H. apply H. }
    assert (forall a b, common_len a (a ++ b) = length a) as Hc.
    { clear. induction a as [|x a IH]; intros b; [destruct b; reflexivity|]. cbn. rewrite str_eqb_refl, IH. reflexivity. }
    rewrite Hc, Nat.sub_diag, skipn_app, skipn_all, Nat.sub_diag. cbn [repeat app skipn]. destruct ns as [|n ns]; [contradiction|].
    f_equal. apply joined_path; [exact G|discriminate].
  Qed.
End Rel.

(** *** The output of the compiler *)
Lemma klines_line l s : ~ In 10 l -> klines (l ++ 10 :: s) = (l ++ [10]) :: klines s.
Proof.
  induction l as [|c l IH]; intros H; [reflexivity|]. cbn [app klines]. rewrite IH by (intros K; apply H; right; exact K).
  destruct (N.eqb c c_nl) eqn:E; [|reflexivity]. apply N.eqb_eq in E. subst c. destruct H. left. reflexivity.
Qed.
Lemma after_app w s : after_ w (w ++ s) = Some s.
Proof.
  unfold after_. assert (startswith (w ++ s) w = true) as ->.
  { induction w as [|c w IH]; [destruct s; reflexivity|]. cbn. rewrite N.eqb_refl. exact IH. }
  rewrite skipn_app, skipn_all, Nat.sub_diag. reflexivity.
Qed.
Lemma after_none w s : ~ begins s w -> after_ w s = None.
Proof.
  intros H. unfold after_. destruct (startswith s w) eqn:E; [|reflexivity]. exfalso. destruct (startswith_true _ _ E) as [r ->].
  apply H. exists r. reflexivity.
Qed.
Lemma upto_app c a s : ~ In c a -> upto c (a ++ c :: s) = (a, c :: s).
Proof.
  induction a as [|d a IH]; intros H; cbn; [rewrite N.eqb_refl; reflexivity|]. rewrite IH by (intros K; apply H; right; exact K).
  destruct (N.eqb d c) eqn:E; [|reflexivity]. apply N.eqb_eq in E. subst d. destruct H. left. reflexivity.
Qed.
Lemma quoted_none s : ~ begins s [39] -> quoted s = None.
Proof.
  intros H. destruct s as [|d s]; [reflexivity|]. cbn. destruct (N.eqb d c_quote) eqn:E; [|reflexivity]. apply N.eqb_eq in E. subst d.
  destruct H. exists s. reflexivity.
Qed.
Lemma begins_app p w s : ~ begins p w -> (forall r, p ++ s = w ++ r -> begins p w) -> ~ begins (p ++ s) w.
Proof. intros H K [r E]. exact (H (K r E)). Qed.
(** A prefix of two is a prefix of the first, if it does not contain the character between them. *)
Lemma begins_before (p w : str) (c : N) : ~ In c w -> forall s r, p ++ c :: s = w ++ r -> begins p w.
Proof.
  revert p. induction w as [|d w IH]; intros p Hc s r E; [exists p; reflexivity|]. destruct p as [|e p].
  - cbn in E. injection E as -> _. destruct Hc. left. reflexivity.
  - cbn in E. injection E as -> E. destruct (IH p (fun K => Hc (or_intror K)) s r E) as [q ->]. exists q. reflexivity.
Qed.
Lemma name_take p rest : plain_name p -> nonempty_name (fst (upto c_close (p ++ 93 :: rest))) = true /\ fst (upto c_close (p ++ 93 :: rest)) = p.
Proof. intros (Hp & Hc & _). assert (upto c_close (p ++ 93 :: rest) = (p, 93 :: rest)) as -> by exact (upto_app 93 p rest Hc). cbn [fst]. split; [|reflexivity]. destruct p; [contradiction|reflexivity]. Qed.
Lemma reports_match l p s : reports l p -> dep_match (l ++ s) = Some p.
Proof.
  intros H. destruct H as [p rest Hp Hr Hq _|p rest Hp Hq _|c p rest Hc Hq _ Hp _]; unfold dep_match.
  - replace ((t_wrote ++ p ++ 93 :: rest) ++ s) with (t_wrote ++ p ++ 93 :: rest ++ s) by (rewrite <- !app_assoc; reflexivity).
    change t_wrote with w_wrote. rewrite after_app. destruct (name_take p (rest ++ s) Hp) as [H1 H2].
    rewrite after_none, quoted_none.
    + cbn [opt_list app map find]. rewrite H1, H2. reflexivity.
    + apply begins_app; [exact Hq|]. apply begins_before. intros [K|[]]; discriminate.
    + apply begins_app; [exact Hr|]. apply begins_before. intros K. repeat (destruct K as [K|K]; [discriminate|]). destruct K.
  - replace ((t_wrote ++ t_regular ++ p ++ 93 :: rest) ++ s) with (t_wrote ++ t_regular ++ p ++ 93 :: rest ++ s) by (rewrite <- !app_assoc; reflexivity).
    change t_wrote with w_wrote. change t_regular with w_regular. rewrite !after_app. destruct (name_take p (rest ++ s) Hp) as [H1 H2].
    rewrite (quoted_none (p ++ 93 :: rest ++ s)).
    + cbn [opt_list app map find]. rewrite H1, H2. reflexivity.
    + apply begins_app; [exact Hq|]. apply begins_before. intros [K|[]]; discriminate.
  - replace ((t_wrote ++ 39 :: c ++ t_to ++ p ++ 93 :: rest) ++ s) with (t_wrote ++ 39 :: c ++ t_to ++ p ++ 93 :: rest ++ s)
      by (rewrite <- app_assoc; f_equal; change (39 :: c ++ t_to ++ p ++ 93 :: rest) with ([39] ++ c ++ t_to ++ p ++ 93 :: rest); rewrite <- !app_assoc; reflexivity).
    change t_wrote with w_wrote. rewrite after_app. destruct (name_take p (rest ++ s) Hp) as [H1 H2].
    rewrite after_none by (intros [r K]; discriminate K).
    assert (quoted (39 :: c ++ t_to ++ p ++ 93 :: rest ++ s) = Some (p ++ 93 :: rest ++ s)) as ->.
    { unfold quoted, c_quote. rewrite N.eqb_refl. change (t_to ++ p ++ 93 :: rest ++ s) with (39 :: tl t_to ++ p ++ 93 :: rest ++ s).
      rewrite (upto_app 39 c _ Hq). destruct c; [contradiction|].
      change (39 :: tl t_to ++ p ++ 93 :: rest ++ s) with (w_to ++ p ++ 93 :: rest ++ s). apply after_app. }
    cbn [opt_list app map find]. rewrite H1, H2. reflexivity.
Qed.
Lemma reports_line l p : reports l p -> ~ In 10 l.
Proof.
  intros H. destruct H as [p rest (_ & _ & Hp) _ _ Hr|p rest (_ & _ & Hp) _ Hr|c p rest _ _ Hc (_ & _ & Hp) Hr]; intros K;
    repeat (apply in_app_or in K as [K|K]; [first [exact (Hp K)|exact (Hc K)|repeat (destruct K as [K|K]; [discriminate|]); destruct K]|]).
  - destruct K as [K|K]; [discriminate|exact (Hr K)].
  - destruct K as [K|K]; [discriminate|exact (Hr K)].
  - destruct K as [K|K]; [discriminate|].
    repeat (apply in_app_or in K as [K|K]; [first [exact (Hp K)|exact (Hc K)|repeat (destruct K as [K|K]; [discriminate|]); destruct K]|]).
    destruct K as [K|K]; [discriminate|exact (Hr K)].
Qed.
Lemma found_log ls ps : log ls ps -> found (output ls) = ps.
Proof.
  unfold found, output. induction 1 as [|l p ls ps H _ IH|l ls ps H1 H2 _ IH]; [reflexivity| |]; cbn [map concat]; rewrite <- app_assoc; cbn [app].
  - rewrite (klines_line l _ (reports_line _ _ H)). cbn [flat_map]. rewrite (reports_match l p _ H). cbn. rewrite IH. reflexivity.
  - rewrite (klines_line l _ H2). cbn [flat_map]. unfold dep_match at 1. rewrite after_none; [exact IH|].
    apply begins_app; [exact H1|]. apply begins_before. intros K. repeat (destruct K as [K|K]; [discriminate|]). destruct K.
Qed.
