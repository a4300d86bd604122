(** Facts about version checks. *)
From Coq Require Import List NArith ZArith Bool Lia.
From Verif Require Import FnModel PathFacts VerModel VerSpec.
Import ListNotations.
Open Scope N_scope.

Lemma comp_eqb_ok a b : comp_eqb a b = true <-> a = b.
Proof.
  destruct a as [x|x], b as [y|y]; simpl; try (split; intros H; discriminate H).
  - rewrite Z.eqb_eq. split; [intros ->; reflexivity|intros [= ->]; reflexivity].
  - split; [intros H; apply str_eqb_true in H; subst; reflexivity|intros [= ->]; apply str_eqb_refl].
Qed.

Lemma tuple_eqb_ok a : forall b, tuple_eqb a b = true <-> a = b.
Proof.
  induction a as [|x a IH]; intros [|y b]; simpl; try (split; intros H; discriminate H); [tauto|].
  rewrite andb_true_iff, comp_eqb_ok, IH. split; [intros [-> ->]; reflexivity|intros [= -> ->]; auto].
Qed.

Lemma str_ltb_ok a : forall b, str_ltb a b = true <-> str_lower a b.
Proof.
  induction a as [|c a IH]; intros [|d b]; simpl.
  - split; intros H; inversion H.
  - split; [constructor|reflexivity].
  - split; intros H; inversion H.
  - rewrite orb_true_iff, andb_true_iff, N.ltb_lt, N.eqb_eq, IH. split.
    + intros [H|[-> H]]; [apply sl_head; exact H|apply sl_tail; exact H].
    + intros H. inversion H; subst; auto.
Qed.

Lemma tuple_ltb_ok a : forall b,
  match tuple_ltb a b with
  | Some true => tuple_lower a b
  | Some false => ~ tuple_lower a b /\ ~ mixed a b
  | None => mixed a b
  end.
Proof.
  induction a as [|x a IH]; intros [|y b]; simpl.
  - split; intros H; inversion H.
  - constructor.
  - split; intros H; inversion H.
  - destruct (comp_eqb x y) eqn:E.
    + apply comp_eqb_ok in E as <-. specialize (IH b). destruct (tuple_ltb a b) as [[]|].
      * apply tl_tail. exact IH.
      * destruct IH as [H1 H2]. split; intros H; inversion H; subst; try contradiction; try lia.
        match goal with H : str_lower ?s ?s |- _ => apply str_ltb_ok in H; clear -H; induction s; simpl in H;
          [discriminate|]; rewrite N.ltb_irrefl, N.eqb_refl in H; auto end.
      * apply mx_tail. exact IH.
    + assert (x <> y) as Hne by (intros H; apply comp_eqb_ok in H; congruence).
      destruct x as [x|x], y as [y|y]; simpl; try constructor.
      * destruct (Z.ltb_spec x y).
        -- apply tl_int. exact H.
        -- split; intros K; inversion K; subst; try lia; try congruence; contradiction.
      * destruct (str_ltb x y) eqn:El.
        -- apply tl_str. apply str_ltb_ok. exact El.
        -- split; intros K; inversion K; subst; try congruence; try contradiction.
           match goal with H : str_lower _ _ |- _ => apply str_ltb_ok in H end. congruence.
Qed.

(** *** Numbers *)
Lemma lower_map a : forall b, tuple_lower (map CInt a) (map CInt b) <-> lower a b.
Proof.
  induction a as [|x a IH]; intros [|y b]; simpl.
  - split; intros H; inversion H.
  - split; intros _; constructor.
  - split; intros H; inversion H.
  - split; intros H; inversion H; subst.
    + apply low_head. assumption.
    + apply low_tail. apply IH. assumption.
    + apply tl_int. assumption.
    + apply tl_tail. apply IH. assumption.
Qed.

Lemma mixed_map a : forall b, ~ mixed (map CInt a) (map CInt b).
Proof. induction a as [|x a IH]; intros [|y b] H; simpl in H; inversion H; subst. apply (IH b). assumption. Qed.

Lemma ltb_map a b : exists r, tuple_ltb (map CInt a) (map CInt b) = Some r /\ (r = true <-> lower a b).
Proof.
  pose proof (tuple_ltb_ok (map CInt a) (map CInt b)) as H.
  destruct (tuple_ltb (map CInt a) (map CInt b)) as [[]|].
  - exists true. split; [reflexivity|]. rewrite <- lower_map. tauto.
  - exists false. split; [reflexivity|]. destruct H as [H _]. rewrite lower_map in H. split; [discriminate|contradiction].
  - destruct (mixed_map _ _ H).
Qed.

Lemma map_inj a : forall b, map CInt a = map CInt b -> a = b.
Proof. induction a as [|x a IH]; intros [|y b] H; try discriminate; [reflexivity|]. injection H as -> H. f_equal. auto. Qed.

(** Any version and requirement. *)
Theorem check_exact r v :
  match check r v with
  | Accept => (forall e, r_exact r = Some e -> e = v) /\
              (forall l, r_least r = Some l -> ~ mixed v l /\ ~ tuple_lower v l) /\
              (forall m, r_most r = Some m -> ~ mixed m v /\ ~ tuple_lower m v)
  | Reject => (exists e, r_exact r = Some e /\ e <> v) \/
              (exists l, r_least r = Some l /\ tuple_lower v l) \/
              (exists m, r_most r = Some m /\ tuple_lower m v)
  | TypeErr => (exists l, r_least r = Some l /\ mixed v l) \/ (exists m, r_most r = Some m /\ mixed m v)
  end.
Proof.
  unfold check. destruct r as [re rl rm]. simpl.
  destruct re as [e|].
  - destruct (tuple_eqb e v) eqn:Ee.
    + apply tuple_eqb_ok in Ee as ->. destruct rl as [l|].
      * pose proof (tuple_ltb_ok v l) as Hl. destruct (tuple_ltb v l) as [[]|]; [eauto 6| |eauto 6].
        destruct rm as [m|].
        -- pose proof (tuple_ltb_ok m v) as Hm. destruct (tuple_ltb m v) as [[]|]; [eauto 6| |eauto 6].
           split; [intros e [= <-]; reflexivity|]. split; [intros l' [= <-]|intros m' [= <-]]; tauto.
        -- split; [intros e [= <-]; reflexivity|]. split; [intros l' [= <-]; tauto|discriminate].
      * destruct rm as [m|].
        -- pose proof (tuple_ltb_ok m v) as Hm. destruct (tuple_ltb m v) as [[]|]; [eauto 6| |eauto 6].
           split; [intros e [= <-]; reflexivity|]. split; [discriminate|intros m' [= <-]; tauto].
        -- split; [intros e [= <-]; reflexivity|]. split; discriminate.
    + left. exists e. split; [reflexivity|]. intros ->.
      assert (tuple_eqb v v = true) by (apply tuple_eqb_ok; reflexivity). congruence.
  - destruct rl as [l|].
    + pose proof (tuple_ltb_ok v l) as Hl. destruct (tuple_ltb v l) as [[]|]; [eauto 6| |eauto 6].
      destruct rm as [m|].
      * pose proof (tuple_ltb_ok m v) as Hm. destruct (tuple_ltb m v) as [[]|]; [eauto 6| |eauto 6].
        split; [discriminate|]. split; [intros l' [= <-]|intros m' [= <-]]; tauto.
      * split; [discriminate|]. split; [intros l' [= <-]; tauto|discriminate].
    + destruct rm as [m|].
      * pose proof (tuple_ltb_ok m v) as Hm. destruct (tuple_ltb m v) as [[]|]; [eauto 6| |eauto 6].
        split; [discriminate|]. split; [discriminate|intros m' [= <-]; tauto].
      * split; [discriminate|]. split; discriminate.
Qed.

Lemma check_numeric w v :
  check (as_req w) (map CInt v) = Accept /\ satisfies w v \/
  check (as_req w) (map CInt v) = Reject /\ ~ satisfies w v.
Proof.
  pose proof (check_exact (as_req w) (map CInt v)) as H. unfold satisfies. destruct w as [we wl wm]. simpl in *.
  destruct (check _ _).
  - left. split; [reflexivity|]. destruct H as (H1 & H2 & H3). split; [|split].
    + intros e ->. symmetry. apply map_inj. apply H1. reflexivity.
    + intros l ->. rewrite <- lower_map. apply (H2 (map CInt l) eq_refl).
    + intros m ->. rewrite <- lower_map. apply (H3 (map CInt m) eq_refl).
  - right. split; [reflexivity|]. intros (H1 & H2 & H3). destruct H as [(e & He & Hn)|[(l & Hl & Hn)|(m & Hm & Hn)]].
    + destruct we as [e'|]; [|discriminate]. injection He as <-. apply Hn. rewrite (H1 e' eq_refl). reflexivity.
    + destruct wl as [l'|]; [|discriminate]. injection Hl as <-. apply lower_map in Hn. apply (H2 l' eq_refl Hn).
    + destruct wm as [m'|]; [|discriminate]. injection Hm as <-. apply lower_map in Hn. apply (H3 m' eq_refl Hn).
  - destruct H as [(l & Hl & Hn)|(m & Hm & Hn)].
    + destruct wl as [l'|]; [|discriminate]. injection Hl as <-. destruct (mixed_map _ _ Hn).
    + destruct wm as [m'|]; [|discriminate]. injection Hm as <-. destruct (mixed_map _ _ Hn).
Qed.

(** *** Reading numbers *)
Lemma digit_bounds d : d <= 9 -> is_digit (48 + d) = true.
Proof. intros H. unfold is_digit. rewrite andb_true_iff, !N.leb_le. lia. Qed.
Lemma digit_space c : is_digit c = true -> is_space c = false.
Proof.
  unfold is_digit, is_space. rewrite andb_true_iff, !N.leb_le. intros H.
  apply orb_false_iff. rewrite !andb_false_iff, !N.leb_gt. lia.
Qed.

Lemma digits_app acc b s : forall t, Forall (fun c => is_digit c = true) s -> s <> [] ->
  exists acc', digits acc b (s ++ t) = digits acc' true t.
Proof.
  revert acc b. induction s as [|c s IH]; intros acc b t Hs Hn; [contradiction|].
  inversion Hs as [|? ? Hc Hs']; subst. simpl. rewrite Hc. destruct s as [|d s]; [simpl; eauto|].
  apply IH; [exact Hs'|discriminate].
Qed.

Lemma numeral_digits s z : numeral s z -> Forall (fun c => is_digit c = true) s /\ s <> [].
Proof.
  induction 1 as [d Hd|s z d H IH Hd].
  - split; [|discriminate]. repeat constructor. apply digit_bounds. exact Hd.
  - destruct IH as [IH _]. split; [|destruct s; discriminate].
    apply Forall_app. split; [exact IH|]. repeat constructor. apply digit_bounds. exact Hd.
Qed.

Lemma digits_all t : forall acc acc0 b s, Forall (fun c => is_digit c = true) s ->
  digits acc b s = Some acc0 \/ s = [] -> 
  digits acc b (s ++ t) = digits (match digits acc b s with Some a => a | None => acc end) (match s with [] => b | _ => true end) t.
Proof.
  intros acc acc0 b s. revert acc b. induction s as [|c s IH]; intros acc b Hs H.
  - simpl. destruct b; reflexivity.
  - inversion Hs as [|? ? Hc Hs']; subst. simpl. rewrite Hc. simpl in H. rewrite Hc in H.
    destruct H as [H|H]; [|discriminate]. rewrite IH; [|exact Hs'|left; exact H].
    rewrite H. destruct s; reflexivity.
Qed.

Lemma numeral_value s z : numeral s z -> digits 0 false s = Some z.
Proof.
  induction 1 as [d Hd|s z d H IH Hd].
  - cbn [digits]. rewrite (digit_bounds d Hd). f_equal. lia.
  - destruct (numeral_digits _ _ H) as [Hs Hn].
    rewrite (digits_all [48 + d] 0%Z z false s Hs (or_introl IH)), IH.
    destruct s as [|c s]; [contradiction|]. cbn [digits]. rewrite (digit_bounds d Hd). f_equal. lia.
Qed.

Lemma lstrip_digits s : Forall (fun c => is_digit c = true) s -> lstrip s = s.
Proof. intros [|c l Hc Hl]; simpl; [reflexivity|]. rewrite (digit_space _ Hc). reflexivity. Qed.

Lemma strip_digits s : Forall (fun c => is_digit c = true) s -> strip s = s.
Proof.
  intros H. unfold strip. rewrite (lstrip_digits s H). rewrite (lstrip_digits (rev s)).
  - apply rev_involutive.
  - apply Forall_rev. exact H.
Qed.

Lemma numeral_int s z : numeral s z -> component s = CInt z.
Proof.
  intros H. destruct (numeral_digits _ _ H) as [Hd Hn]. unfold component, py_int.
  rewrite (strip_digits s Hd). destruct s as [|c s]; [contradiction|].
  inversion Hd as [|? ? Hc _]; subst. unfold is_digit in Hc. rewrite andb_true_iff, !N.leb_le in Hc.
  replace (c =? 45) with false by (symmetry; apply N.eqb_neq; lia).
  replace (c =? 43) with false by (symmetry; apply N.eqb_neq; lia).
  rewrite (numeral_value _ _ H). reflexivity.
Qed.

Lemma split_dot_nodot s : ~ In c_dot s -> split_dot s = [s].
Proof.
  induction s as [|c s IH]; intros H; [reflexivity|]. cbn [split_dot].
  destruct (N.eqb_spec c c_dot) as [->|Hc]; [destruct H; left; reflexivity|].
  rewrite IH by (intros K; apply H; right; exact K). reflexivity.
Qed.
Lemma split_dot_app s t : ~ In c_dot s -> split_dot (s ++ c_dot :: t) = s :: split_dot t.
Proof.
  induction s as [|c s IH]; intros H.
  - cbn [app split_dot]. rewrite N.eqb_refl. reflexivity.
  - cbn [app split_dot].
    destruct (N.eqb_spec c c_dot) as [->|Hc]; [destruct H; left; reflexivity|].
    rewrite IH by (intros K; apply H; right; exact K). reflexivity.
Qed.

Lemma numeral_nodot s z : numeral s z -> ~ In c_dot s.
Proof.
  intros H. destruct (numeral_digits _ _ H) as [Hd _]. intros Hin. rewrite Forall_forall in Hd.
  specialize (Hd _ Hin). discriminate.
Qed.

Lemma dotted_version s zs : dotted s zs -> version_of s = map CInt zs.
Proof.
  unfold version_of. induction 1 as [s z H|s z t zs H Ht IH].
  - rewrite split_dot_nodot by (eapply numeral_nodot; exact H). simpl. f_equal. apply numeral_int. exact H.
  - rewrite split_dot_app by (eapply numeral_nodot; exact H). cbn [map]. rewrite IH. f_equal.
    apply numeral_int. exact H.
Qed.

Theorem check_version_numeric w s v :
  dotted s v ->
  check_version (as_req w) s = Accept /\ satisfies w v \/
  check_version (as_req w) s = Reject /\ ~ satisfies w v.
Proof. intros H. unfold check_version. rewrite (dotted_version _ _ H). apply check_numeric. Qed.


(** *** Reading *)
Lemma is_space_iff c : is_space c = true <-> In c [9; 10; 11; 12; 13; 28; 29; 30; 31; 32].
Proof.
  unfold is_space. rewrite orb_true_iff, !andb_true_iff, !N.leb_le. cbn [In]. split; [|intuition lia].
  intros [[H1 H2]|[H1 H2]].
  - assert (c = 9 \/ c = 10 \/ c = 11 \/ c = 12 \/ c = 13) as H by lia. intuition.
  - assert (c = 28 \/ c = 29 \/ c = 30 \/ c = 31 \/ c = 32) as H by lia. intuition.
Qed.
Lemma is_digit_inv c : is_digit c = true -> exists d, d <= 9 /\ c = 48 + d.
Proof. unfold is_digit. rewrite andb_true_iff, !N.leb_le. intros [H1 H2]. exists (c - 48). lia. Qed.
Lemma grouped_digits s z : grouped s z -> forall t, digits 0 false (s ++ t) = digits z true t.
Proof.
  induction 1 as [d Hd|s z d Hs IH Hd|s z d Hs IH Hd]; intros t.
  - cbn [app digits]. rewrite (digit_bounds d Hd). f_equal. lia.
  - rewrite <- app_assoc, IH. cbn [app digits]. rewrite (digit_bounds d Hd). f_equal. lia.
  - rewrite <- app_assoc, IH. cbn [app digits]. change (is_digit 95) with false.
    change ((95 =? 95) && true) with true. cbv iota. rewrite (digit_bounds d Hd).
    replace (48 + d - 48) with d by lia. reflexivity.
Qed.
Lemma digits_grouped s : forall acc r p,
  (digits acc true s = Some r -> grouped p acc -> grouped (p ++ s) r) /\
  (digits acc false s = Some r -> (p = [] /\ acc = 0%Z) \/ (exists p', p = p' ++ [95] /\ grouped p' acc) -> grouped (p ++ s) r).
Proof.
  induction s as [|c s IH]; intros acc r p.
  - cbn. rewrite app_nil_r. split; [intros H; injection H as <-; auto|discriminate].
  - cbn [digits]. destruct (is_digit c) eqn:Ed.
    + destruct (is_digit_inv c Ed) as (d & Hd & ->). replace (Z.of_N (48 + d - 48)) with (Z.of_N d) by lia.
      split; intros H Hp.
      * change (p ++ (48 + d) :: s) with (p ++ [48 + d] ++ s). rewrite app_assoc. apply (proj1 (IH _ r (p ++ [48 + d])) H).
        apply gr_more; assumption.
      * change (p ++ (48 + d) :: s) with (p ++ [48 + d] ++ s). rewrite app_assoc. apply (proj1 (IH _ r (p ++ [48 + d])) H).
        destruct Hp as [[-> ->]|(p' & -> & Hp)].
        -- change (grouped [48 + d] (Z.of_N d)). apply gr_one, Hd.
        -- rewrite <- app_assoc. apply gr_group; assumption.
    + destruct (c =? 95) eqn:Ec; cbn [andb]; [|split; discriminate]. apply N.eqb_eq in Ec as ->. split; [|discriminate]. intros H Hp.
      change (p ++ 95 :: s) with (p ++ [95] ++ s). rewrite app_assoc. apply (proj2 (IH _ r (p ++ [95])) H). right. exists p. split; [reflexivity|exact Hp].
Qed.
Lemma digits_iff s z : digits 0 false s = Some z <-> grouped s z.
Proof.
  split.
  - intros H. apply (proj2 (digits_grouped s 0 z []) H). left. split; reflexivity.
  - intros H. pose proof (grouped_digits s z H []) as E. rewrite app_nil_r in E. exact E.
Qed.
Lemma grouped_ends s z : grouped s z -> exists d s' s'' d', is_digit d = true /\ is_digit d' = true /\ s = d :: s' /\ s = s'' ++ [d'].
Proof.
  induction 1 as [d Hd|s z d Hs IH Hd|s z d Hs IH Hd].
  - exists (48 + d), [], [], (48 + d). pose proof (digit_bounds d Hd). auto.
  - destruct IH as (d0 & s' & s'' & d' & H0 & _ & E & _). exists d0, (s' ++ [48 + d]), s, (48 + d). pose proof (digit_bounds d Hd).
    rewrite E at 1. auto.
  - destruct IH as (d0 & s' & s'' & d' & H0 & _ & E & _). exists d0, (s' ++ [95; 48 + d]), (s ++ [95]), (48 + d).
    pose proof (digit_bounds d Hd). rewrite E at 1. rewrite <- app_assoc. auto.
Qed.
Lemma lstrip_split s : exists a, blanks a /\ s = a ++ lstrip s.
Proof.
  induction s as [|c s (a & Ha & E)]; [exists []; split; [constructor|reflexivity]|]. cbn. destruct (is_space c) eqn:Ec.
  - exists (c :: a). split; [constructor; [apply is_space_iff, Ec|exact Ha]|]. cbn. rewrite <- E. reflexivity.
  - exists []. split; [constructor|reflexivity].
Qed.
Lemma lstrip_app a s : blanks a -> lstrip (a ++ s) = lstrip s.
Proof. induction 1 as [|c a Hc _ IH]; [reflexivity|]. cbn. apply is_space_iff in Hc. rewrite Hc. exact IH. Qed.
Lemma blanks_rev a : blanks a -> blanks (rev a).
Proof. intros H. apply Forall_forall. intros c Hc. apply in_rev in Hc. revert c Hc. apply Forall_forall, H. Qed.
Lemma strip_split s : exists a b, blanks a /\ blanks b /\ s = a ++ strip s ++ b.
Proof.
  destruct (lstrip_split s) as (a & Ha & E). destruct (lstrip_split (rev (lstrip s))) as (b & Hb & E').
  exists a, (rev b). split; [exact Ha|]. split; [apply blanks_rev, Hb|]. unfold strip. rewrite E at 1. f_equal.
  rewrite <- rev_app_distr, <- E', rev_involutive. reflexivity.
Qed.
Lemma strip_core a n b c n' n'' d : blanks a -> blanks b -> n = c :: n' -> n = n'' ++ [d] -> is_space c = false -> is_space d = false ->
  strip (a ++ n ++ b) = n.
Proof.
  intros Ha Hb E1 E2 Hc Hd. unfold strip. rewrite (lstrip_app a _ Ha).
  assert (lstrip (n ++ b) = n ++ b) as -> by (rewrite E1; cbn; rewrite Hc; reflexivity).
  rewrite rev_app_distr, (lstrip_app _ _ (blanks_rev b Hb)).
  assert (lstrip (rev n) = rev n) as -> by (rewrite E2, rev_app_distr; cbn; rewrite Hd; reflexivity).
  apply rev_involutive.
Qed.
Lemma py_int_iff s z : py_int s = Some z <-> integer s z.
Proof.
  split.
  - unfold py_int. destruct (strip_split s) as (a & b & Ha & Hb & E). destruct (strip s) as [|c s']; [discriminate|]. rewrite E.
    destruct (c =? 45) eqn:E1; [|destruct (c =? 43) eqn:E2].
    + apply N.eqb_eq in E1 as ->. destruct (digits 0 false s') as [y|] eqn:Ed; [|discriminate]. intros H. injection H as <-.
      apply int_minus; [exact Ha|apply digits_iff, Ed|exact Hb].
    + apply N.eqb_eq in E2 as ->. intros H. apply int_plus; [exact Ha|apply digits_iff, H|exact Hb].
    + intros H. apply int_plain; [exact Ha|apply digits_iff, H|exact Hb].
  - intros [a n b y Ha Hn Hb|a n b y Ha Hn Hb|a n b y Ha Hn Hb]; destruct (grouped_ends n y Hn) as (d & n1 & n2 & d' & H1 & H2 & E1 & E2);
      pose proof (digit_space d H1) as S1; pose proof (digit_space d' H2) as S2; unfold py_int.
    + rewrite (strip_core a n b d n1 n2 d' Ha Hb E1 E2 S1 S2). rewrite E1. destruct (is_digit_inv d H1) as (x & Hx & ->).
      destruct (48 + x =? 45) eqn:X1; [apply N.eqb_eq in X1; lia|]. destruct (48 + x =? 43) eqn:X2; [apply N.eqb_eq in X2; lia|].
      rewrite <- E1. apply digits_iff, Hn.
    + assert ((43 :: n : str) = (43 :: n2) ++ [d']) as E3 by (rewrite E2; reflexivity).
      pose proof (strip_core a (43 :: n) b 43 n (43 :: n2) d' Ha Hb eq_refl E3 eq_refl S2) as E4.
      unfold chr in E4 |- *. cbn [app] in E4. rewrite E4.
      change (43 =? 45) with false. change (43 =? 43) with true. cbv iota. apply digits_iff, Hn.
    + assert ((45 :: n : str) = (45 :: n2) ++ [d']) as E3 by (rewrite E2; reflexivity).
      pose proof (strip_core a (45 :: n) b 45 n (45 :: n2) d' Ha Hb eq_refl E3 eq_refl S2) as E4.
      unfold chr in E4 |- *. cbn [app] in E4. rewrite E4.
      change (45 =? 45) with true. cbv iota. rewrite (proj2 (digits_iff n y) Hn). reflexivity.
Qed.
Lemma component_iff w c : component w = c <-> reads_as w c.
Proof.
  unfold component. destruct (py_int w) as [z|] eqn:E; destruct c as [y|t]; cbn [reads_as].
  - rewrite <- py_int_iff, E. split; congruence.
  - split; [discriminate|]. intros [_ H]. destruct (H z). apply py_int_iff, E.
  - rewrite <- py_int_iff, E. split; discriminate.
  - split.
    + intros H. injection H as <-. split; [reflexivity|]. intros z Hz. apply py_int_iff in Hz. congruence.
    + intros [-> _]. reflexivity.
Qed.
Theorem reads_version_iff s v : reads_version s v <-> v = version_of s.
Proof.
  split.
  - unfold version_of. induction 1 as [w c Hw Hc|w c s v Hw Hc Hs IH].
    + rewrite (split_dot_nodot w Hw). cbn. apply component_iff in Hc. congruence.
    + rewrite (split_dot_app w s Hw). cbn. apply component_iff in Hc. congruence.
  - intros ->. unfold version_of.
    assert (forall s w, ~ In c_dot w -> reads_version (w ++ s) (map component (split_dot (w ++ s)))) as H.
    { clear. induction s as [|c s IH]; intros w Hw.
      - rewrite app_nil_r, (split_dot_nodot w Hw). apply rv_one; [exact Hw|]. apply component_iff. reflexivity.
      - destruct (N.eq_dec c c_dot) as [->|Hc].
        + rewrite (split_dot_app w s Hw). cbn [map]. apply rv_more; [exact Hw|apply component_iff; reflexivity|]. apply (IH []). intros [].
        + change (w ++ c :: s) with (w ++ [c] ++ s). rewrite app_assoc. apply IH. rewrite in_app_iff. intros [H|[H|[]]]; [auto|congruence]. }
    apply (H s []). intros [].
Qed.
