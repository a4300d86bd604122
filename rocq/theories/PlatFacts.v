(** Platform options do what they should on separate values. *)
From stdpp Require Import base list gmap.
From Coq Require Import NArith Lia.
From Verif Require Import FnModel PlatModel PlatSpec.
Local Open Scope nat_scope.

Lemma platform_match_ok platform matcher : platform_match platform matcher = true <-> matches platform matcher.
Proof.
  unfold platform_match, matches. rewrite andb_true_iff, !bool_decide_eq_true, !Forall_forall. split.
  - intros [H1 H2]. split.
    + intros p Hp Hn. apply H1. apply elem_of_list_filter. split; [|done].
      destruct p as [|c q]; [done|]. cbn. apply N.eqb_neq. intros ->. by apply (Hn q).
    + intros q Hq Hin. apply (H2 q Hin). apply elem_of_list_fmap. exists (c_excl :: q).
      split; [done|]. apply elem_of_list_filter. done.
  - intros [H1 H2]. split.
    + intros p [Hn Hp]%elem_of_list_filter. apply H1; [done|]. intros q ->. done.
    + intros q Hq [p [-> [Hn Hp]%elem_of_list_filter]]%elem_of_list_fmap.
      destruct p as [|c p]; [done|]. cbn in Hn, Hq. apply N.eqb_eq in Hn as ->.
      by apply (H2 p).
Qed.

Section Facts.
  Context {E : Type} `{EqDecision E}.
  Context (in_str : E -> list E -> option bool).
  Notation effect := (effect in_str).
  Notation effects := (effects in_str).
  Notation apply_option := (apply_option in_str).
  Notation apply_options := (apply_options in_str).
  Notation parse := (parse_platform_options in_str).
  Implicit Types (h : heap E) (kw : kwargs E) (v m : value E).

  (** *** Removal *)
  Lemma is_in_ok h m x b :
    supported m = true -> (forall l, ref m = Some l -> l < length h) ->
    is_in in_str h m x = Some b <-> removed in_str (den h m) x b.
  Proof.
    intros Hs Hv.
    assert (forall s : list E, Some (bool_decide (x ∈ s)) = Some b <-> (b = true <-> x ∈ s)) as Hb.
    { intros s. split; [intros [= <-]|intros Hb; f_equal].
      + by rewrite bool_decide_eq_true.
      + destruct b; [apply bool_decide_eq_true|apply bool_decide_eq_false]; naive_solver. }
    destruct m as [s|s|l|l| |]; [done|apply Hb| | |done|done]; cbn.
    - destruct (lookup_lt_is_Some_2 h l) as [s Hl]; [by apply Hv|]. rewrite Hl. cbn. apply Hb.
    - destruct (lookup_lt_is_Some_2 h l) as [s Hl]; [by apply Hv|]. rewrite Hl. cbn. apply Hb.
  Qed.

  Lemma without_ok h m s r :
    supported m = true -> (forall l, ref m = Some l -> l < length h) ->
    without (is_in in_str h m) s = Some r <-> kept in_str (den h m) s r.
  Proof.
    intros Hs Hv. revert r. induction s as [|x s IH]; intros r; cbn.
    - split; [intros [= <-]; constructor|]. by inversion 1.
    - split.
      + destruct (is_in in_str h m x) as [b|] eqn:Ex; [|done]. apply is_in_ok in Ex; [|done|done].
        destruct b; destruct (without (is_in in_str h m) s) as [r'|]; try done; intros [= <-].
        * apply kept_drop; [done|]. by apply IH.
        * apply kept_keep; [done|]. by apply IH.
      + inversion 1 as [|x' s' r' Hx Hk|x' s' r' Hx Hk]; subst; apply is_in_ok in Hx; [|done|done| |done|done].
        * rewrite Hx. apply IH in Hk. by rewrite Hk.
        * rewrite Hx. apply IH in Hk. by rewrite Hk.
  Qed.

  (** *** Keys *)
  Lemma last_char_snoc k c : last_char (k ++ [c]) = Some (k, c).
  Proof. unfold last_char. rewrite rev_app_distr. cbn. by rewrite rev_involutive. Qed.

  Lemma last_char_inv key k c : last_char key = Some (k, c) -> key = k ++ [c].
  Proof.
    unfold last_char. intros H. destruct (rev key) as [|d r] eqn:Er; [done|]. injection H as <- <-.
    rewrite <- (rev_involutive key), Er. done.
  Qed.

  Lemma den_supported h m : supported m = true <-> exists k s, den h m = PSeq k s.
  Proof. destruct m; cbn; naive_solver. Qed.

  (** *** Frame *)
  Lemma frame h kw m rest h' k v' :
    separate h kw (m :: rest) ->
    length h <= length h' ->
    (forall l, l < length h -> ref v' <> Some l -> h' !! l = h !! l) ->
    (forall l, ref v' = Some l -> l < length h' /\
       (length h <= l \/ (exists v0, kw !! k = Some v0 /\ ref v0 = Some l) \/ (ref m = Some l /\ h' = h))) ->
    separate h' (<[k := v']> kw) rest /\
    (forall k', den_kw h' (<[k := v']> kw) k' = if decide (k' = k) then Some (den h' v') else den_kw h kw k') /\
    (forall m', m' ∈ rest -> den h' m' = den h m').
  Proof.
    intros [S1 S2 S3 S4 S5] Hlen Hsame Hnew.
    assert (NoDup (omap ref rest)) as Hndr.
    { cbn in S4. destruct (ref m); [by apply NoDup_cons in S4 as [_ S4]|done]. }
    assert (forall l, ref v' = Some l -> l ∉ omap ref rest) as Hnr.
    { intros l Hl. destruct (Hnew l Hl) as [_ [Hge|[(v0 & H0 & Hv0)|[Hm _]]]].
      - intros (m' & Hm' & Hr)%elem_of_list_omap. pose proof (S2 m' l). 
        assert (l < length h) by (apply (S2 m' l); [by right|done]). lia.
      - specialize (S5 _ _ _ H0 Hv0). cbn in S5. destruct (ref m); [|done].
        intros Hin. apply S5. by right.
      - cbn in S4. rewrite Hm in S4. by apply NoDup_cons in S4 as [? _]. }
    assert (forall k' v l, k' <> k -> kw !! k' = Some v -> ref v = Some l -> ref v' <> Some l) as Hother.
    { intros k' v l Hk' Hv Hl Hl'. destruct (Hnew l Hl') as [_ [Hge|[(v0 & H0 & Hv0)|[Hm _]]]].
      - specialize (S1 _ _ _ Hv Hl). lia.
      - apply Hk'. by apply (S3 k' k v v0 l).
      - apply (S5 _ _ _ Hv Hl). cbn. rewrite Hm. by left. }
    assert (forall w, (forall l, ref w = Some l -> l < length h /\ ref v' <> Some l) -> den h' w = den h w) as Hden.
    { intros w Hw. destruct w as [s|s|l|l| |]; try done; cbn.
      - destruct (Hw l eq_refl). by rewrite Hsame.
      - destruct (Hw l eq_refl). by rewrite Hsame. }
    split_and!.
    - split.
      + intros k' v l Hv Hl. destruct (decide (k' = k)) as [->|Hk'].
        * rewrite lookup_insert in Hv. injection Hv as <-. by apply Hnew.
        * rewrite lookup_insert_ne in Hv by done. specialize (S1 _ _ _ Hv Hl). lia.
      + intros m' l Hm' Hl. assert (l < length h) by (apply (S2 m' l); [by right|done]). lia.
      + intros k1 k2 v1 v2 l H1 H2 Hl1 Hl2.
        destruct (decide (k1 = k)) as [->|Hk1], (decide (k2 = k)) as [->|Hk2]; try done.
        * exfalso. rewrite lookup_insert in H1. injection H1 as <-. rewrite lookup_insert_ne in H2 by done.
          by apply (Hother k2 v2 l).
        * exfalso. rewrite lookup_insert in H2. injection H2 as <-. rewrite lookup_insert_ne in H1 by done.
          by apply (Hother k1 v1 l).
        * rewrite lookup_insert_ne in H1, H2 by done. by apply (S3 k1 k2 v1 v2 l).
      + done.
      + intros k' v l Hv Hl. destruct (decide (k' = k)) as [->|Hk'].
        * rewrite lookup_insert in Hv. injection Hv as <-. by apply Hnr.
        * rewrite lookup_insert_ne in Hv by done. specialize (S5 _ _ _ Hv Hl). cbn in S5.
          destruct (ref m); [|done]. intros Hin. apply S5. by right.
    - intros k'. unfold den_kw. destruct (decide (k' = k)) as [->|Hk'].
      + by rewrite lookup_insert.
      + rewrite lookup_insert_ne by done. destruct (kw !! k') as [v|] eqn:Hv; [|done]. cbn. f_equal.
        apply Hden. intros l Hl. split; [by apply (S1 k' v)|]. by apply (Hother k' v).
    - intros m' Hm'. apply Hden. intros l Hl. split; [apply (S2 m'); [by right|done]|].
      intros Hl'. apply (Hnr l Hl'). apply elem_of_list_omap. eauto.
  Qed.

  (** *** One option *)
  Lemma apply_option_ok h kw key m rest :
    separate h kw (m :: rest) ->
    match apply_option h kw key m with
    | Some (h', kw') => exists k a (v : pval E),
        reads key (den h m) k a /\ effect (den_kw h kw k) a v /\
        separate h' kw' rest /\
        (forall k', den_kw h' kw' k' = if decide (k' = k) then Some v else den_kw h kw k') /\
        (forall m', m' ∈ rest -> den h' m' = den h m')
    | None => forall k a (v : pval E), reads key (den h m) k a -> ~ effect (den_kw h kw k) a v
    end.
  Proof.
    intros Hsep. unfold PlatModel.apply_option.
    assert (forall l, ref m = Some l -> l < length h) as Hmv.
    { intros l Hl. apply (se_ms _ _ _ Hsep m l); [by left|done]. }
    destruct (last_char key) as [[key' c]|] eqn:Ek.
    2: { intros k a v Hr. exfalso. inversion Hr; subst; by rewrite last_char_snoc in Ek. }
    apply last_char_inv in Ek as ->.
    destruct (N.eqb c c_add || N.eqb c c_sub) eqn:Ec.
    2: { apply orb_false_iff in Ec as [Ha Hb]. apply N.eqb_neq in Ha, Hb.
         exists (key' ++ [c]), (ASet (den h m)), (den h m).
         split; [by constructor|]. split; [constructor|].
         apply (frame h kw m rest h (key' ++ [c]) m Hsep); [done|done|].
         intros l Hl. split; [by apply Hmv|]. right. right. done. }
    (* the value to start from *)
    assert (forall k a (v : pval E), reads (key' ++ [c]) (den h m) k a -> effect (den_kw h kw k) a v ->
      k = key' /\ supported m = true /\
      (c = c_add /\ a = AAdd (den h m) \/ c = c_sub /\ a = ASub (den h m))) as Hinv.
    { intros k a v Hr He. inversion Hr as [k0 v0 E1 E2 E3 E4|k0 v0 E1 E2 E3 E4|k0 c0 v0 Hc1 Hc2 E1 E2 E3 E4].
      - apply app_inj_tail in E1 as [-> <-]. split; [done|]. rewrite (den_supported h m). subst a.
        split; [|by left]. inversion He; eauto.
      - apply app_inj_tail in E1 as [-> <-]. split; [done|]. rewrite (den_supported h m). subst a.
        split; [|by right]. inversion He; eauto.
      - exfalso. apply app_inj_tail in E1 as [_ ->].
        apply orb_true_iff in Ec as [Ec|Ec]; apply N.eqb_eq in Ec; done. }
    destruct (supported m) eqn:Hsup.
    2: { intros k a v Hr He. destruct (Hinv k a v Hr He) as (_ & ? & _). done. }
    destruct (proj1 (den_supported h m) Hsup) as (km & sm & Hdm).
    set (start := match kw !! key' with Some VNone | None => empty_like h m | Some v => (h, v) end).
    destruct start as [h1 v1] eqn:Est.
    assert (length h <= length h1 /\ (forall l, l < length h -> h1 !! l = h !! l) /\
      (forall l, ref v1 = Some l -> l < length h1 /\
         (length h <= l \/ exists v0, kw !! key' = Some v0 /\ ref v0 = Some l)) /\
      (missing (den_kw h kw key') /\ den h1 v1 = PSeq km [] \/
       ~ missing (den_kw h kw key') /\ den_kw h kw key' = Some (den h1 v1) /\ h1 = h)) as (Hl1 & Hs1 & Hr1 & Hd1).
    { assert (empty_like h m = (h1, v1) -> missing (den_kw h kw key') ->
        length h <= length h1 /\ (forall l, l < length h -> h1 !! l = h !! l) /\
        (forall l, ref v1 = Some l -> l < length h1 /\
           (length h <= l \/ exists v0, kw !! key' = Some v0 /\ ref v0 = Some l)) /\
        (missing (den_kw h kw key') /\ den h1 v1 = PSeq km [] \/
         ~ missing (den_kw h kw key') /\ den_kw h kw key' = Some (den h1 v1) /\ h1 = h)) as Hempty.
      { intros He Hm. destruct m as [s|s|l|l| |]; try done; cbn in He, Hdm; injection He as <- <-;
          injection Hdm as <- _.
        - split_and!; [done|done|done|by left].
        - split_and!; [done|done|done|by left].
        - rewrite app_length. cbn. split_and!; [lia| | |].
          + intros l' Hl'. by rewrite lookup_app_l.
          + intros l' [= <-]. split; [lia|]. by left.
          + left. split; [done|]. by rewrite list_lookup_middle.
        - rewrite app_length. cbn. split_and!; [lia| | |].
          + intros l' Hl'. by rewrite lookup_app_l.
          + intros l' [= <-]. split; [lia|]. by left.
          + left. split; [done|]. by rewrite list_lookup_middle. }
      unfold start in Est. destruct (kw !! key') as [v0|] eqn:Ekw.
      - assert ((v0 = VNone /\ empty_like h m = (h1, v1)) \/ (v0 <> VNone /\ h1 = h /\ v1 = v0)) as [[-> He]|(Hn & -> & ->)].
        { destruct v0; try (right; split; [done|]; by injection Est as <- <-). by left. }
        + apply Hempty; [done|]. right. unfold den_kw. by rewrite Ekw.
        + split_and!; [done|done| |].
          * intros l Hl. split; [by apply (se_kw _ _ _ Hsep key' v0)|]. right. eauto.
          * right. split; [|unfold den_kw; rewrite Ekw; done].
            unfold missing, den_kw. rewrite Ekw. cbn. intros [?|?]; [done|]. by destruct v0.
      - apply Hempty; [done|]. left. unfold den_kw. by rewrite Ekw. }
    clearbody start. clear Est start.
    assert (den h1 m = den h m) as Hdm1.
    { destruct m as [s|s|l|l| |]; try done; cbn; by rewrite Hs1 by by apply Hmv. }
    assert (forall l, ref m = Some l -> l < length h1) as Hmv1.
    { intros l Hl. specialize (Hmv l Hl). lia. }
    assert (forall k s, den h1 v1 = PSeq k s -> contents h1 v1 = Some s) as Hcont.
    { intros k s Hd. destruct v1 as [s1|s1|l|l| |]; cbn in *; try congruence.
      - destruct (lookup_lt_is_Some_2 h1 l) as [s' Hl]; [by apply Hr1|]. rewrite Hl in *. cbn in Hd. congruence.
      - destruct (lookup_lt_is_Some_2 h1 l) as [s' Hl]; [by apply Hr1|]. rewrite Hl in *. cbn in Hd. congruence. }
    assert (contents h1 m = Some sm) as Hcm.
    { rewrite <- Hdm1 in Hdm. destruct m as [s1|s1|l|l| |]; cbn in *; try congruence.
      - destruct (lookup_lt_is_Some_2 h1 l) as [s' Hl]; [by apply Hmv1|]. rewrite Hl in *. cbn in Hdm. congruence.
      - destruct (lookup_lt_is_Some_2 h1 l) as [s' Hl]; [by apply Hmv1|]. rewrite Hl in *. cbn in Hdm. congruence. }
    destruct (N.eqb c c_add) eqn:Eca.
    - (* addition *)
      apply N.eqb_eq in Eca as ->.
      assert (forall h2 v2, iadd h1 v1 m = Some (h2, v2) ->
        length h1 <= length h2 /\ (forall l, l < length h1 -> ref v2 <> Some l -> h2 !! l = h1 !! l) /\
        ref v2 = ref v1 /\
        exists k s, den h1 v1 = PSeq k s /\ den h2 v2 = PSeq k (s ++ sm) /\
          (k = KList \/ k = km /\ (k = KStr \/ k = KTuple))) as Hadd.
      { intros h2 v2 Ha. destruct v1 as [s1|s1|l|l| |]; cbn in Ha; try done.
        - destruct m as [s2|s2|l2|l2| |]; try done. injection Ha as <- <-. cbn in Hdm. injection Hdm as <- <-.
          split_and!; try done. exists KStr, s1. split_and!; try done. right. split; [done|by left].
        - destruct m as [s2|s2|l2|l2| |]; try done. injection Ha as <- <-. cbn in Hdm. injection Hdm as <- <-.
          split_and!; try done. exists KTuple, s1. split_and!; try done. right. split; [done|by right].
        - rewrite Hcm in Ha. destruct (h1 !! l) as [s1|] eqn:El; [|done]. injection Ha as <- <-.
          rewrite insert_length. split_and!; [done| |done|].
          + intros l' _ Hl'. rewrite list_lookup_insert_ne; [done|]. cbn in Hl'. congruence.
          + exists KList, s1. cbn. rewrite El. cbn. split_and!; [done| |by left].
            rewrite list_lookup_insert; [done|]. by eapply lookup_lt_Some. }
      destruct (iadd h1 v1 m) as [[h2 v2]|] eqn:Ei.
      + destruct (Hadd h2 v2 eq_refl) as (Hl2 & Hs2 & Hr2 & k & s & Hdv & Hdv2 & Hk).
        exists key', (AAdd (den h m)), (den h2 v2). split; [constructor|]. split.
        * rewrite Hdm, Hdv2. destruct Hd1 as [[Hmiss Hd1]|(Hnm & Hd1 & _)].
          -- rewrite Hdv in Hd1. injection Hd1 as -> ->. cbn. apply eff_add_missing; [done|].
             destruct Hk as [->|[_ [->| ->]]]; done.
          -- rewrite Hd1, Hdv. destruct Hk as [->|[-> Hk]]; [apply eff_add_list|by apply eff_add].
        * apply (frame h kw m rest h2 key' v2 Hsep); [lia| |].
          -- intros l Hl Hne. rewrite Hs2 by (done || lia). by apply Hs1.
          -- intros l Hl. rewrite Hr2 in Hl. destruct (Hr1 l Hl) as [? [?|?]]; split; [lia|by left|lia|by right; left].
      + intros k a v Hr He. destruct (Hinv k a v Hr He) as (-> & _ & [[_ ->]|[? _]]); [|done].
        (* iadd would have succeeded *)
        assert (exists s, den h1 v1 = PSeq KList s \/ den h1 v1 = PSeq km s /\ (km = KStr \/ km = KTuple)) as (s & Hs).
        { inversion He as [|k0 a0 b0 Hk0 E1 E2 E3|k0 a0 b0 E1 E2 E3|o0 k0 b0 Hm0 Hk0 E1 E2 E3| |].
          - destruct Hd1 as [[Hmiss _]|(_ & Hd1 & _)].
            { rewrite <- E1 in Hmiss. destruct Hmiss; done. }
            rewrite <- E1 in Hd1. injection Hd1 as Hd1. rewrite Hdm in E2. injection E2 as -> _.
            exists a0. right. split; [done|]. done.
          - destruct Hd1 as [[Hmiss _]|(_ & Hd1 & _)].
            { rewrite <- E1 in Hmiss. destruct Hmiss; done. }
            rewrite <- E1 in Hd1. injection Hd1 as Hd1. exists a0. by left.
          - destruct Hd1 as [[_ Hd1]|(Hn & _)]; [|done]. rewrite Hdm in E2. injection E2 as -> _.
            exists []. destruct km; [right; split; [done|by left]|right; split; [done|by right]|by left|done]. }
        destruct Hs as [Hs|[Hs Hk]].
        * destruct v1 as [s1|s1|l|l| |]; try done. cbn in Ei. rewrite Hcm in Ei.
          destruct (lookup_lt_is_Some_2 h1 l) as [s' Hl]; [by apply Hr1|]. by rewrite Hl in Ei.
        * destruct v1 as [s1|s1|l|l| |]; try done; cbn in Hs; injection Hs as <- _;
            [|by destruct m|by destruct Hk|by destruct Hk]; by destruct m.
    - (* removal *)
      cbn in Ec. apply N.eqb_eq in Ec as ->.
      assert (forall k s, den h1 v1 = PSeq k s -> forall r,
        without (is_in in_str h1 m) s = Some r ->
        exists h2 v2, isub in_str h1 v1 m = Some (h2, v2) /\ length h1 <= length h2 /\
          (forall l, l < length h1 -> h2 !! l = h1 !! l) /\
          (forall l, ref v2 = Some l -> length h1 <= l /\ l < length h2) /\ den h2 v2 = PSeq k r) as Hsub.
      { intros k s Hd r Hw. unfold isub. rewrite (Hcont k s Hd), Hw.
        destruct v1 as [s1|s1|l|l| |]; try done; cbn in Hd; injection Hd as <- _.
        - eexists _, _. split; [done|]. split_and!; done.
        - eexists _, _. split; [done|]. split_and!; done.
        - eexists _, _. split; [done|]. rewrite app_length. cbn. split_and!; [lia| | |].
          + intros l' Hl'. by rewrite lookup_app_l.
          + intros l' [= <-]. lia.
          + by rewrite list_lookup_middle.
        - eexists _, _. split; [done|]. rewrite app_length. cbn. split_and!; [lia| | |].
          + intros l' Hl'. by rewrite lookup_app_l.
          + intros l' [= <-]. lia.
          + by rewrite list_lookup_middle. }
      destruct (isub in_str h1 v1 m) as [[h2 v2]|] eqn:Ei.
      + assert (exists k s r, den h1 v1 = PSeq k s /\ without (is_in in_str h1 m) s = Some r) as (k & s & r & Hd & Hw).
        { unfold isub in Ei. destruct (contents h1 v1) as [s|] eqn:Ecv; [|done].
          destruct (without (is_in in_str h1 m) s) as [r|] eqn:Ew; [|done].
          assert (exists k, den h1 v1 = PSeq k s) as [k Hk].
          { destruct v1 as [s1|s1|l|l| |]; cbn in *; try done.
            - injection Ecv as ->. eauto.
            - injection Ecv as ->. eauto.
            - rewrite Ecv. eauto.
            - rewrite Ecv. eauto. }
          eauto. }
        destruct (Hsub k s Hd r Hw) as (h2' & v2' & [= <- <-] & Hl2 & Hs2 & Hr2 & Hd2).
        exists key', (ASub (den h m)), (den h2 v2). split; [constructor|]. split.
        * rewrite Hd2. apply without_ok in Hw; [|done|done]. rewrite Hdm1, Hdm in Hw.
          rewrite Hdm. destruct Hd1 as [[Hmiss Hd1]|(Hnm & Hd1 & _)].
          -- rewrite Hd in Hd1. injection Hd1 as -> ->. inversion Hw; subst. by apply eff_sub_missing.
          -- rewrite Hd1, Hd. by apply eff_sub.
        * apply (frame h kw m rest h2 key' v2 Hsep); [lia| |].
          -- intros l Hl Hne. rewrite Hs2 by lia. by apply Hs1.
          -- intros l Hl. destruct (Hr2 l Hl). split; [done|]. left. lia.
      + intros k a v Hr He. destruct (Hinv k a v Hr He) as (-> & _ & [[? _]|[_ ->]]); [done|].
        inversion He as [| | | |k0 a0 kb0 b0 r0 Hk0 E1 E2 E3|o0 k0 b0 Hm0 E1 E2 E3].
        * destruct Hd1 as [[Hmiss _]|(_ & Hd1 & _)].
          { rewrite <- E1 in Hmiss. destruct Hmiss; done. }
          rewrite <- E1 in Hd1. injection Hd1 as Hd1. symmetry in Hd1.
          destruct (Hsub _ _ Hd1 r0) as (? & ? & ? & _); [|done].
          apply without_ok; [done|done|]. rewrite Hdm1. rewrite <- E2. done.
        * destruct Hd1 as [[_ Hd1]|(Hn & _)]; [|done].
          destruct (Hsub _ _ Hd1 []) as (? & ? & ? & _); done.
  Qed.

  (** *** The specification is deterministic *)
  Lemma reads_fun key (v : pval E) k a k' a' : reads key v k a -> reads key v k' a' -> k = k' /\ a = a'.
  Proof.
    intros H1 H2.
    inversion H1 as [k0 v0 E1 E2 E3 E4|k0 v0 E1 E2 E3 E4|k0 c0 v0 Hc1 Hc2 E1 E2 E3 E4];
    inversion H2 as [k1 v1 F1 F2 F3 F4|k1 v1 F1 F2 F3 F4|k1 c1 v1 Hd1 Hd2 F1 F2 F3 F4]; subst key; subst;
      apply app_inj_tail in F1 as [-> Hc]; try done; subst; done.
  Qed.

  Lemma removed_fun (m : pval E) x : removed in_str m x true -> removed in_str m x false -> False.
  Proof. unfold removed. destruct m as [[]| |]; naive_solver. Qed.

  Lemma kept_fun (m : pval E) s r r' : kept in_str m s r -> kept in_str m s r' -> r = r'.
  Proof.
    intros H. revert r'. induction H as [|x s r Hx Hk IH|x s r Hx Hk IH]; intros r' H';
      inversion H' as [|x' s' r'' Hx' Hk'|x' s' r'' Hx' Hk']; subst.
    - done.
    - by apply IH.
    - by destruct (removed_fun m x).
    - by destruct (removed_fun m x).
    - f_equal. by apply IH.
  Qed.

  Lemma effect_fun (o : option (pval E)) a (v v' : pval E) : effect o a v -> effect o a v' -> v = v'.
  Proof.
    intros H1 H2. unfold missing in *.
    inversion H1; subst; inversion H2; subst; try done; unfold missing in *; try naive_solver.
    f_equal. by eapply kept_fun.
  Qed.

  Lemma effects_ext (f f' : str -> option (pval E)) opts g :
    (forall k, f k = f' k) -> effects f opts g -> effects f' opts g.
  Proof.
    intros Hf H. revert f' Hf. induction H as [f g Hg|f key a v opts g He Hs IH]; intros f' Hf.
    - constructor. intros k. by rewrite Hg.
    - apply (effs_cons in_str f' key a v); [by rewrite <- Hf|]. apply IH. intros k. cbn.
      destruct (decide (k = key)); [done|]. apply Hf.
  Qed.

  Lemma effects_fun (f : str -> option (pval E)) opts g g' :
    effects f opts g -> effects f opts g' -> forall k, g k = g' k.
  Proof.
    intros H. revert g'. induction H as [f g Hg|f key a v opts g He Hs IH]; intros g' H' k.
    - inversion H' as [? ? Hg'|]; subst. by rewrite Hg, Hg'.
    - inversion H' as [|? ? ? v' ? ? He' Hs']; subst. assert (v' = v) as -> by by eapply effect_fun.
      by apply IH.
  Qed.

  (** *** All options *)
  Lemma reads_all_heap h h' opts sopts :
    (forall m, m ∈ opts.*2 -> den h' m = den h m) -> reads_all h' opts sopts -> reads_all h opts sopts.
  Proof.
    intros Hd H. revert Hd. induction H as [|[key m] [k a] opts sopts Ho Hs IH]; intros Hd; constructor; cbn in *.
    - rewrite <- Hd; [done|]. by left.
    - apply IH. intros m' Hm'. apply Hd. by right.
  Qed.

  Lemma apply_options_ok h kw opts :
    separate h kw (opts.*2) ->
    match apply_options h kw opts with
    | Some (h', kw') => exists sopts, reads_all h opts sopts /\ effects (den_kw h kw) sopts (den_kw h' kw')
    | None => forall sopts g, reads_all h opts sopts -> ~ effects (den_kw h kw) sopts g
    end.
  Proof.
    revert h kw. induction opts as [|[key m] opts IH]; intros h kw Hsep; cbn.
    - exists []. split; [constructor|]. by constructor.
    - pose proof (apply_option_ok h kw key m (opts.*2) Hsep) as Hone.
      destruct (apply_option h kw key m) as [[h1 kw1]|].
      + destruct Hone as (k & a & v & Hr & He & Hsep1 & Hkw1 & Hms). specialize (IH h1 kw1 Hsep1).
        destruct (apply_options h1 kw1 opts) as [[h2 kw2]|].
        * destruct IH as (sopts & Hra & Hef). exists ((k, a) :: sopts). split.
          { constructor; [done|]. by apply (reads_all_heap h h1). }
          apply (effs_cons in_str _ k a v); [done|]. by apply (effects_ext (den_kw h1 kw1)).
        * intros sopts g Hra Hef. inversion Hra as [|? [k' a'] ? sopts' Hr' Hra']; subst. cbn in Hr'.
          destruct (reads_fun _ _ _ _ _ _ Hr Hr') as [<- <-].
          inversion Hef as [|? ? ? v' ? ? He' Hs']; subst.
          assert (v' = v) as -> by by eapply effect_fun.
          apply (IH sopts' g).
          -- apply (reads_all_heap h1 h); [|done]. intros m' Hm'. symmetry. by apply Hms.
          -- eapply effects_ext; [|exact Hs']. intros k'. by rewrite Hkw1.
      + intros sopts g Hra Hef. inversion Hra as [|? [k' a'] ? sopts' Hr' Hra']; subst.
        inversion Hef as [|? ? ? v' ? ? He' Hs']; subst. by apply (Hone k' a' v').
  Qed.

  Lemma selects_fun {V : Type} platform (l : list (list str * list (str * V))) r r' :
    selects platform l r -> selects platform l r' -> r = r'.
  Proof.
    intros H. revert r'. induction H; intros r' H'; inversion H'; subst; try done; [f_equal|]; auto.
  Qed.

  Lemma apply_options_app h kw o1 o2 :
    apply_options h kw (o1 ++ o2) =
    match apply_options h kw o1 with Some (h', kw') => apply_options h' kw' o2 | None => None end.
  Proof.
    revert h kw. induction o1 as [|[key m] o1 IH]; intros h kw; cbn; [done|].
    destruct (apply_option h kw key m) as [[h1 kw1]|]; [apply IH|done].
  Qed.

  Lemma parse_selects platform popts sel h kw :
    selects platform popts sel -> parse platform popts h kw = apply_options h kw sel.
  Proof.
    intros H. revert h kw. induction H as [|m opts l r Hm Hs IH|m opts l r Hm Hs IH]; intros h kw; cbn.
    - done.
    - rewrite (proj2 (platform_match_ok platform m) Hm). rewrite apply_options_app.
      destruct (apply_options h kw opts) as [[h1 kw1]|]; [apply IH|done].
    - destruct (platform_match platform m) eqn:Em; [by apply platform_match_ok in Em|]. apply IH.
  Qed.

  Lemma selects_total {V : Type} platform (l : list (list str * list (str * V))) : exists r, selects platform l r.
  Proof.
    induction l as [|[m opts] l [r IH]]; [eexists; constructor|].
    destruct (platform_match platform m) eqn:Em.
    - eexists. apply sel_take; [by apply platform_match_ok|done].
    - exists r. apply sel_skip; [|done]. intros H%platform_match_ok. congruence.
  Qed.

  Theorem parse_ok platform popts sel h kw :
    selects platform popts sel ->
    separate h kw (sel.*2) ->
    match parse platform popts h kw with
    | Some (h', kw') => exists sopts, reads_all h sel sopts /\ effects (den_kw h kw) sopts (den_kw h' kw')
    | None => forall sopts g, reads_all h sel sopts -> ~ effects (den_kw h kw) sopts g
    end.
  Proof. intros Hsel Hsep. rewrite (parse_selects _ _ _ _ _ Hsel). by apply apply_options_ok. Qed.

  (** *** What is changed in place *)
  (** The location of an existing list that [key+] options can reach. *)
  Definition touched kw (opts : list (str * value E)) (l : loc) : Prop :=
    exists k m, (k ++ [c_add], m) ∈ opts /\ (kw !! k = Some (VList l) \/ (k, VList l) ∈ opts).

  Lemma iadd_frame h v m h' v' l :
    iadd h v m = Some (h', v') -> h' !! l <> h !! l -> v = VList l.
  Proof.
    destruct v as [s1|s1|l1|l1| |]; cbn; try done; try (by destruct m; intros [= <- <-]).
    destruct (contents h m), (h !! l1); try done. intros [= <- <-] Hn.
    destruct (decide (l1 = l)) as [->|Hl]; [done|]. by rewrite list_lookup_insert_ne in Hn.
  Qed.

  Lemma isub_frame h v m h' v' l :
    isub in_str h v m = Some (h', v') -> l < length h -> h' !! l = h !! l.
  Proof.
    unfold isub. destruct (contents h v); [|done]. destruct (without _ _); [|done].
    destruct v; try done; cbn; intros [= <- <-] Hl; try done; by rewrite lookup_app_l.
  Qed.

  Lemma iadd_length h v m h' v' : iadd h v m = Some (h', v') -> length h <= length h'.
  Proof.
    destruct v as [s1|s1|l1|l1| |]; cbn; try done; try (by destruct m; intros [= <- <-]).
    destruct (contents h m), (h !! l1); try done. intros [= <- <-]. by rewrite insert_length.
  Qed.
  Lemma isub_length h v m h' v' : isub in_str h v m = Some (h', v') -> length h <= length h'.
  Proof.
    unfold isub. destruct (contents h v); [|done]. destruct (without _ _); [|done].
    destruct v; try done; cbn; intros [= <- <-]; try done; rewrite app_length; lia.
  Qed.
  Lemma empty_like_frame h m h' v :
    empty_like h m = (h', v) -> length h <= length h' /\ (forall l, l < length h -> h' !! l = h !! l) /\
      (forall l, v = VList l -> m <> VNone -> m <> VOther -> length h <= l).
  Proof.
    destruct m; cbn; intros [= <- <-]; try (split_and!; done); rewrite app_length; cbn.
    - split_and!; [lia| |]; [intros; by rewrite lookup_app_l|]. intros l' [= <-]. lia.
    - split_and!; [lia| |]; [intros; by rewrite lookup_app_l|]. done.
  Qed.

  Lemma iadd_value h v m h' v' l : iadd h v m = Some (h', v') -> v' = VList l -> v = VList l.
  Proof.
    destruct v as [s1|s1|l1|l1| |]; cbn; try done; try (by destruct m; intros [= <- <-]).
    destruct (contents h m), (h !! l1); try done. intros [= <- <-]. done.
  Qed.
  Lemma isub_value h v m h' v' l : isub in_str h v m = Some (h', v') -> v' = VList l -> length h <= l.
  Proof.
    unfold isub. destruct (contents h v); [|done]. destruct (without _ _); [|done].
    destruct v; try done; cbn; intros [= <- <-]; try done. by intros [= <-].
  Qed.

  Lemma apply_option_frame h kw key m h' kw' :
    apply_option h kw key m = Some (h', kw') ->
    length h <= length h' /\
    (forall l, l < length h -> h' !! l = h !! l \/ exists k, key = k ++ [c_add] /\ kw !! k = Some (VList l)) /\
    (forall k l, kw' !! k = Some (VList l) -> l < length h -> kw !! k = Some (VList l) \/ (key = k /\ m = VList l)).
  Proof.
    unfold PlatModel.apply_option. destruct (last_char key) as [[key' c]|] eqn:Ek; [|done].
    apply last_char_inv in Ek as ->.
    destruct (N.eqb c c_add || N.eqb c c_sub) eqn:Ec.
    2: { intros [= <- <-]. split_and!; [done|by left|]. intros k l Hk Hl.
         destruct (decide (k = key' ++ [c])) as [->|Hne].
         - rewrite lookup_insert in Hk. injection Hk as ->. by right.
         - rewrite lookup_insert_ne in Hk by done. by left. }
    destruct (supported m) eqn:Hsup; [|done].
    destruct (match kw !! key' with Some VNone | None => empty_like h m | Some v => (h, v) end) as [h1 v1] eqn:Est.
    assert (length h <= length h1 /\ (forall l, l < length h -> h1 !! l = h !! l) /\
      (forall l, v1 = VList l -> l < length h -> kw !! key' = Some (VList l))) as (Hl1 & Hs1 & Hv1).
    { assert (empty_like h m = (h1, v1) -> length h <= length h1 /\ (forall l, l < length h -> h1 !! l = h !! l) /\
        (forall l, v1 = VList l -> l < length h -> kw !! key' = Some (VList l))) as Hempty.
      { intros He. destruct (empty_like_frame _ _ _ _ He) as (? & ? & Hf). split_and!; [done|done|].
        intros l Hl Hlt. exfalso. specialize (Hf l Hl). destruct m; try done; specialize (Hf ltac:(done) ltac:(done)); lia. }
      destruct (kw !! key') as [v0|]; [|by apply Hempty].
      destruct v0; try by apply Hempty.
      all: injection Est as <- <-; split_and!; [done|done|]; intros l' Hl' _; by rewrite Hl'. }
    destruct (N.eqb c c_add) eqn:Eca.
    - apply N.eqb_eq in Eca as ->. destruct (iadd h1 v1 m) as [[h2 v2]|] eqn:Ei; [|done]. intros [= <- <-].
      split_and!.
      + apply iadd_length in Ei. lia.
      + intros l Hl. rewrite <- Hs1 by done. destruct (decide (h2 !! l = h1 !! l)) as [|Hn]; [by left|].
        right. exists key'. split; [done|]. apply Hv1; [|done]. by eapply iadd_frame.
      + intros k l Hk Hl. left. destruct (decide (k = key')) as [->|Hne].
        * rewrite lookup_insert in Hk. injection Hk as ->. apply Hv1; [|done]. by eapply iadd_value.
        * by rewrite lookup_insert_ne in Hk.
    - destruct (isub in_str h1 v1 m) as [[h2 v2]|] eqn:Ei; [|done]. intros [= <- <-].
      split_and!.
      + apply isub_length in Ei. lia.
      + intros l Hl. left. rewrite <- Hs1 by done. eapply isub_frame; [done|lia].
      + intros k l Hk Hl. left. destruct (decide (k = key')) as [->|Hne].
        * rewrite lookup_insert in Hk. injection Hk as ->. exfalso. eapply isub_value in Ei; [|done]. lia.
        * by rewrite lookup_insert_ne in Hk.
  Qed.

  Lemma apply_options_frame h kw opts h' kw' :
    apply_options h kw opts = Some (h', kw') ->
    length h <= length h' /\ (forall l, l < length h -> h' !! l = h !! l \/ touched kw opts l).
  Proof.
    revert h kw. induction opts as [|[key m] opts IH]; intros h kw; cbn.
    - intros [= <- <-]. split; [done|]. by left.
    - destruct (apply_option h kw key m) as [[h1 kw1]|] eqn:E1; [|done]. intros E2.
      destruct (apply_option_frame _ _ _ _ _ _ E1) as (Hl1 & Hh1 & Hk1).
      destruct (IH _ _ E2) as [Hl2 Hh2]. split; [lia|]. intros l Hl.
      destruct (Hh2 l ltac:(lia)) as [Hs2|(k & m2 & Hin & Hk)].
      + destruct (Hh1 l Hl) as [Hs1|(k & -> & Hk)]; [left; congruence|].
        right. exists k, m. split; [by left|]. by left.
      + right. exists k, m2. split; [by right|]. destruct Hk as [Hk|Hk].
        * destruct (Hk1 k l Hk Hl) as [?|[-> ->]]; [by left|]. right. by left.
        * right. by right.
  Qed.

  Theorem parse_frame platform popts sel h kw h' kw' :
    selects platform popts sel ->
    parse platform popts h kw = Some (h', kw') ->
    forall l, l < length h -> ~ touched kw sel l -> h' !! l = h !! l.
  Proof.
    intros Hsel Hp l Hl Hn. rewrite (parse_selects _ _ _ _ _ Hsel) in Hp.
    by destruct (apply_options_frame _ _ _ _ _ Hp) as [_ [?|?]].
  Qed.

  Lemma separate_heap h h' kw ms : length h <= length h' -> separate h kw ms -> separate h' kw ms.
  Proof.
    intros Hl [S1 S2 S3 S4 S5]. split; try done.
    - intros k v l Hv Hr. specialize (S1 k v l Hv Hr). lia.
    - intros m l Hm Hr. specialize (S2 m l Hm Hr). lia.
  Qed.

  Theorem parse_twice platform popts sel h kw h1 kw1 :
    selects platform popts sel ->
    separate h kw (sel.*2) ->
    (forall l, ~ touched kw sel l) ->
    parse platform popts h kw = Some (h1, kw1) ->
    exists h2 kw2, parse platform popts h1 kw = Some (h2, kw2) /\
      forall k, den_kw h2 kw2 k = den_kw h1 kw1 k.
  Proof.
    intros Hsel Hsep Ht Hp.
    pose proof (parse_ok platform popts sel h kw Hsel Hsep) as H1. rewrite Hp in H1.
    destruct H1 as (sopts & Hra & Hef).
    assert (length h <= length h1) as Hlen.
    { rewrite (parse_selects _ _ _ _ _ Hsel) in Hp. by destruct (apply_options_frame _ _ _ _ _ Hp). }
    assert (forall v, (forall l, ref v = Some l -> l < length h) -> den h1 v = den h v) as Hden.
    { intros v Hv. destruct v as [| |l|l| |]; try done; cbn;
        rewrite (parse_frame _ _ _ _ _ _ _ Hsel Hp l); try done; by apply Hv. }
    assert (forall k, den_kw h1 kw k = den_kw h kw k) as Hkw.
    { intros k. unfold den_kw. destruct (kw !! k) as [v|] eqn:Hk; [|done]. cbn. f_equal. apply Hden.
      intros l. by apply (se_kw _ _ _ Hsep k v). }
    assert (reads_all h1 sel sopts) as Hra1.
    { apply (reads_all_heap h1 h); [|done]. intros m Hm. symmetry. apply Hden. intros l.
      by apply (se_ms _ _ _ Hsep m). }
    assert (effects (den_kw h1 kw) sopts (den_kw h1 kw1)) as Hef1.
    { apply (effects_ext (den_kw h kw)); [|done]. intros k. by rewrite Hkw. }
    pose proof (parse_ok platform popts sel h1 kw Hsel (separate_heap _ _ _ _ Hlen Hsep)) as H2.
    destruct (parse platform popts h1 kw) as [[h2 kw2]|].
    - exists h2, kw2. split; [done|]. destruct H2 as (sopts2 & Hra2 & Hef2).
      assert (sopts2 = sopts) as ->.
      { clear -Hra1 Hra2. revert sopts2 Hra2. induction Hra1 as [|[key m] [k a] opts sopts Ho Hs IH];
          intros sopts2 H2; inversion H2 as [|? [k2 a2] ? sopts2' Ho2 Hs2]; subst; [done|].
        cbn in *. destruct (reads_fun _ _ _ _ _ _ Ho Ho2) as [<- <-]. f_equal. by apply IH. }
      by eapply effects_fun.
    - by destruct (H2 sopts (den_kw h1 kw1) Hra1).
  Qed.
End Facts.
