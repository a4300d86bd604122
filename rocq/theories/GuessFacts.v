(** Facts about choosing a builder. *)
From Coq Require Import String.
From stdpp Require Import base list gmap.
From Coq Require Import NArith Lia.
From Verif Require Import FnModel PlatModel PlatSpec PlatFacts GuessModel GuessSpec.
Local Open Scope nat_scope.

(** *** Texts *)
Lemma begins_iff x s : begins x s = true <-> exists b, s = x ++ b.
Proof.
  revert s. induction x as [|c x IH]; intros s; cbn; [split; [by eexists|done]|].
  destruct s as [|d s]; [split; [done|intros [b ?]; done]|]. rewrite andb_true_iff, N.eqb_eq, IH. split.
  - intros [-> [b ->]]. by exists b.
  - intros [b [= -> ->]]. split; [done|]. by exists b.
Qed.
Lemma occurs_iff x s : occurs x s = true <-> part_of x s.
Proof.
  induction s as [|d s IH]; cbn [occurs]; rewrite orb_true_iff, begins_iff.
  - split; [intros [[b E]|]; [|done]; exists [], b; done|]. intros (a & b & E). left. exists b. by destruct a.
  - rewrite IH. split.
    + intros [[b E]|(a & b & ->)]; [exists [], b; done|exists (d :: a), b; done].
    + intros ([|c a] & b & E); [left; by exists b|]. right. injection E as -> ->. by exists a, b.
Qed.
Lemma occurs_false x s : occurs x s = false <-> ~ part_of x s.
Proof. rewrite <- occurs_iff. by destruct (occurs x s). Qed.

Lemma by_version_ok out : writes_version out (by_version out).
Proof.
  unfold by_version, ccmap. cbn [fold_left fst snd].
  destruct (occurs (tx "ICC") out) eqn:E3; [apply occurs_iff in E3; by constructor|]. apply occurs_false in E3.
  destruct (occurs (tx "clang") out) eqn:E2; [apply occurs_iff in E2; by constructor|]. apply occurs_false in E2.
  destruct (occurs (tx "Free Software Foundation") out) eqn:E1; [apply occurs_iff in E1|apply occurs_false in E1]; by constructor.
Qed.
Lemma str_eqb_iff a b : str_eqb a b = true <-> a = b.
Proof. unfold str_eqb. apply bool_decide_eq_true. Qed.
Lemma str_eqb_false a b : str_eqb a b = false <-> a <> b.
Proof. unfold str_eqb. apply bool_decide_eq_false. Qed.

Lemma identify_ok version bare x o : identify_compiler version bare x = Some o -> identified version bare x o.
Proof.
  unfold identify_compiler.
  destruct (str_eqb x (tx "clang") || str_eqb x (tx "clang++")) eqn:E1.
  { intros [= <-]. apply id_name. constructor. apply orb_true_iff in E1 as [E%str_eqb_iff|E%str_eqb_iff]; subst; set_solver. }
  destruct (str_eqb x (tx "gcc") || str_eqb x (tx "g++") || str_eqb x (tx "colorgcc")) eqn:E2.
  { intros [= <-]. apply id_name. constructor. rewrite !orb_true_iff, !str_eqb_iff in E2. set_solver. }
  destruct (str_eqb x (tx "icc") || str_eqb x (tx "icpc")) eqn:E3.
  { intros [= <-]. apply id_name. constructor. rewrite !orb_true_iff, !str_eqb_iff in E3. set_solver. }
  destruct (str_eqb x (tx "cl") || str_eqb x (tx "cl.exe")) eqn:E4.
  { intros [= <-]. apply id_name. constructor. rewrite !orb_true_iff, !str_eqb_iff in E4. set_solver. }
  rewrite !orb_false_iff, !str_eqb_false in *.
  assert (forall k, ~ named x k) as Hn.
  { intros k Hk. inversion Hk as [y Hy|y Hy|y Hy|y Hy]; subst; rewrite ?elem_of_cons, ?elem_of_nil in Hy; tauto. }
  destruct (version x) as [out err| |] eqn:Ev.
  - intros [= <-]. by eapply id_version; [| |apply by_version_ok].
  - destruct (bare x) as [out err| |] eqn:Eb; [| |done].
    + destruct (occurs (tx "Microsoft") out || occurs (tx "Microsoft") err) eqn:Em; intros [= <-].
      * rewrite orb_true_iff, !occurs_iff in Em. by eapply id_ms.
      * rewrite orb_false_iff, !occurs_false in Em. destruct Em. by eapply id_not_ms.
    + intros [= <-]. by apply id_neither.
  - done.
Qed.

(** *** Sets *)
Lemma subset_iff a b : subset a b = true <-> forall x, x ∈ a -> x ∈ b.
Proof. unfold subset. rewrite bool_decide_eq_true, Forall_forall. done. Qed.
Lemma elem_of_simplified compilers platform sub x : x ∈ simplified compilers platform sub <-> (x ∈ platform /\ x ∉ compilers) \/ x ∈ sub.
Proof. unfold simplified. rewrite elem_of_app, elem_of_list_filter. tauto. Qed.

(** *** Options *)
Section Facts.
  Context {E B : Type} `{EqDecision E}.
  Context (in_str : E -> list E -> option bool).

  Lemma selects_in platform (popts : list (list str * list (str * value E))) sel o :
    selects platform popts sel -> o ∈ sel -> o ∈ all_options popts.
  Proof.
    unfold all_options. induction 1; cbn; [done| |].
    - rewrite !elem_of_app. tauto.
    - rewrite elem_of_app. tauto.
  Qed.
  Lemma selects_sub platform (popts : list (list str * list (str * value E))) sel :
    selects platform popts sel -> sublist sel (all_options popts).
  Proof.
    unfold all_options. induction 1; cbn; [done| |].
    - by apply sublist_app.
    - by apply sublist_inserts_l.
  Qed.
  Lemma omap_sublist {A C} (f : A -> option C) (l k : list A) : sublist l k -> sublist (omap f l) (omap f k).
  Proof.
    induction 1 as [|x l k Hs IH|x l k Hs IH]; cbn; [done| |].
    - destruct (f x); [by apply sublist_skip|done].
    - destruct (f x); [by apply sublist_cons|done].
  Qed.
  Lemma NoDup_part {A} (l k : list A) : sublist l k -> NoDup k -> NoDup l.
  Proof.
    induction 1 as [|x l k Hs IH|x l k Hs IH]; intros Hk; [done| |].
    - apply NoDup_cons in Hk as [Hx Hk]. apply NoDup_cons. split; [|by apply IH]. intros Hin. apply Hx.
      apply elem_of_submseteq with l; [done|]. by apply sublist_submseteq.
    - apply NoDup_cons in Hk as [_ Hk]. by apply IH.
  Qed.
  Lemma selects_nodup platform (popts : list (list str * list (str * value E))) sel :
    selects platform popts sel -> NoDup (omap ref ((all_options popts).*2)) -> NoDup (omap ref (sel.*2)).
  Proof.
    intros Hs. apply NoDup_part, omap_sublist, fmap_sublist. by eapply selects_sub.
  Qed.

  (** *** Deep copies *)
  Lemma ref_shift n (v : value E) l : ref (shift n v) = Some l <-> exists l', ref v = Some l' /\ l = n + l'.
  Proof.
    destruct v; cbn; split; try done; try (by intros (? & ? & ?)).
    all: try (intros [= <-]; by eexists). all: intros (? & [= <-] & ->); done.
  Qed.
  Lemma den_shift (h k : heap E) (v : value E) : (forall l, ref v = Some l -> l < length h) -> den (k ++ h) (shift (length k) v) = den h v.
  Proof.
    intros Hv. destruct v as [| |l|l| |]; try done; cbn; rewrite lookup_app_r by lia; repeat f_equal; lia.
  Qed.
  Lemma den_app (h k : heap E) (v : value E) : (forall l, ref v = Some l -> l < length h) -> den (h ++ k) v = den h v.
  Proof. intros Hv. destruct v as [| |l|l| |]; try done; cbn; rewrite lookup_app_l; try done; by apply Hv. Qed.
  Lemma den_agree (h k : heap E) (v : value E) : (forall l, ref v = Some l -> k !! l = h !! l) -> den k v = den h v.
  Proof. intros Hv. destruct v as [| |l|l| |]; try done; cbn; by rewrite Hv. Qed.

  (** The keywords after both copies. *)
  Definition new_kw (h : heap E) (kw args : kwargs E) : kwargs E :=
    (shift (length (h ++ h)) <$> args) ∪ (shift (length h) <$> kw).
  Lemma new_kw_lookup h kw args k v : new_kw h kw args !! k = Some v ->
    (exists v0, args !! k = Some v0 /\ v = shift (length (h ++ h)) v0) \/
    (args !! k = None /\ exists v0, kw !! k = Some v0 /\ v = shift (length h) v0).
  Proof.
    unfold new_kw. intros Hk. apply lookup_union_Some_raw in Hk. rewrite !lookup_fmap in Hk.
    destruct Hk as [Hk|[Hn Hk]].
    - apply fmap_Some in Hk as (v0 & H0 & ->). left. by exists v0.
    - apply fmap_None in Hn. apply fmap_Some in Hk as (v0 & H0 & ->). right. split; [done|]. by exists v0.
  Qed.
  Lemma new_kw_none h kw args k : new_kw h kw args !! k = None -> args !! k = None /\ kw !! k = None.
  Proof. unfold new_kw. rewrite lookup_union_None, !lookup_fmap, !fmap_None. done. Qed.
  (** All of their lists are new. *)
  Lemma new_kw_fresh h kw args k v l : new_kw h kw args !! k = Some v -> ref v = Some l -> length h <= l.
  Proof.
    intros Hk Hr. apply new_kw_lookup in Hk as [(v0 & _ & ->)|(_ & v0 & _ & ->)]; apply ref_shift in Hr as (l' & _ & ->);
      rewrite ?app_length; lia.
  Qed.

  Lemma new_kw_separate h0 h kw args platform popts sel :
    length h0 <= length h -> unshared h0 kw -> unshared h0 args -> tidy h0 popts -> selects platform popts sel ->
    separate ((h ++ h) ++ (h ++ h)) (new_kw h kw args) (sel.*2).
  Proof.
    intros Hle [K1 K2] [A1 A2] (T1 & T2 & _) Hs. split.
    - intros k v l Hk Hr. rewrite !app_length. apply new_kw_lookup in Hk as [(v0 & H0 & ->)|(_ & v0 & H0 & ->)];
        apply ref_shift in Hr as (l' & Hr & ->); rewrite ?app_length.
      + specialize (A1 _ _ _ H0 Hr). lia.
      + specialize (K1 _ _ _ H0 Hr). lia.
    - intros m l Hm Hr. apply elem_of_list_fmap in Hm as ([k m'] & -> & Hm). cbn in Hr.
      specialize (T1 k m' l (selects_in _ _ _ _ Hs Hm) Hr). rewrite !app_length. lia.
    - intros k k' v v' l Hk Hk' Hr Hr'.
      apply new_kw_lookup in Hk as [(v0 & H0 & ->)|(_ & v0 & H0 & ->)]; apply ref_shift in Hr as (l0 & Hr & ->);
        apply new_kw_lookup in Hk' as [(v1 & H1 & ->)|(_ & v1 & H1 & ->)]; apply ref_shift in Hr' as (l1 & Hr' & El).
      + assert (l1 = l0) as -> by lia. by eapply A2.
      + specialize (K1 _ _ _ H1 Hr'). rewrite app_length in El. lia.
      + specialize (K1 _ _ _ H0 Hr). rewrite app_length in El. lia.
      + assert (l1 = l0) as -> by lia. by eapply K2.
    - by eapply selects_nodup.
    - intros k v l Hk Hr Hin. apply (new_kw_fresh _ _ _ _ _ _ Hk) in Hr.
      apply elem_of_list_omap in Hin as (m & Hm & Hr'). apply elem_of_list_fmap in Hm as ([k' m'] & -> & Hm). cbn in Hr'.
      specialize (T1 k' m' l (selects_in _ _ _ _ Hs Hm) Hr'). lia.
  Qed.

  Definition agrees (h0 h : heap E) : Prop := length h0 <= length h /\ forall l, l < length h0 -> h !! l = h0 !! l.
  Lemma agrees_refl h : agrees h h.
  Proof. by split. Qed.
  Lemma agrees_trans h1 h2 h3 : agrees h1 h2 -> agrees h2 h3 -> agrees h1 h3.
  Proof. intros [? A] [? C]. split; [lia|]. intros l Hl. rewrite C by lia. by apply A. Qed.
  Lemma agrees_app (h k : heap E) : agrees h (h ++ k).
  Proof. split; [rewrite app_length; lia|]. intros l Hl. by rewrite lookup_app_l. Qed.
  Lemma agrees_den h0 h (v : value E) : agrees h0 h -> (forall l, ref v = Some l -> l < length h0) -> den h v = den h0 v.
  Proof. intros [_ A] Hv. apply den_agree. intros l Hl. by apply A, Hv. Qed.

  (** The keywords after the copies mean what they meant. *)
  Lemma new_kw_den h0 h kw args k : agrees h0 h -> unshared h0 kw -> unshared h0 args ->
    den_kw ((h ++ h) ++ (h ++ h)) (new_kw h kw args) k = merged h0 kw args k.
  Proof.
    intros Ha [K1 _] [A1 _]. unfold merged, den_kw at 1.
    destruct (new_kw h kw args !! k) as [v|] eqn:Hk; cbn.
    - apply new_kw_lookup in Hk as [(v0 & H0 & ->)|(Hn & v0 & H0 & ->)].
      + unfold den_kw. rewrite H0. cbn. f_equal.
        assert (forall l, ref v0 = Some l -> l < length h0) as Hv by (intros l; by apply A1 with k).
        assert (forall l, ref v0 = Some l -> l < length h) as Hv' by (intros l Hl; apply Hv in Hl; destruct Ha; lia).
        rewrite den_shift by (intros l Hl; apply Hv' in Hl; rewrite app_length; lia). rewrite den_app by done. by apply agrees_den.
      + unfold den_kw at 1. rewrite Hn. cbn. unfold den_kw. rewrite H0. cbn. f_equal.
        assert (forall l, ref v0 = Some l -> l < length h0) as Hv by (intros l; by apply K1 with k).
        assert (forall l, ref v0 = Some l -> l < length h) as Hv' by (intros l Hl; apply Hv in Hl; destruct Ha; lia).
        rewrite den_app; [rewrite den_shift by done; by apply agrees_den|].
        intros l Hl. apply ref_shift in Hl as (l' & Hl & ->). apply Hv' in Hl. rewrite app_length. lia.
    - apply new_kw_none in Hk as [H1 H2]. unfold den_kw. rewrite H1. cbn. by rewrite H2.
  Qed.

  (** One application of the options. *)
  Lemma parse_new platform popts h kw args h' kw' :
    parse_platform_options in_str platform popts ((h ++ h) ++ (h ++ h)) (new_kw h kw args) = Some (h', kw') ->
    length h <= length h' /\
    (forall l, l < length h -> (forall k m, (k, m) ∈ all_options popts -> ref m <> Some l) -> h' !! l = h !! l) /\
    (forall h0, agrees h0 h -> unshared h0 kw -> unshared h0 args -> tidy h0 popts ->
       agrees h0 h' /\
       exists sel sopts, selects platform popts sel /\ reads_all h0 sel sopts /\
         effects in_str (merged h0 kw args) sopts (den_kw h' kw')).
  Proof.
    intros Hp. destruct (selects_total platform popts) as [sel Hs].
    assert (length ((h ++ h) ++ (h ++ h)) <= length h') as Hlen.
    { pose proof Hp as Hp'. rewrite (parse_selects in_str _ _ _ _ _ Hs) in Hp'. by destruct (apply_options_frame in_str _ _ _ _ _ Hp'). }
    assert (forall l, l < length h -> (forall k m, (k ++ [c_add], m) ∈ sel -> (k, VList l) ∉ sel) -> h' !! l = h !! l) as Hfr.
    { intros l Hl Hno. rewrite (parse_frame in_str platform popts sel _ _ _ _ Hs Hp l); [|rewrite !app_length; lia|].
      - rewrite !lookup_app_l; [done| |]; rewrite ?app_length; lia.
      - intros (k & m & Hin & [Hk|Hk]); [|by apply (Hno k m)].
        pose proof (new_kw_fresh _ _ _ _ _ l Hk eq_refl). lia. }
    split_and!.
    - rewrite !app_length in Hlen. lia.
    - intros l Hl Hno. apply Hfr; [done|]. intros k m _ Hin. by apply (Hno k (VList l)); [eapply selects_in|].
    - intros h0 Ha Hk Har Ht.
      assert (agrees h0 h') as Ha'.
      { destruct Ha as [Hl0 Ha]. split; [rewrite !app_length in Hlen; lia|]. intros l Hl. rewrite Hfr; [by apply Ha|lia|].
        intros k m Hin Hin'. destruct Ht as (_ & _ & T3). by apply (T3 k m l); eapply selects_in. }
      split; [done|].
      assert (separate ((h ++ h) ++ (h ++ h)) (new_kw h kw args) (sel.*2)) as Hsep
        by (destruct Ha; by eapply new_kw_separate).
      pose proof (parse_ok in_str platform popts sel _ _ Hs Hsep) as Hok. rewrite Hp in Hok.
      destruct Hok as (sopts & Hr & He). exists sel, sopts. split; [done|]. split.
      + eapply reads_all_heap; [|exact Hr]. intros m Hm. apply agrees_den.
        * eapply agrees_trans; [exact Ha|]. rewrite <- app_assoc. apply agrees_app.
        * intros l Hl. apply elem_of_list_fmap in Hm as ([k m'] & -> & Hm). cbn in Hl.
          destruct Ht as (T1 & _). by eapply T1; [eapply selects_in|].
      + eapply effects_ext; [|exact He]. intros k. by rewrite (new_kw_den h0).
  Qed.

  (** *** Searching *)
  Context (configure : list (call E * made B) -> call E -> made B).
  Context (compilers platform : list str) (exe : option str).
  Context (popts : list (list str * list (str * value E))) (kw : kwargs E).
  Context (h0 : heap E) (static shared : option (kwargs E)).
  Context (holds : str -> Prop) (Hholds : forall x, x ∈ platform <-> holds x).

  (** The specification's, here. *)
  Definition orderly : Prop := GuessSpec.orderly h0 kw static shared popts.
  Definition call_ok : entry -> str * kwargs E -> call E -> Prop :=
    GuessSpec.call_ok in_str compilers exe popts kw h0 static shared holds.
  Definition heap_ok (h : heap E) : Prop :=
    length h0 <= length h /\
    (forall l, l < length h0 -> (forall k m, (k, m) ∈ all_options popts -> ref m <> Some l) -> h !! l = h0 !! l) /\
    (orderly -> agrees h0 h).

  Notation try := (try_builder in_str configure compilers platform exe popts kw).

  Lemma heap_ok_app h k : heap_ok h -> heap_ok (h ++ k).
  Proof.
    intros (H1 & H2 & H3). split_and!.
    - rewrite app_length. lia.
    - intros l Hl Hn. rewrite lookup_app_l by lia. by apply H2.
    - intros Ho. eapply agrees_trans; [by apply H3|apply agrees_app].
  Qed.
  Lemma given_false (m : kwargs E) k : given m k = false -> m !! k = None.
  Proof. unfold given. by destruct (m !! k). Qed.

  Lemma try_ok e fn a h log h' log' r :
    (static = Some a \/ shared = Some a) -> heap_ok h ->
    try (e_sub e) fn (Some a) h log = (h', log', r) ->
    heap_ok h' /\
    ((log' = log /\ r = TBroke) \/
     exists c m, call_ok e (fn, a) c /\ log' = log ++ [(c, m)] /\ m = configure log c /\
       r = match m with Built b => TDone (Some b) | Refused => TRefused | Broke => TBroke end).
  Proof.
    intros Hin Hh. unfold try_builder, deepcopy. fold (new_kw h kw a).
    destruct (parse_platform_options _ _ _ _ _) as [[h1 kw1]|] eqn:Ep.
    2: { intros [= <- <- <-]. split; [|by left]. by apply heap_ok_app, heap_ok_app. }
    destruct (parse_new _ _ _ _ _ _ _ Ep) as (P1 & P2 & P3).
    assert (heap_ok h1) as Hh1.
    { destruct Hh as (H1 & H2 & H3). split_and!; [lia| |].
      - intros l Hl Hn. rewrite P2; [by apply H2|lia|done].
      - intros Ho. pose proof (H3 Ho) as Ha. destruct Ho as (O1 & O2 & O3). by apply P3; auto. }
    destruct (given kw1 (tx "platform") || given kw1 (tx "function")) eqn:Eg.
    { intros [= <- <- <-]. split; [done|by left]. }
    intros [= <- <- <-]. split; [done|]. right. eexists _, _. split_and!; [|done|done|done].
    apply orb_false_iff in Eg as [Eg1%given_false Eg2%given_false].
    split_and!; cbn; try done.
    - intros k Hk. split; intros ->; done.
    - intros Ho. pose proof Ho as Ho'. destruct Ho as (O1 & O2 & O3). destruct Hh as (_ & _ & H3).
      destruct (P3 h0 (H3 Ho') O1 (O2 a Hin) O3) as (_ & sel & sopts & S1 & S2 & S3).
      exists (simplified compilers platform (e_sub e)), sel, sopts. split_and!; try done.
      intros x. rewrite elem_of_simplified. unfold seen. by rewrite Hholds.
  Qed.

  Lemma search_ok fs h log h' log' o : heap_ok h ->
    search in_str configure compilers platform exe popts kw static shared fs h log = (h', log', o) ->
    heap_ok h' /\ exists t, log' = log ++ t /\ chooses call_ok holds static shared fs t o.
  Proof.
    revert h log h' log' o. induction fs as [|e fs IH]; intros h log h' log' o Hh; cbn [search].
    { intros [= <- <- <-]. split; [done|]. exists []. split; [by rewrite app_nil_r|constructor]. }
    destruct (subset (e_sub e) platform) eqn:Es.
    2: { intros Hs. destruct (IH _ _ _ _ _ Hh Hs) as (Hh' & t & E1 & Hc). split; [done|]. exists t. split; [done|]. apply ch_skip; [|done].
         intros Hu. apply eq_true_false_abs with (b := subset (e_sub e) platform); [|done].
         apply subset_iff. intros x Hx. apply Hholds. by apply Hu. }
    assert (usable holds (e_sub e)) as Hu by (intros x Hx; apply Hholds; by eapply subset_iff).
    assert (forall h1 log1 h' log' o s ts,
      heap_ok h1 -> log1 = log ++ ts ->
      (static = None /\ ts = [] /\ s = None \/
       exists a c b, static = Some a /\ ts = [(c, Built b)] /\ s = Some b /\ call_ok e (e_static e, a) c) ->
      match try (e_sub e) (e_shared e) shared h1 log1 with
      | (h, log, TDone d) => (h, log, Found s d)
      | (h, log, TRefused) => search in_str configure compilers platform exe popts kw static shared fs h log
      | (h, log, TBroke) => (h, log, Raises)
      end = (h', log', o) ->
      heap_ok h' /\ exists t, log' = log ++ t /\ chooses call_ok holds static shared (e :: fs) t o) as Hsecond.
    { clear h' log' o. intros h1 log1 h' log' o s ts Hh1 -> Hst.
      destruct shared as [d|] eqn:Esh.
      - destruct (try (e_sub e) (e_shared e) (Some d) h1 (log ++ ts)) as [[h2 log2] r] eqn:Et.
        apply try_ok in Et as [Hh2 Hr]; [|rewrite Esh; auto|done].
        destruct Hr as [[-> ->]|(c & m & Hc & -> & Hm & ->)].
        + intros [= <- <- <-]. split; [done|]. exists ts. split; [done|]. apply ch_stop; [done|]. unfold wanted.
          destruct Hst as [(-> & -> & _)|(a & c & b & -> & -> & _ & Hca)]; cbn; [apply br_before|]. apply br_next; [done|]. apply br_before.
        + destruct m as [b| |].
          * intros [= <- <- <-]. split; [done|]. exists (ts ++ [(c, Built b)]). split; [by rewrite app_assoc|].
            destruct Hst as [(-> & -> & ->)|(a & c' & b' & -> & -> & -> & Hca)].
            -- eapply (ch_take _ _ _ _ _ _ _ [b]); [done| |]; [apply ab_cons; [done|apply ab_nil]|]. by split_and!.
            -- eapply (ch_take _ _ _ _ _ _ _ [b'; b]); [done| |]; [apply ab_cons; [done|]; apply ab_cons; [done|apply ab_nil]|]. by split_and!.
          * intros Hs. destruct (IH _ _ _ _ _ Hh2 Hs) as (Hh' & t & -> & Hch). split; [done|]. exists (ts ++ (c, Refused) :: t).
            split; [by rewrite <- !app_assoc|].
            change (ts ++ (c, Refused) :: t) with (ts ++ [(c, Refused)] ++ t). rewrite app_assoc. apply ch_next; [done| |done].
            unfold wanted. destruct Hst as [(-> & -> & ->)|(a & c' & b' & -> & -> & -> & Hca)]; cbn; [by apply rf_here|].
            apply rf_next; [done|]. by apply rf_here.
          * intros [= <- <- <-]. split; [done|]. exists (ts ++ [(c, Broke)]). split; [by rewrite app_assoc|]. apply ch_stop; [done|].
            unfold wanted. destruct Hst as [(-> & -> & ->)|(a & c' & b' & -> & -> & -> & Hca)]; cbn; [by apply br_here|].
            apply br_next; [done|]. by apply br_here.
      - cbn. intros [= <- <- <-]. split; [done|]. exists ts. split; [done|].
        destruct Hst as [(-> & -> & ->)|(a & c' & b' & -> & -> & -> & Hca)].
        + eapply (ch_take _ _ _ _ _ _ _ []); [done|constructor|]. by split_and!.
        + eapply (ch_take _ _ _ _ _ _ _ [b']); [done|apply ab_cons; [done|apply ab_nil]|]. by split_and!. }
    destruct static as [a|] eqn:Est.
    - destruct (try (e_sub e) (e_static e) (Some a) h log) as [[h1 log1] r] eqn:Et.
      apply try_ok in Et as [Hh1 Hr]; [|rewrite Est; auto|done].
      destruct Hr as [[-> ->]|(c & m & Hc & -> & Hm & ->)].
      + intros [= <- <- <-]. split; [done|]. exists []. split; [by rewrite app_nil_r|]. apply ch_stop; [done|]. apply br_before.
      + destruct m as [b| |].
        * intros Hs. eapply Hsecond; [exact Hh1|reflexivity| |exact Hs]. right. by exists a, c, b.
        * intros Hs. destruct (IH _ _ _ _ _ Hh1 Hs) as (Hh' & t & -> & Hch). split; [done|]. exists ((c, Refused) :: t).
          split; [by rewrite <- !app_assoc|]. change ((c, Refused) :: t) with ([(c, Refused)] ++ t). apply ch_next; [done| |done].
          by apply rf_here.
        * intros [= <- <- <-]. split; [done|]. exists [(c, Broke)]. split; [done|]. apply ch_stop; [done|]. by apply br_here.
    - cbn. intros Hs. eapply (Hsecond h log _ _ _ None []); [done|by rewrite app_nil_r|by left|exact Hs].
  Qed.
End Facts.
