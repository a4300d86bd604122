(** Answers of the SQLite backend come from the last run of the call. *)
From stdpp Require Import base list strings gmap.
From Coq Require Import ZArith Lia.
From Verif Require Import PyMonad DbModel DbSpec DbClaims DbHistory SqlBackend SqlSpec SqlLift SqlFacts SqlInv SqlStep SqlKept SqlRecords
  CodeSpec TargetSpec LatestSpec StepEnv.

Section Inv.
  Context {V R : Type} (veq : V -> V -> bool) (md5 : content -> digest) (F : name -> Z -> content).
  Context (Hveq : equivalence_test veq).
  Notation BK := (sql_backend (V := V) (R := R) veq md5).
  Notation core0 := (sql_core0 (R := R) veq).
  Notation sq := (sq V R).
  Notation frame := (frame V R nat nat nat).
  Notation sys := (sys V R (conn V R) nat nat nat).
  Notation op := (op V R).
  Notation run := (run V R).
  Notation step := (step md5 BK).
  Notation runs := (runs md5 BK).
  Notation busy := (busy veq).
  Notation cur s := (k_cur (s_db s)).
  Notation base s := (k_base (s_db s)).
  Notation db_inv := (db_inv_ex (V := V) (R := R) veq md5 F None).
  Notation inv := (inv veq md5 F).
  Context (s0 : sys).
  Implicit Types q : sq.

  Lemma equal_trans rq1 rq2 rq3 : equal_call veq rq1 rq2 -> equal_call veq rq2 rq3 -> equal_call veq (R := R) rq1 rq3.
  Proof. intros [H1 H2] [H3 H4]. split; [congruence|]. by eapply (proj2 (proj2 Hveq)). Qed.
  Lemma equal_sym rq1 rq2 : equal_call veq rq1 rq2 -> equal_call veq (R := R) rq2 rq1.
  Proof. intros [H1 H2]. split; [done|]. by apply (proj1 (proj2 Hveq)). Qed.
  Lemma equal_refl rq : equal_call veq (R := R) rq rq.
  Proof. split; [done|apply (proj1 Hveq)]. Qed.
  Lemma equal_dec rq rq' : equal_call veq (R := R) rq rq' \/ ~ equal_call veq rq rq'.
  Proof.
    unfold equal_call. destruct (decide (rq_fun rq' = rq_fun rq)); [|right; by intros []].
    destruct (veq (rq_bound rq) (rq_bound rq')); [by left|right; by intros []].
  Qed.

  (** The run returned, and since then no equal call ran; or such a call is running. *)
  Definition returned (os : list op) (ru : run) : Prop :=
    exists t a b c, os = a ++ OBegin t (ru_req ru) :: b ++ OEnd t (ru_result ru) :: c /\
      runs_during md5 BK s0 t (ru_req ru) a b /\
      ru_begin ru = s_env (runs s0 a) /\ e_fun (ru_begin ru) !! rq_fun (ru_req ru) = Some (ru_digest ru) /\
      forall c1 c2, c = c1 ++ c2 ->
        ~ busy (runs s0 (a ++ OBegin t (ru_req ru) :: b ++ OEnd t (ru_result ru) :: c1)) (ru_req ru).
  Definition good (os : list op) (ru : run) : Prop := busy (runs s0 os) (ru_req ru) \/ returned os ru.

  (** Row [y] is for the call [rq]. *)
  Definition row_for q (rq : request V R) (y : nat) : Prop :=
    exists j b r d s, (y, j, b, r) ∈ q_calls q /\ q_funs q !! rq_fun rq = Some (j, d, s) /\ veq (rq_bound rq) b = true.
  Definition one_row q : Prop :=
    forall x y rq, row_for q rq x -> row_for q rq y -> x = y.
  (** A running call knows the row for it. *)
  Definition knows q (fr : frame) : Prop :=
    pr_fun_dirty (fr_prep fr) = false -> forall y, row_for q (fr_req fr) y -> pr_call_id (fr_prep fr) = Some y.

  (** The calls a thread is inside of, innermost first. *)
  Definition reqs (s : sys) (t : nat) : list (request V R) := fr_req <$> thread s t.
  (** No two running calls are equal. *)
  Definition apart (s : sys) : Prop :=
    forall t1 n1 rq1 t2 n2 rq2, reqs s t1 !! n1 = Some rq1 -> reqs s t2 !! n2 = Some rq2 ->
      equal_call veq rq1 rq2 -> t1 = t2 /\ n1 = n2.

  Record linv (os : list op) : Prop := LInv {
    li_rows : exists lg, (forall ru, ru ∈ lg -> good os ru) /\ db_inv lg (cur (runs s0 os)) /\ db_inv lg (base (runs s0 os));
    li_cur : one_row (cur (runs s0 os));
    li_base : one_row (base (runs s0 os));
    li_knows : forall t fr, fr ∈ thread (runs s0 os) t -> knows (cur (runs s0 os)) fr;
    li_apart : apart (runs s0 os)
  }.

  Lemma busy_reqs (s : sys) rq : busy s rq <-> exists t n rq', reqs s t !! n = Some rq' /\ equal_call veq rq rq'.
  Proof.
    unfold reqs. split.
    - intros (t & fr & Hin & He). apply elem_of_list_lookup in Hin as [n Hn]. exists t, n, (fr_req fr).
      by rewrite list_lookup_fmap, Hn.
    - intros (t & n & rq' & Hn & He). rewrite list_lookup_fmap in Hn. apply fmap_Some in Hn as (fr & Hn & ->).
      exists t, fr. split; [by eapply elem_of_list_lookup_2|done].
  Qed.
  Lemma busy_same (s s' : sys) rq : (forall t, reqs s' t = reqs s t) -> busy s' rq <-> busy s rq.
  Proof. intros H. rewrite !busy_reqs. by setoid_rewrite H. Qed.

  Lemma returned_idle os ru : returned os ru -> ~ busy (runs s0 os) (ru_req ru).
  Proof. intros (t & a & b & c & -> & _ & _ & _ & H). apply (H c []). by rewrite app_nil_r. Qed.
  Lemma returned_snoc os o ru : returned os ru -> ~ busy (runs s0 (os ++ [o])) (ru_req ru) -> returned (os ++ [o]) ru.
  Proof.
    intros (t & a & b & c & -> & Hrd & Hb & Hd & H) Hn. exists t, a, b, (c ++ [o]). split_and!; try done.
    - repeat (rewrite <- ?app_assoc; simpl). done.
    - intros c1 c2 Hc. destruct (snoc_split _ _ _ _ Hc) as [[-> ->]|(c2' & -> & ->)]; [|by eapply H].
      intros Hbz. apply Hn. repeat (rewrite <- ?app_assoc in *; simpl in * ). done.
  Qed.
  Lemma good_same os o ru : (forall t, reqs (runs s0 (os ++ [o])) t = reqs (runs s0 os) t) -> good os ru -> good (os ++ [o]) ru.
  Proof.
    intros H [Hg|Hg]; [left; by apply (busy_same _ _ _ H)|right]. apply returned_snoc; [done|].
    intros Hb%(busy_same _ _ _ H). by eapply returned_idle.
  Qed.

  Lemma row_for_same q q' rq y : q_funs q' = q_funs q -> q_calls q' = q_calls q -> row_for q' rq y <-> row_for q rq y.
  Proof. unfold row_for. by intros -> ->. Qed.
  Lemma one_row_same q q' : q_funs q' = q_funs q -> q_calls q' = q_calls q -> one_row q -> one_row q'.
  Proof. intros H1 H2 H x y rq. rewrite !(row_for_same q q') by done. apply H. Qed.
  Lemma knows_same q q' fr : q_funs q' = q_funs q -> q_calls q' = q_calls q -> knows q fr -> knows q' fr.
  Proof. intros H1 H2 H Hd y. rewrite (row_for_same q q') by done. by apply H. Qed.
  Lemma row_for_less q q' rq y : (forall g x, q_funs q' !! g = Some x -> q_funs q !! g = Some x) ->
    (forall x, x ∈ q_calls q' -> x ∈ q_calls q) -> row_for q' rq y -> row_for q rq y.
  Proof. intros Hf Hc (j & b & r & d & s & H1 & H2 & H3). exists j, b, r, d, s. auto. Qed.

  (** Nothing begins or ends. *)
  Lemma linv_move os o : linv os ->
    (forall t, reqs (runs s0 (os ++ [o])) t = reqs (runs s0 os) t) ->
    (forall t fr', fr' ∈ thread (runs s0 (os ++ [o])) t -> exists fr, fr ∈ thread (runs s0 os) t /\ fr_req fr' = fr_req fr /\ fr_prep fr' = fr_prep fr) ->
    (forall lg, db_inv lg (cur (runs s0 os)) -> db_inv lg (base (runs s0 os)) ->
       db_inv lg (cur (runs s0 (os ++ [o]))) /\ db_inv lg (base (runs s0 (os ++ [o])))) ->
    one_row (cur (runs s0 (os ++ [o]))) -> one_row (base (runs s0 (os ++ [o]))) ->
    (forall t fr, fr ∈ thread (runs s0 os) t -> knows (cur (runs s0 os)) fr -> knows (cur (runs s0 (os ++ [o]))) fr) ->
    linv (os ++ [o]).
  Proof.
    intros [(lg & Hlg & Hc & Hb) H1 H2 H3 H4] Hreqs Hfr Hdb Ho1 Ho2 Hk. split; try done.
    - exists lg. split; [|by apply Hdb]. intros ru Hru. apply good_same; auto.
    - intros t fr' Hin. destruct (Hfr t fr' Hin) as (fr & Hin' & Hr & Hp).
      pose proof (Hk t fr Hin' (H3 t fr Hin')) as Hkk. unfold knows in *. by rewrite Hp, Hr.
    - intros t1 n1 rq1 t2 n2 rq2. rewrite !Hreqs. apply H4.
  Qed.
  Lemma linv_shrink os o : linv os ->
    (forall t, thread (runs s0 (os ++ [o])) t = thread (runs s0 os) t) ->
    shrink md5 F (cur (runs s0 os)) (cur (runs s0 (os ++ [o]))) -> base (runs s0 (os ++ [o])) = base (runs s0 os) ->
    linv (os ++ [o]).
  Proof.
    intros Hl Ht Hsh Hb. pose proof Hsh as []. apply linv_move; try done.
    - intros t. unfold reqs. by rewrite Ht.
    - intros t fr. rewrite Ht. eauto.
    - intros lg H1 H2. rewrite Hb. split; [|done]. by eapply db_inv_shrink.
    - eapply one_row_same; [done|done|apply Hl].
    - rewrite Hb. apply Hl.
    - intros t fr _. by apply knows_same.
  Qed.

  Lemma search_row_finds (i : nat) (b : V) (l : list (nat * nat * V * R)) y b' r :
    (y, i, b', r) ∈ l -> veq b b' = true -> is_Some (search_row veq i b l).
  Proof.
    induction l as [|[[[c j] ob] r0] l IH]; [by intros ?%elem_of_nil|].
    intros [[= <- <- <- <-]|Hin]%elem_of_cons Hv; simpl.
    - by rewrite Nat.eqb_refl, Hv.
    - destruct (_ && _)%bool; [done|]. auto.
  Qed.

  (** A call begins. *)
  Lemma linv_begin os t rq : linv os -> inv (runs s0 os) -> ~ busy (runs s0 os) rq -> linv (os ++ [OBegin t rq]).
  Proof.
    intros Hl Hinv Hnb. pose proof (runs_snoc md5 BK s0 os (OBegin t rq)) as Hs. simpl in Hs. unfold begin_call in Hs.
    set (s := runs s0 os) in *.
    destruct (e_fun (s_env s) !! rq_fun rq) as [d|] eqn:Ed.
    2:{ apply linv_shrink; rewrite ?Hs; try done. apply shrink_refl. }
    destruct (prepare md5 (b_core BK) _ _ _ _ _) as [res db] eqn:Ep.
    destruct (begin_prepare veq md5 F s rq res db Hinv Ep) as (Hdk & Hsh & Hok).
    destruct res as [x|p]; [by apply linv_shrink; rewrite ?Hs|].
    assert (forall cs, runs s0 (os ++ [OBegin t rq]) =
      Sys (s_env s) db cs (<[t := Frame rq d p [] [] (s_env s) :: thread s t]> (s_threads s)) (s_log s) -> linv (os ++ [OBegin t rq])) as Hrun.
    { clear Hs. intros cs Hs. destruct Hl as [(lg & Hlg & Hc & Hb) H1 H2 H3 H4]. fold s in Hc, Hb, H1, H2, H3, H4.
      assert (forall t', reqs (runs s0 (os ++ [OBegin t rq])) t' = if decide (t = t') then rq :: reqs s t else reqs s t') as Hreqs.
      { intros t'. rewrite Hs. unfold reqs at 1. rewrite thread_insert. by destruct (decide _). }
      assert (forall t' n rq', reqs (runs s0 (os ++ [OBegin t rq])) t' !! n = Some rq' ->
        (t' = t /\ n = 0 /\ rq' = rq) \/ exists n', n = (if decide (t = t') then S n' else n') /\ reqs s t' !! n' = Some rq') as Hat.
      { intros t' n rq'. rewrite Hreqs. destruct (decide (t = t')) as [<-|Hn].
        - destruct n as [|n]; simpl; [intros [= <-]; by left|]. right. eauto.
        - right. eauto. }
      assert (forall rq0, busy s rq0 -> busy (runs s0 (os ++ [OBegin t rq])) rq0) as Hbusy.
      { intros rq0. rewrite !busy_reqs. intros (t' & n & rq' & Hn & He). exists t'. setoid_rewrite Hreqs.
        destruct (decide (t = t')) as [<-|]; [exists (S n), rq'|exists n, rq']; done. }
      assert (forall rq0, busy (runs s0 (os ++ [OBegin t rq])) rq0 -> equal_call veq rq0 rq \/ busy s rq0) as Hbusy'.
      { intros rq0. rewrite !busy_reqs. intros (t' & n & rq' & Hn & He).
        destruct (Hat _ _ _ Hn) as [(-> & -> & ->)|(n' & _ & Hn')]; [by left|right; eauto]. }
      split.
      - exists lg. split.
        + intros ru Hru. destruct (Hlg ru Hru) as [Hg|Hg]; [left; by apply Hbusy|].
          destruct (equal_dec (ru_req ru) rq) as [He|He].
          * left. apply busy_reqs. exists t, 0, rq. rewrite Hreqs. by rewrite decide_True.
          * right. apply returned_snoc; [done|]. intros [?|Hb']%Hbusy'; [done|]. by apply (returned_idle os ru).
        + rewrite Hs. cbn [s_db]. rewrite Hdk. split; [by eapply db_inv_shrink|done].
      - rewrite Hs. cbn [s_db]. eapply one_row_same; [apply Hsh|apply Hsh|exact H1].
      - rewrite Hs. cbn [s_db]. by rewrite Hdk.
      - intros t' fr. rewrite Hs. cbn [s_db]. rewrite thread_insert. intros Hin.
        assert (fr = Frame rq d p [] [] (s_env s) \/ fr ∈ thread s t') as [->|Hin'].
        { destruct (decide (t = t')) as [<-|]; [apply elem_of_cons in Hin as [?|?]|]; auto. }
        2:{ eapply knows_same; [apply Hsh|apply Hsh|by eapply H3]. }
        intros Hd y Hy. cbn [fr_prep fr_req] in *. rewrite (row_for_same (cur s)) in Hy by apply Hsh.
        simpl in Ep. rewrite (lifts_prepare veq md5 _ _ _ _ (s_db s)) in Ep. unfold on_cur in Ep.
        destruct (prepare _ core0 _ _ _ _ _) as [res q'] eqn:Ep0. injection Ep as -> _.
        destruct (po_clean _ _ _ _ _ _ _ _ _ (Hok p eq_refl) Hd) as (i & d' & deps & Hid & _ & Hf).
        destruct (prepare_cid veq md5 _ _ _ _ _ _ _ Ep0 Hd i Hid) as [_ Hcid]. rewrite Hcid.
        pose proof Hy as (j & b & r & d2 & s2 & Hrow & Hf2 & Hv). rewrite Hf in Hf2. injection Hf2 as <- <- <-.
        destruct (search_row_finds i (rq_bound rq) _ _ _ _ Hrow Hv) as [[c r'] Hsr]. rewrite Hsr. simpl. f_equal.
        apply search_row_spec in Hsr as (b' & Hin2 & Hv2). eapply (H1 c y rq); [|done]. exists i, b', r', d', deps. done.
      - intros t1 n1 rq1 t2 n2 rq2 Hn1 Hn2 He.
        destruct (Hat _ _ _ Hn1) as [(-> & -> & ->)|(n1' & -> & Hn1')], (Hat _ _ _ Hn2) as [(-> & -> & ->)|(n2' & -> & Hn2')]; [done|..].
        + exfalso. apply Hnb, busy_reqs. eauto.
        + exfalso. apply Hnb, busy_reqs. exists t1, n1', rq1. split; [done|]. by apply equal_sym.
        + destruct (H4 _ _ _ _ _ _ Hn1' Hn2' He) as [-> ->]. done. }
    destruct (pr_fun_dirty p), (pr_call_dirty p), (pr_files p), (pr_xfiles p), (pr_old_result p); try (eapply Hrun; exact Hs).
    destruct (forallb _ _); [|eapply Hrun; exact Hs]. by apply linv_shrink; rewrite ?Hs.
  Qed.

  (** A call ends and is recorded. *)
  Lemma linv_end os t r : s_threads s0 = ∅ -> linv os -> inv (runs s0 os) ->
    (forall x, snd (step (runs s0 os) (OEnd t r)) <> RErr x) -> linv (os ++ [OEnd t r]).
  Proof.
    intros H0 Hl Hinv Hok. pose proof (runs_snoc md5 BK s0 os (OEnd t r)) as Hs. simpl in Hs, Hok. unfold end_call in Hs, Hok.
    set (s := runs s0 os) in *.
    destruct (thread s t) as [|fr frs] eqn:Et.
    { apply linv_shrink; rewrite ?Hs; try done. apply shrink_refl. }
    destruct (s_callstack s) as [|deps cs]; [by destruct (Hok IndexErr)|].
    rewrite (cache_transaction veq md5 _ _ _ _ _ _ _ _ _ _ _ _ (s_db s)) in Hs, Hok.
    destruct (cache0 _ _ _ _ _ _ _ _ _ _ _ _ _ _ (cur s)) as [[x|[]] q'] eqn:Ec; cbn [fst snd] in Hs, Hok.
    { by destruct (Hok x). }
    destruct Hl as [(lg & Hlg & Hc & Hb) H1 H2 H3 H4]. fold s in Hc, Hb, H1, H2, H3, H4.
    assert (fr ∈ thread s t) as Hfrin by (rewrite Et; by left).
    destruct (cache0_rows veq md5 F Hveq lg _ _ _ _ _ _ _ (in_fs _ _ _ _ Hinv) Hc (in_frames _ _ _ _ Hinv t fr Hfrin) Ec)
      as (c & Hag & [Hw He] & Hcid & Hrow & Hold & Hfold).
    set (ru := Run (fr_req fr) (fr_digest fr) r (fr_begin fr) (s_env s) (fr_xsrcs fr) (fr_xdsts fr) true) in *.
    set (s' := runs s0 (os ++ [OEnd t r])) in *.
    assert (forall t', reqs s t' = if decide (t = t') then fr_req fr :: reqs s' t else reqs s' t') as Hreqs.
    { intros t'. unfold reqs. rewrite Hs. destruct (decide (t = t')) as [<-|]; rewrite thread_insert.
      - rewrite decide_True by done. by rewrite Et.
      - by rewrite decide_False. }
    assert (forall t' n rq', reqs s' t' !! n = Some rq' -> reqs s t' !! (if decide (t = t') then S n else n) = Some rq') as Hat.
    { intros t' n rq'. rewrite Hreqs. by destruct (decide (t = t')) as [<-|]. }
    assert (reqs s t !! 0 = Some (fr_req fr)) as Htop by (unfold reqs; by rewrite Et).
    assert (~ busy s' (fr_req fr)) as Hidle.
    { intros (t' & n & rq' & Hn & Heq)%busy_reqs. destruct (H4 _ _ _ _ _ _ Htop (Hat _ _ _ Hn) Heq) as [<- Hz].
      by rewrite decide_True in Hz. }
    assert (forall rq0, busy s' rq0 -> busy s rq0) as Hbusy.
    { intros rq0 (t' & n & rq' & Hn & Heq)%busy_reqs. apply busy_reqs. eexists t', _, rq'. split; [by apply Hat|done]. }
    assert (forall rq0, busy s rq0 -> ~ equal_call veq (fr_req fr) rq0 -> busy s' rq0) as Hbusy'.
    { intros rq0 (t' & n & rq' & Hn & Heq)%busy_reqs Hne. apply busy_reqs. rewrite Hreqs in Hn. destruct (decide (t = t')) as [<-|].
      - destruct n as [|n]; [injection Hn as <-|eauto]. destruct Hne. by apply equal_sym.
      - eauto. }
    (* the rows for the call *)
    assert (forall y, row_for q' (fr_req fr) y -> y = c) as Hmine.
    { intros y (j & b & r0 & d & s2 & Hin & Hf & Hv). destruct (decide (y = c)) as [->|Hne]; [done|].
      destruct (Hfold _ _ _ _ _ _ _ Hin Hne Hf) as [Hf' Hd]. symmetry. apply Hcid.
      apply (H3 t fr Hfrin (Hd eq_refl)). exists j, b, r0, d, s2. eauto. }
    assert (forall rq0 y, row_for q' rq0 y -> y <> c -> row_for (cur s) rq0 y) as Hother.
    { intros rq0 y (j & b & r0 & d & s2 & Hin & Hf & Hv) Hne. exists j, b, r0, d, s2.
      split_and!; [by eapply Hold| |done]. by eapply Hfold. }
    assert (forall rq0, row_for q' rq0 c -> equal_call veq rq0 (fr_req fr)) as Hits.
    { intros rq0 (j & b & r0 & d & s2 & Hin & Hf & Hv). destruct (Hrow _ _ _ Hin) as [[dp Hdp] Hb2 _ _]. simpl in Hdp, Hb2.
      split; [by eapply (wf_ginj _ _ _ Hw)|]. eapply (proj2 (proj2 Hveq)); [exact Hv|exact Hb2]. }
    assert (forall rq0 y, equal_call veq rq0 (fr_req fr) -> row_for q' rq0 y -> row_for q' (fr_req fr) y) as Hmove.
    { intros rq0 y [E1 E2] (j & b & r0 & d & s2 & Hin & Hf & Hv). exists j, b, r0, d, s2. split_and!; [done|by rewrite E1|].
      eapply (proj2 (proj2 Hveq)); [apply (proj1 (proj2 Hveq)); exact E2|exact Hv]. }
    assert (one_row q') as Hone.
    { intros x y rq0 Hx Hy. destruct (decide (x = c)) as [->|Hnx].
      - symmetry. apply Hmine. eapply Hmove; [by apply Hits|done].
      - destruct (decide (y = c)) as [->|Hny].
        + apply Hmine. eapply Hmove; [by apply Hits|done].
        + eapply H1; by apply Hother. }
    assert (exists lg', (forall ru0, ru0 ∈ lg' -> good (os ++ [OEnd t r]) ru0) /\ db_inv lg' q') as (lg' & Hlg' & Hdb').
    { exists (ru :: filter (fun ru0 => ~ (rq_fun (ru_req ru0) = rq_fun (fr_req fr) /\ veq (rq_bound (fr_req fr)) (rq_bound (ru_req ru0)) = true)) lg).
      split.
      - intros ru0 [->|[Hne Hin]%elem_of_list_filter]%elem_of_cons.
        + right. unfold s in Et. destruct (frames_began md5 BK s0 os H0 t [] fr frs Et) as (a & b & Hos & Hrun & Hn & Hbg & Hfd & _).
          exists t, a, b, []. unfold ru. cbn [ru_req ru_result ru_begin ru_digest]. split_and!; try done.
          * rewrite Hos at 1. by rewrite <- app_assoc.
          * split; [done|]. rewrite <- Hos. unfold depth at 1. rewrite Et. exact Hn.
          * intros c1 c2 Hnil. symmetry in Hnil. apply app_nil in Hnil as [-> ->].
            assert (a ++ OBegin t (fr_req fr) :: b ++ [OEnd t r] = os ++ [OEnd t r]) as -> by (rewrite Hos; by rewrite <- app_assoc). exact Hidle.
        + destruct (Hlg ru0 Hin) as [Hg|Hg].
          * left. apply Hbusy'; [exact Hg|]. done.
          * right. apply returned_snoc; [done|]. intros Hb0%Hbusy. by apply (returned_idle os ru0).
      - split; [done|]. intros y j b r0 Hin _. destruct (decide (y = c)) as [->|Hne].
        + exists ru. split; [by left|]. by apply Hrow.
        + destruct (He _ _ _ _ Hin) as (ru0 & Hru0 & Hen); [congruence|]. exists ru0. split; [|done].
          right. apply elem_of_list_filter. split; [|done]. intros [E1 E2]. apply Hne, Hmine.
          destruct Hen as [[dp Hdp] Hbv _ _]. rewrite E1 in Hdp. exists j, b, r0, (ru_digest ru0), dp. split_and!; [done|done|].
          eapply (proj2 (proj2 Hveq)); [exact E2|]. by apply (proj1 (proj2 Hveq)). }
    assert (cur s' = q' /\ base s' = q') as [Hcur Hbase] by (by rewrite Hs).
    split; fold s'; rewrite ?Hcur, ?Hbase; try done.
    - exists lg'. by split_and!.
    - intros t' fr' Hin Hd y Hy.
      assert (exists n, reqs s' t' !! n = Some (fr_req fr')) as [n Hn].
      { apply elem_of_list_lookup in Hin as [n Hn]. exists n. unfold reqs. by rewrite list_lookup_fmap, Hn. }
      assert (fr' ∈ thread s t') as Hin'.
      { rewrite Hs, thread_insert in Hin. destruct (decide (t = t')) as [<-|]; [rewrite Et; by right|done]. }
      apply (H3 t' fr' Hin' Hd). apply Hother; [done|]. intros ->. apply Hidle, busy_reqs. exists t', n, (fr_req fr').
      split; [done|]. apply equal_sym. by apply Hits.
    - intros t1 n1 rq1 t2 n2 rq2 Hn1 Hn2 Heq. destruct (H4 _ _ _ _ _ _ (Hat _ _ _ Hn1) (Hat _ _ _ Hn2) Heq) as [<- Hz].
      split; [done|]. destruct (decide (t = t1)); congruence.
  Qed.

  Lemma delete_one fn q : one_row q -> one_row (snd (s_delete_function fn q)).
  Proof.
    intros H x y rq Hx Hy. destruct (delete_function_rows fn q) as [Hd1 Hd2].
    eapply H; eapply row_for_less; eauto.
  Qed.
  Lemma linv_step os o : s_threads s0 = ∅ -> linv os -> inv (runs s0 os) -> calm veq md5 BK s0 (os ++ [o]) ->
    well_behaved (runs s0 os) o -> linv (os ++ [o]).
  Proof.
    intros H0 Hl Hinv [C1 C2 C3 C4] Hwb. pose proof (runs_snoc md5 BK s0 os o) as Hs.
    destruct o as [t rq|t xs xd g|t r|t|f ct m|f|dt| |funs|f|f]; simpl in Hs, Hwb.
    - apply linv_begin; try done. by eapply (C4 os t rq []).
    - assert (forall t', exists k : list frame -> list frame, thread (runs s0 (os ++ [OAddExt t xs xd g])) t' = k (thread (runs s0 os) t') /\
        forall l, fr_req <$> k l = fr_req <$> l /\ forall fr', fr' ∈ k l -> exists fr, fr ∈ l /\ fr_req fr' = fr_req fr /\ fr_prep fr' = fr_prep fr) as Hth.
      { intros t'. rewrite Hs. unfold add_ext. setoid_rewrite thread_insert. destruct (decide (t = t')) as [<-|Hn].
        2:{ exists (fun l => l). split; [done|]. intros l. split; [done|]. eauto. }
        exists (fun l => match l with [] => [] | fr :: frs => frame_add xs xd fr :: (if g then frs else frame_add xs xd <$> frs) end).
        split; [done|]. intros [|fr0 frs]; [split; [done|]; by intros ? ?%elem_of_nil|]. split.
        - rewrite !fmap_cons. f_equal. destruct g; [done|]. rewrite <- list_fmap_compose. by apply list_fmap_ext.
        - intros fr' [->|Hin]%elem_of_cons; [exists fr0; split; [by left|done]|]. destruct g.
          + exists fr'. split; [by right|done].
          + apply elem_of_list_fmap in Hin as (fr & -> & Hin). exists fr. split; [by right|done]. }
      assert (cur (runs s0 (os ++ [OAddExt t xs xd g])) = cur (runs s0 os) /\ base (runs s0 (os ++ [OAddExt t xs xd g])) = base (runs s0 os)) as [Hc Hb] by (by rewrite Hs).
      apply linv_move; rewrite ?Hc, ?Hb; try done; try apply Hl.
      + intros t'. unfold reqs. destruct (Hth t') as (k & -> & Hk). apply Hk.
      + intros t' fr'. destruct (Hth t') as (k & -> & Hk). apply Hk.
    - apply linv_end; try done. intros x. by apply (C1 os t r []).
    - unfold raise_call in Hs. rewrite (C2 os t [] eq_refl) in Hs. apply linv_shrink; rewrite ?Hs; try done. apply shrink_refl.
    - apply linv_shrink; rewrite ?Hs; try done. apply shrink_refl.
    - apply linv_shrink; rewrite ?Hs; try done. apply shrink_refl.
    - apply linv_shrink; rewrite ?Hs; try done. apply shrink_refl.
    - apply linv_move; rewrite ?Hs; simpl; try done; try apply Hl. eauto.
    - assert (forall t, thread (runs s0 os) t = []) as Hq by (by eapply (C3 os funs [])).
      assert (forall t, thread (runs s0 (os ++ [ORestart funs])) t = []) as Hq' by (intros t; rewrite Hs; unfold thread; simpl; by rewrite lookup_empty).
      apply linv_move; try done.
      + intros t. unfold reqs. by rewrite Hq, Hq'.
      + intros t fr'. rewrite Hq'. by intros ?%elem_of_nil.
      + intros lg H1 H2. rewrite Hs. simpl. destruct (k_version (s_db (runs s0 os))); simpl; [done|]. split; apply db_inv_empty.
      + rewrite Hs. simpl. destruct (k_version (s_db (runs s0 os))); simpl; [apply Hl|].
        intros x y rq (j & b & r & d & s2 & Hin & _). by apply elem_of_nil in Hin.
      + rewrite Hs. simpl. destruct (k_version (s_db (runs s0 os))); simpl; [apply Hl|].
        intros x y rq (j & b & r & d & s2 & Hin & _). by apply elem_of_nil in Hin.
      + intros t fr. rewrite Hq. by intros ?%elem_of_nil.
    - unfold on_cur in Hs. change (s_delete_function f (cur (runs s0 os))) with (@inr exn _ false, snd (s_delete_function f (cur (runs s0 os)))) in Hs.
      apply linv_move; rewrite ?Hs; cbn [fst s_db k_cur k_base]; try done.
      + eauto.
      + intros lg H1 H2. split; [|done]. by apply (delete_function_inv veq md5 F lg (s_env (runs s0 os))).
      + apply delete_one, Hl.
      + apply Hl.
      + intros t fr. by rewrite Hwb, elem_of_nil.
    - unfold on_cur in Hs. change (s_delete_file f (cur (runs s0 os))) with (@inr exn _ false, snd (s_delete_file f (cur (runs s0 os)))) in Hs.
      apply linv_shrink; rewrite ?Hs; cbn [fst s_db k_cur k_base]; try done. apply delete_file_shrink.
  Qed.

  Lemma calm_prefix os os' : calm veq md5 BK s0 (os ++ os') -> calm veq md5 BK s0 os.
  Proof.
    intros [C1 C2 C3 C4]. split.
    - intros a t r c x ->. apply (C1 a t r (c ++ os')). by rewrite <- app_assoc.
    - intros a t c ->. apply (C2 a t (c ++ os')). by rewrite <- app_assoc.
    - intros a funs c ->. apply (C3 a funs (c ++ os')). by rewrite <- app_assoc.
    - intros a t rq c ->. apply (C4 a t rq (c ++ os')). by rewrite <- app_assoc.
  Qed.
  Lemma calm_alone os : calm veq md5 BK s0 os -> errors_alone md5 BK s0 os.
  Proof. intros [C1 _ _ _] a t r x b Hos Hx. by destruct (C1 a t r b x Hos). Qed.
  Lemma history_prefix os os' : history_ok md5 BK F s0 (os ++ os') -> history_ok md5 BK F s0 os.
  Proof. clear. revert s0. induction os as [|o os IH]; intros s1; simpl; [done|]. intros (H1 & H2 & H3). split_and!; auto. Qed.
  Lemma history_last os o : history_ok md5 BK F s0 (os ++ [o]) -> well_behaved (runs s0 os) o.
  Proof. clear. revert s0. induction os as [|o' os IH]; intros s1; simpl; [tauto|]. intros (H1 & H2 & H3). auto. Qed.

  Lemma linv_all os : fresh conn_empty s0 -> fs_faithful F (s_env s0) -> history_ok md5 BK F s0 os ->
    calm veq md5 BK s0 os -> linv os.
  Proof.
    intros Hf Hfs. pose proof Hf as (Hdb & Hcs & Hth & Hlg). induction os as [|o os IH] using rev_ind; intros Hh Hc.
    - split; simpl; rewrite ?Hdb; simpl.
      + exists []. split; [by intros ? ?%elem_of_nil|]. split; apply db_inv_empty.
      + intros x y rq (j & b & r & d & s2 & Hin & _). by apply elem_of_nil in Hin.
      + intros x y rq (j & b & r & d & s2 & Hin & _). by apply elem_of_nil in Hin.
      + intros t fr. unfold thread. rewrite Hth, lookup_empty. by intros ?%elem_of_nil.
      + intros t1 n1 rq1 t2 n2 rq2. unfold reqs, thread. rewrite Hth, lookup_empty. done.
    - pose proof (history_prefix _ _ Hh) as Hh'. pose proof (calm_prefix _ _ Hc) as Hc'.
      apply linv_step; try done.
      + by apply IH.
      + apply inv_runs; [done|by apply inv_fresh|done|by apply calm_alone].
      + by apply history_last.
  Qed.

  Theorem hits_latest os t rq r srcs dsts : fresh conn_empty s0 -> fs_faithful F (s_env s0) -> history_ok md5 BK F s0 os ->
    calm veq md5 BK s0 (os ++ [OBegin t rq]) ->
    snd (step (runs s0 os) (OBegin t rq)) = RHit r srcs dsts -> hit_latest veq md5 BK s0 os rq r dsts.
  Proof.
    intros Hf Hfs Hh Hc Hhit. pose proof (calm_prefix _ _ Hc) as Hc'.
    destruct (li_rows _ (linv_all os Hf Hfs Hh Hc')) as (lg & Hlg & Hdb & _).
    destruct (hit_sound_in veq md5 F Hveq lg (runs s0 os) t rq r srcs dsts) as (ru & Hru & Hfn & Hv & Hr & Hdg & Hsrc); try done.
    { apply inv_runs; [done|by apply inv_fresh|done|by apply calm_alone]. }
    assert (equal_call veq rq (ru_req ru)) as Heq by done.
    destruct (Hlg ru Hru) as [Hb|(t' & a & b & c & Hos & Hrd & Hb & Hd & Hlast)].
    { exfalso. apply (cm_apart _ _ _ _ _ Hc os t rq [] eq_refl). destruct Hb as (t' & fr & Hin & He). exists t', fr. split; [done|].
      by eapply equal_trans. }
    destruct (outputs veq md5 (runs s0 os) t rq r srcs dsts Hhit) as (Ho1 & Ho2 & Ho3).
    exists t', (Occ a (ru_req ru) b (ru_result ru)). unfold latest, oc_end, oc_upto, oc_code, oc_fun.
    cbn [oc_before oc_req oc_during oc_result]. split_and!; try done.
    - exists c. split; [rewrite Hos at 1; by rewrite <- app_assoc|]. split; [done|].
      intros c1 c2 Hcc. rewrite <- app_assoc. by eapply Hlast.
    - by rewrite Hdg, <- Hb, <- Hd.
    - intros f H1 H2. rewrite <- Hb. by apply Hsrc.
    - intros f [H|H]; auto.
    - intros f Hin. pose proof (Ho3 f Hin) as Hex. split; [done|]. intros Honly.
      assert (runs s0 os = runs (runs s0 (a ++ OBegin t' (ru_req ru) :: b)) (OEnd t' (ru_result ru) :: c)) as Hsplit.
      { rewrite <- runs_app, <- app_assoc. by rewrite Hos at 1. }
      rewrite Hsplit in Hex |- *. apply file_stays; [|done].
      intros ct m [?|Hw]%elem_of_cons; [done|].
      apply elem_of_list_split in Hw as (c1 & c2 & Hcc).
      apply (Hlast c1 (OWrite f ct m :: c2) Hcc).
      destruct (Honly (a ++ OBegin t' (ru_req ru) :: b ++ OEnd t' (ru_result ru) :: c1) ct m c2) as (t2 & fr & Hfr & He).
      { rewrite Hos, Hcc. repeat (rewrite <- ?app_assoc; simpl). done. }
      exists t2, fr. split; [done|]. eapply equal_trans; [by apply equal_sym|done].
  Qed.
End Inv.
