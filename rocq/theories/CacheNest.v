(** A completed call, with the calls it made, is answered from the database as long as
    nothing it depends on changes, whatever other calls do in between. *)
From stdpp Require Import base list strings gmap.
From Coq Require Import ZArith Lia.
From Verif Require Import PyMonad DbModel DbSpec DbClaims CacheBackend CacheLift CacheFacts CacheProv
  CacheInv DbHistory CacheStep CacheDeps CacheComplete CacheNoop CacheGood CacheKept SqlSpec DbDelete DbRank.

(** *** The frame of a running call stays where it is *)
Section Stays.
  Context {V R : Type} (md5 : content -> digest).
  Context {S FunId CallId FileId : Type}.
  Context (BK : backend V R S FunId CallId FileId).
  Notation sys := (sys V R S FunId CallId FileId).
  Notation op := (op V R).
  Notation step := (step md5 BK).
  Notation runs := (runs md5 BK).

  Lemma frame_stays (s0 : sys) a t rq b p d :
    still_running md5 BK s0 t rq a b ->
    thread (runs s0 (a ++ [OBegin t rq])) t = Frame rq d p [] [] (s_env (runs s0 a)) :: thread (runs s0 a) t ->
    exists Y fr Z, thread (runs s0 (a ++ OBegin t rq :: b)) t = Y ++ fr :: Z /\ length Z = depth (runs s0 a) t /\
      fr_req fr = rq /\ fr_prep fr = p /\ fr_begin fr = s_env (runs s0 a).
  Proof.
    intros [Hr Hsr] Hth. induction b as [|o b IH] using rev_ind.
    { rewrite Hth. eexists [], _, _. split; [reflexivity|]. done. }
    destruct IH as (Y & fr & Z & Ht & HZ & Hq & Hp & Hb).
    { intros b1 b2 ->. apply (Hsr b1 (b2 ++ [o])). by rewrite <- app_assoc. }
    assert (depth (runs s0 a) t < depth (runs s0 (a ++ OBegin t rq :: b ++ [o])) t) as Hd.
    { apply (Hsr (b ++ [o]) []). by rewrite app_nil_r. }
    set (s := runs s0 (a ++ OBegin t rq :: b)) in *.
    replace (runs s0 (a ++ OBegin t rq :: b ++ [o])) with (fst (step s o)) in *
      by (unfold s; rewrite <- runs_snoc, <- app_assoc; done).
    pose proof (step_frames md5 BK s o t) as Hst. unfold frames_step in Hst.
    assert (forall l, thread s t = l -> thread (fst (step s o)) t = l ->
      exists Y fr Z, thread (fst (step s o)) t = Y ++ fr :: Z /\ length Z = depth (runs s0 a) t /\ fr_req fr = rq /\ fr_prep fr = p /\ fr_begin fr = s_env (runs s0 a)) as Hsame.
    { intros l H1 H2. exists Y, fr, Z. rewrite H2, <- H1, Ht. done. }
    assert (thread (fst (step s o)) t = tail (thread s t) ->
      exists Y fr Z, thread (fst (step s o)) t = Y ++ fr :: Z /\ length Z = depth (runs s0 a) t /\ fr_req fr = rq /\ fr_prep fr = p /\ fr_begin fr = s_env (runs s0 a)) as Htail.
    { intros H1. unfold depth in Hd at 2. rewrite H1, Ht in Hd. destruct Y as [|y Y]; simpl in Hd.
      - rewrite HZ in Hd. lia.
      - exists Y, fr, Z. rewrite H1, Ht. done. }
    destruct o as [t' rq'|t' xs xd g|t' r|t'| | | | | | |]; try exact (Hsame _ eq_refl Hst).
    - destruct (decide (t' = t)) as [->|]; [|exact (Hsame _ eq_refl Hst)].
      destruct Hst as [(_ & d' & p' & _ & Hst)|[_ Hst]]; [|exact (Hsame _ eq_refl Hst)].
      rewrite Hst, Ht. exists (Frame rq' d' p' [] [] (s_env s) :: Y), fr, Z. done.
    - destruct (decide (t' = t)) as [->|]; [|exact (Hsame _ eq_refl Hst)].
      rewrite Ht in Hst. destruct Y as [|y Y]; cbn [app] in Hst; rewrite Hst.
      + exists [], (frame_add xs xd fr), (if g then Z else frame_add xs xd <$> Z). split; [done|].
        split; [destruct g; by rewrite ?fmap_length|done].
      + destruct g.
        * exists (frame_add xs xd y :: Y), fr, Z. done.
        * rewrite fmap_app, fmap_cons. exists (frame_add xs xd y :: (frame_add xs xd <$> Y)), (frame_add xs xd fr), (frame_add xs xd <$> Z).
          by rewrite fmap_length.
    - destruct (decide (t' = t)) as [->|]; [auto|exact (Hsame _ eq_refl Hst)].
    - destruct (decide (t' = t)) as [->|]; [auto|exact (Hsame _ eq_refl Hst)].
    - unfold depth in Hd at 2. rewrite Hst in Hd. simpl in Hd. lia.
  Qed.

  Lemma unwinding_snoc t fl (s : sys) os o :
    unwinding md5 BK t fl s (os ++ [o]) =
    negb (Nat.eqb (depth (fst (step (runs s os) o)) t) 0) && (unwinding md5 BK t fl s os || fails md5 BK (runs s os) o).
  Proof. revert fl s. induction os as [|x os IH]; intros fl s; simpl; [done|]. by rewrite IH. Qed.
End Stays.

Section Nest.
  Context {V R : Type} (veq : V -> V -> bool) (md5 : content -> digest).
  Notation BK := (cache_backend (V := V) (R := R) veq md5).
  Notation core0 := (cache_core0 (R := R) veq).
  Notation cdb := (cdb V R).
  Notation frame := (frame V R name (name * nat) name).
  Notation sys := (sys V R (pdb V R) name (name * nat) name).
  Notation op := (op V R).
  Notation step := (step md5 BK).
  Notation runs := (runs md5 BK).
  Notation mem s := (p_mem (s_db s)).
  Notation disk s := (p_disk (s_db s)).
  Notation cf c := (callfile (c_callfiles c)).
  Notation digest_at := (digest_at md5).
  Notation known := (known (V := V) (R := R) md5).
  Notation files_ok := (files_ok (V := V) (R := R) md5).
  Notation kept := (kept veq md5).

  Context (rank : name -> nat) (t0 : nat).
  Notation ginv := (ginv rank t0).
  Notation binv := (binv rank t0).
  Notation fine := (fine rank t0).
  Notation views s := (view <$> thread s t0).

  Lemma ginv_other (s : sys) o :
    ginv s -> fine s o -> match o with OBegin _ _ | OEnd _ _ | ORaise _ => False | _ => True end ->
    ginv (fst (step s o)).
  Proof.
    intros (es & junk & Hcs & Hst) [Hon Hwb _ _] Hno.
    pose proof (step_functions veq md5 s o) as Hfun. cbv zeta in Hfun.
    pose proof (step_efun veq md5 s o) as Hef.
    pose proof (step_callstack veq md5 s o) as Hcs'.
    pose proof (views_step veq md5 t0 s o Hon) as Hv.
    assert (c_functions (mem (fst (step s o))) = c_functions (mem s) -> e_fun (s_env (fst (step s o))) = e_fun (s_env s) ->
      s_callstack (fst (step s o)) = s_callstack s -> views (fst (step s o)) = views s -> ginv (fst (step s o))) as Hsame.
    { intros H1 H2 H3 H4. exists es, junk. rewrite H1, H2, H3, H4. done. }
    destruct o as [t' rq|t' xs xd g|t' r|t'|f ct m|f|dt| |funs|f|f]; try done;
      try (apply Hsame; [|done|done|done]; apply map_eq; exact Hfun).
    - apply ginv_empty. unfold depth. by destruct (thread _ t0).
    - apply ginv_empty. unfold depth. pose proof (Hwb t0) as Hq. rewrite Hq in Hv. by destruct (thread _ t0).
  Qed.

  (** The invariants along a history. *)
  Lemma history_good (s0 : sys) os :
    fresh pdb_empty s0 -> trusted veq md5 s0 os ->
    (forall a o b, os = a ++ o :: b -> fine (runs s0 a) o) -> uncaught md5 BK t0 s0 os ->
    binv (runs s0 os) /\ (unwinding md5 BK t0 false s0 os = false -> ginv (runs s0 os)).
  Proof.
    intros Hf. induction os as [|o os IH] using rev_ind; intros Ht Hfine Hun.
    { destruct (binv_fresh rank t0 s0 Hf) as [H1 H2]. done. }
    apply trusted_app in Ht as [Ht _].
    destruct IH as [IB IG]; [done| | |].
    { intros a o' b ->. apply (Hfine a o' (b ++ [o])). by rewrite <- app_assoc. }
    { intros a o' b -> H. apply (Hun a o' (b ++ [o])); [by rewrite <- app_assoc|done]. }
    specialize (Hfine os o [] eq_refl). specialize (Hun os o [] eq_refl).
    rewrite runs_snoc, unwinding_snoc. set (s := runs s0 os) in *.
    assert (inv md5 s) as Hinv by (apply (inv_runs veq); [by apply inv_fresh|done]).
    assert (forall x, Nat.eqb (depth (fst (step s o)) t0) 0 = true \/ x -> (depth (fst (step s o)) t0 = 0) \/ x) as Hz.
    { intros x [H|H]; [left; by apply Nat.eqb_eq|by right]. }
    assert (forall P : Prop, P -> (fails md5 BK s o = false -> unwinding md5 BK t0 false s0 os = false -> ginv (fst (step s o))) ->
      P /\ (negb (Nat.eqb (depth (fst (step s o)) t0) 0) && (unwinding md5 BK t0 false s0 os || fails md5 BK s o) = false -> ginv (fst (step s o)))) as Hcomb.
    { intros P HP HG. split; [done|]. destruct (Nat.eqb_spec (depth (fst (step s o)) t0) 0) as [He|He]; simpl.
      - intros _. by apply ginv_empty.
      - intros [H1 H2]%orb_false_iff. by apply HG. }
    pose proof (fo_thread _ _ _ _ Hfine) as Hon.
    destruct (unwinding md5 BK t0 false s0 os) eqn:Eu.
    - specialize (Hun eq_refl). apply Hcomb; [|done]. apply binv_other; [done|done|]. by destruct o.
    - specialize (IG eq_refl).
      destruct o as [t' rq|t' xs xd g|t' r|t'|f ct m|f|dt| |funs|f|f];
        try (apply Hcomb; [by apply binv_other|]; intros Hfl _; first [done|by apply ginv_other]).
      + simpl in Hon. subst t'. apply Hcomb.
        * destruct IB as [Ho Hm Hd]. split; [by apply others_step| |].
          -- intros h d L g. pose proof (step_functions veq md5 s (OBegin t0 rq) h) as Hfun. cbv zeta beta iota in Hfun.
             rewrite Hfun. apply Hm.
          -- pose proof (step_disk veq md5 s (OBegin t0 rq)) as Hdk. cbv beta iota in Hdk. by rewrite Hdk.
        * intros Hfl _. by apply ginv_begin.
      + simpl in Hon. subst t'. destruct (thread s t0) as [|fr frs] eqn:Et.
        * assert (fst (step s (OEnd t0 r)) = s) as He by (simpl; unfold end_call; by rewrite Et).
          rewrite He in *. by apply Hcomb.
        * destruct (ginv_end veq md5 rank t0 s r fr frs Hinv IB IG Et) as (_ & HG & HB). by apply Hcomb.
  Qed.

  (** *** While the call runs *)
  Lemma during (s0 : sys) a rq b d p c :
    fresh pdb_empty s0 -> trusted veq md5 s0 (a ++ OBegin t0 rq :: b) ->
    (forall x o y, a ++ OBegin t0 rq :: b = x ++ o :: y -> fine (runs s0 x) o) ->
    uncaught md5 BK t0 s0 (a ++ OBegin t0 rq :: b) ->
    still_running md5 BK s0 t0 rq a b ->
    e_fun (s_env (runs s0 a)) !! rq_fun rq = Some d ->
    prepare md5 core0 (s_env (runs s0 a)) (rq_fun rq) (rq_bound rq) (rq_srcs rq) (mem (runs s0 a)) = (inr p, c) ->
    fst (step (runs s0 a) (OBegin t0 rq)) =
      Sys (s_env (runs s0 a)) (Pdb c (p_disk (s_db (runs s0 a)))) ([] :: note_callee (rq_fun rq) (s_callstack (runs s0 a)))
            (<[t0 := Frame rq d p [] [] (s_env (runs s0 a)) :: thread (runs s0 a) t0]> (s_threads (runs s0 a))) (s_log (runs s0 a)) ->
    (forall f, f ∈ rq_srcs rq -> ODelFile f ∉ b) ->
    let s1 := runs s0 (a ++ OBegin t0 rq :: b) in
    same_records (rq_fun rq) c (mem s1) /\
    (forall f, f ∈ rq_srcs rq -> digest_at (s_env s1) f = digest_at (s_env (runs s0 a)) f) /\
    (forall f, f ∈ rq_srcs rq -> known (s_env s1) (mem s1) f /\ forall i, cf (mem s1) f (rq_fun rq) i = cf c f (rq_fun rq) i) /\
    exists Y fr Z, thread s1 t0 = Y ++ fr :: Z /\ length Z = depth (runs s0 a) t0 /\
      fr_req fr = rq /\ fr_prep fr = p.
  Proof.
    intros Hf. induction b as [|o b IH] using rev_ind; intros Htr Hfine Hun Hsr Hd Hp Hst Hdel s1.
    - assert (s1 = fst (step (runs s0 a) (OBegin t0 rq))) as Hs1 by (unfold s1; by rewrite runs_snoc).
      apply trusted_app in Htr as [Htr _]. pose proof (trusted_end _ _ _ _ Htr) as Hok.
      pose proof (prepare_looks veq md5 _ _ _ _ _ _ _ Hok Hp) as (Hsh & Hkn & _).
      rewrite Hs1, Hst. split_and!; try done.
      + intros f Hf'. split; [by apply Hkn|done].
      + rewrite thread_insert, decide_True by done. eexists [], _, _. split; [reflexivity|]. done.
    - assert (a ++ OBegin t0 rq :: b ++ [o] = (a ++ OBegin t0 rq :: b) ++ [o]) as Heq by by rewrite <- app_assoc.
      assert (still_running md5 BK s0 t0 rq a b) as Hsr'.
      { destruct Hsr as [? Hsr]. split; [done|]. intros b1 b2 ->. apply (Hsr b1 (b2 ++ [o])). by rewrite <- app_assoc. }
      rewrite Heq in Htr, Hun.
      pose proof Htr as Htr0. apply trusted_app in Htr as [Htr Hlast].
      destruct IH as (Hsame & Hdig & Hfiles & Y & fr & Z & Hth & HZ & Hrq & Hpr); try done.
      { intros x o' y Hx. apply (Hfine x o' (y ++ [o])). rewrite Heq, Hx. by rewrite <- app_assoc. }
      { intros x o' y Hx. apply (Hun x o' (y ++ [o])). by rewrite Hx, <- app_assoc. }
      { intros f Hf' Hin. apply (Hdel f Hf'). apply elem_of_app. by left. }
      destruct (history_good s0 (a ++ OBegin t0 rq :: b) Hf Htr) as [HB HG].
      { intros x o' y Hx. apply (Hfine x o' (y ++ [o])). rewrite Heq, Hx. by rewrite <- app_assoc. }
      { intros x o' y Hx. apply (Hun x o' (y ++ [o])). by rewrite Hx, <- app_assoc. }
      specialize (Hun _ o [] eq_refl). specialize (Hfine _ o [] Heq).
      pose proof (trusted_end _ _ _ _ Htr) as Hok.
      assert (inv md5 (runs s0 (a ++ OBegin t0 rq :: b))) as Hinv by (apply (inv_runs veq); [by apply inv_fresh|done]).
      assert (inv md5 s1) as Hinv1 by (unfold s1; rewrite Heq; apply (inv_runs veq); [by apply inv_fresh|done]).
      destruct (frame_stays md5 BK s0 a t0 rq (b ++ [o]) p d) as (Y1 & fr1 & Z1 & Hth1 & HZ1 & Hrq1 & Hpr1 & Hbg1); [done| |].
      { rewrite runs_snoc, Hst. by rewrite thread_insert, decide_True. }
      fold s1 in Hth1.
      assert (forall f, f ∈ rq_srcs rq -> digest_at (s_env s1) f = digest_at (s_env (runs s0 a)) f) as Hdig1.
      { intros f Hf'. rewrite <- Hbg1. symmetry. eapply fi_stable; [apply (in_frames _ _ Hinv1 t0 fr1)|by rewrite Hrq1].
        rewrite Hth1. apply elem_of_app. right. by left. }
      assert (s1 = fst (step (runs s0 (a ++ OBegin t0 rq :: b)) o)) as Hs1 by (unfold s1; by rewrite Heq, runs_snoc).
      set (s := runs s0 (a ++ OBegin t0 rq :: b)) in *.
      (* what the operation is about is another function *)
      assert (forall funs, o <> ORestart funs) as Hnr.
      { intros funs ->. destruct Hsr as [_ Hsr]. specialize (Hsr (b ++ [ORestart funs]) []). rewrite app_nil_r in Hsr.
        specialize (Hsr eq_refl). fold s1 in Hsr. pose proof (step_frames md5 BK s (ORestart funs) t0) as Hst1. unfold frames_step in Hst1.
        rewrite <- Hs1 in Hst1. unfold depth in Hsr at 2. rewrite Hst1 in Hsr. simpl in Hsr. lia. }
      assert (forall g, o <> ODelFun g) as Hnd.
      { intros g ->. pose proof (fo_wb _ _ _ _ Hfine t0) as Hq. rewrite Hth in Hq. by destruct Y. }
      assert (unwinding md5 BK t0 false s0 (a ++ OBegin t0 rq :: b) = false -> forall y Y', Y = y :: Y' -> rq_fun (fr_req y) <> rq_fun rq) as Hne.
      { intros Hu y Y' ->. destruct (HG Hu) as (es & junk & _ & Hsk). rewrite Hth in Hsk. simpl in Hsk.
        rewrite fmap_app in Hsk. pose proof (stack_ranks _ _ _ _ _ _ _ _ _ Hsk (view fr)) as Hr.
        simpl in Hr. rewrite Hrq in Hr. intros He. rewrite He in Hr.
        assert (rank (rq_fun rq) < rank (rq_fun rq)); [|lia]. apply Hr. apply elem_of_app. right. by left. }
      assert (match o with OEnd _ _ => exists y Y', Y = y :: Y' | _ => True end) as Hend.
      { destruct o as [t' rq'|t' xs xd g|t' r|t'| | | | | | |]; try done.
        pose proof (fo_thread _ _ _ _ Hfine) as Hon. simpl in Hon. subst t'. destruct Y as [|y Y]; [|eauto]. exfalso.
        pose proof (step_frames md5 BK s (OEnd t0 r) t0) as Hst1. unfold frames_step in Hst1. rewrite decide_True in Hst1 by done.
        rewrite <- Hs1, Hth, Hth1 in Hst1. simpl in Hst1. apply (f_equal length) in Hst1. rewrite app_length in Hst1. simpl in Hst1. lia. }
      assert (forall i, spares s o (rq_fun rq) i) as Hsp.
      { intros i. destruct o as [t' rq'|t' xs xd g|t' r|t'| | | | | |g|]; try done.
        - pose proof (fo_thread _ _ _ _ Hfine) as Hon. simpl in Hon. subst t'. destruct Hend as (y & Y' & ->).
          intros fr' frs'. rewrite Hth. simpl. intros [= <- <-]. left.
          eapply (Hne); [|reflexivity]. by destruct (unwinding _ _ _ _ _ _); [destruct (Hun eq_refl)|].
        - by edestruct Hnr.
        - by edestruct Hnd. }
      split_and!.
      + (* records *)
        assert (match o with OEnd _ _ => True | _ => same_records (rq_fun rq) (mem s) (mem s1) end) as Hother.
        { rewrite Hs1. destruct o as [t' rq'|t' xs xd g|t' r|t'| | | | | |g|]; try done.
          - destruct (begin_mem veq md5 s t' rq' Hok) as [[S1 S2 S3 S4 _ _] _]. unfold same_records. by rewrite S1, S2, S3, S4.
          - simpl. unfold raise_call. by destruct (thread s t').
          - by edestruct Hnr.
          - by edestruct Hnd. }
        assert (same_records (rq_fun rq) (mem s) (mem s1)) as Hss.
        { destruct o as [t' rq'|t' xs xd g|t' r|t'| | | | | |g|]; try exact Hother. rewrite Hs1.
          apply frame_step; [by apply pinv_runs, pinv_fresh|done|].
          pose proof (fo_thread _ _ _ _ Hfine) as Hon. simpl in Hon. subst t'. destruct Hend as (y & Y' & ->).
          simpl. rewrite Hth. simpl. intros [= He]. eapply Hne; [|reflexivity|exact He].
          by destruct (unwinding _ _ _ _ _ _); [destruct (Hun eq_refl)|]. }
        destruct Hsame as (A1 & A2 & A3 & A4), Hss as (B1 & B2 & B3 & B4). unfold same_records. split_and!; congruence.
      + exact Hdig1.
      + intros f Hf'. destruct (Hfiles f Hf') as [Hk Hc].
        assert (forall i, known (s_env s1) (mem s1) f /\ cf (mem s1) f (rq_fun rq) i = cf (mem s) f (rq_fun rq) i) as Hi.
        { intros i. rewrite Hs1. apply step_file; try done.
          - rewrite <- Hs1. by rewrite Hdig1, Hdig.
          - intros ->. apply (Hdel f Hf'). apply elem_of_app. right. by left. }
        split; [apply (Hi 0)|]. intros i. destruct (Hi i) as [_ ->]. apply Hc.
      + exists Y1, fr1, Z1. done.
  Qed.
  (** *** Afterwards *)
  Section After.
    Context (fn : name) (bd : V) (srcs xs xd : list name) (i : nat) (r : R) (funs : gmap name digest).
    Context (Hveq : equivalence_test veq).

    Record alive (saved : bool) (s : sys) : Prop := Alive {
      al_good : good (c_functions (mem s)) (e_fun (s_env s)) (writes (views s)) fn;
      al_kept : kept (s_env s) (mem s) fn bd srcs xs xd i r;
      al_frames : forall fr, fr ∈ thread s t0 -> rq_fun (fr_req fr) = fn ->
        pr_fun_dirty (fr_prep fr) = false /\ veq bd (rq_bound (fr_req fr)) = false /\
        pr_call_id (fr_prep fr) <> Some (fn, i);
      al_funs : forall g, rank g <= rank fn -> e_fun (s_env s) !! g = funs !! g;
      al_disk : saved = true ->
        good (c_functions (disk s)) funs (fun _ => False) fn /\ kept (s_env s) (disk s) fn bd srcs xs xd i r
    }.

    (** Everything [fn] depends on has at most its rank. *)
    Lemma good_low (c c' : cdb) ef ef' (D D' : name -> Prop) :
      lower rank c ->
      (forall k, good (c_functions c) ef D k -> rank k <= rank fn ->
         c_functions c' !! k = c_functions c !! k /\ ef' !! k = ef !! k /\ ~ D' k) ->
      good (c_functions c) ef D fn -> good (c_functions c') ef' D' fn.
    Proof.
      intros Hl H Hg. eapply (good_change (fun k => rank k <= rank fn)); [exact H| |exact Hg|lia].
      intros h d L k Hh Hrow Hk. specialize (Hl _ _ _ _ Hrow Hk). lia.
    Qed.

    Lemma alive_step saved (s : sys) o :
      inv md5 s -> files_ok (s_env s) (mem s) -> binv s -> fine s o ->
      match o with OBegin _ _ | OEnd _ _ => ginv s | _ => True end ->
      (forall f, f ∈ srcs \/ f ∈ xs -> digest_at (s_env (fst (step s o))) f = digest_at (s_env s) f) ->
      (forall f, f ∈ srcs \/ f ∈ xs -> o <> ODelFile f) ->
      (forall rq', o = OBegin t0 rq' -> rq_fun rq' = fn -> veq bd (rq_bound rq') = true -> snd (step s o) <> RRun) ->
      match o with
      | ODelFun g => rank fn < rank g
      | ORestart funs' => saved = true /\ forall g, rank g <= rank fn -> funs' !! g = funs !! g
      | _ => True
      end ->
      alive saved s -> alive (match o with OSave => true | _ => saved end) (fst (step s o)).
    Proof.
      intros Hinv Hok HB Hfine HG Hdig Hdel Hnorun Hund [Jg Jk Jf Jfu Jd].
      pose proof HB as [Ho Hm Hdk].
      pose proof (fo_thread _ _ _ _ Hfine) as Hon.
      pose proof (views_step veq md5 t0 s o Hon) as Hv.
      pose proof (step_efun veq md5 s o) as Hef.
      pose proof (step_disk veq md5 s o) as Hdisk.
      pose proof (step_functions veq md5 s o) as Hfun. cbv zeta in Hfun.
      assert (saved = true -> good (c_functions (disk s)) funs (fun _ => False) fn /\
        kept (s_env (fst (step s o))) (disk s) fn bd srcs xs xd i r) as Jd'.
      { intros Hs. destruct (Jd Hs) as [H1 H2]. split; [done|]. eapply kept_env; [exact Hdig|done]. }
      (* operations that touch neither the function table nor the frames of fn *)
      assert (c_functions (mem (fst (step s o))) = c_functions (mem s) -> e_fun (s_env (fst (step s o))) = e_fun (s_env s) ->
        views (fst (step s o)) = views s ->
        good (c_functions (mem (fst (step s o)))) (e_fun (s_env (fst (step s o)))) (writes (views (fst (step s o)))) fn) as Gsame.
      { intros -> -> ->. done. }
      assert (spares s o fn i -> (forall t r' fr frs, o = OEnd t r' -> thread s t = fr :: frs -> rq_fun (fr_req fr) = fn ->
         veq bd (rq_bound (fr_req fr)) = false) -> kept (s_env (fst (step s o))) (mem (fst (step s o))) fn bd srcs xs xd i r) as Kstep.
      { intros H1 H2. by apply step_kept. }
      pose proof (step_frames md5 BK s o t0) as Hfr. unfold frames_step in Hfr.
      destruct o as [t' rq|t' ys yd g|t' r'|t'|f ct m|f|dt| |funs'|f|f]; simpl in Hon; try subst t'.
      - (* OBegin *)
        rewrite decide_True in Hfr by done.
        assert (c_functions (mem (fst (step s (OBegin t0 rq)))) = c_functions (mem s)) as Hfu by (apply map_eq; exact Hfun).
        assert (rank (rq_fun rq) < e_limit (s_env s)) as Hlim by (by eapply (fo_limit _ _ _ _ Hfine)).
        split.
        + rewrite Hfu, Hef. destruct Hv as [(Hrun & d & p & c & Hd & Hp & Hv)|[_ Hv]]; [|by rewrite Hv].
          rewrite Hv. eapply good_low; [exact Hm| |exact Jg]. intros k Hk _. split_and!; [done|done|].
          unfold writes. intros [[= -> Hpd]|Hin]%elem_of_cons; [|by destruct Hk].
          destruct (prepare_dirty veq md5 _ _ _ _ Hp) as [fid Hck].
          pose proof (good_check veq rank _ _ _ _ _ Hm Hk Hlim) as H. congruence.
        + by apply Kstep.
        + intros fr Hin He. destruct Hfr as [(Hrun & _)|[_ Hfr]]; [|rewrite Hfr in Hin; by apply Jf].
          destruct (begin_run veq md5 s t0 rq Hrun) as (d & p & c & Hd & Hp & Hs').
          rewrite Hs', thread_insert, decide_True in Hin by done.
          apply elem_of_cons in Hin as [->|Hin]; [|by apply Jf]. simpl in He |- *.
          destruct (prepare_dirty veq md5 _ _ _ _ Hp) as [fid Hck].
          assert (pr_fun_dirty p = false) as Hcl.
          { rewrite He in Hck, Hlim. pose proof (good_check veq rank _ _ _ _ _ Hm Jg Hlim) as H. congruence. }
          assert (veq bd (rq_bound rq) = false) as Hvf.
          { destruct (veq bd (rq_bound rq)) eqn:E; [|done]. by destruct (Hnorun rq eq_refl He E). }
          split_and!; [done|done|]. intros Hcid.
          destruct (prepare_found veq md5 _ _ _ _ _ _ _ Hp) as [_ Hfound].
          destruct (Hfound Hcl) as [_ Hf2]. rewrite Hcid in Hf2. destruct Hf2 as (_ & ds & r0 & Hds & Hse).
          rewrite He in Hds. destruct (kp_call _ _ _ _ _ _ _ _ _ _ _ Jk) as (ds2 & Hds2 & Hse2).
          rewrite Hds in Hds2. injection Hds2 as <-.
          apply search_call_spec in Hse as (k & b1 & -> & Hk1 & Hv1).
          apply search_call_spec in Hse2 as (k2 & b2 & Hk & Hk2 & Hv2). simpl in Hk. subst k2.
          rewrite Hk1 in Hk2. injection Hk2 as <- _. destruct Hveq as (_ & Hsym & Htrans).
          apply Hsym in Hv1. rewrite (Htrans _ _ _ Hv2 Hv1) in Hvf. done.
        + by rewrite Hef.
        + by rewrite Hdisk.
      - (* OAddExt *)
        rewrite decide_True in Hfr by done. split.
        + apply Gsame; [apply map_eq; exact Hfun|done|done].
        + by apply Kstep.
        + intros fr Hin He. destruct (thread s t0) as [|fr0 frs] eqn:Et; rewrite Hfr in Hin; [by apply elem_of_nil in Hin|].
          apply elem_of_cons in Hin as [->|Hin]; [by apply (Jf fr0); [left|]|].
          destruct g; [by apply Jf; [right|]|]. apply elem_of_list_fmap in Hin as (fr' & -> & Hin).
          by apply (Jf fr'); [right|].
        + done.
        + done.
      - (* OEnd *)
        rewrite decide_True in Hfr by done.
        destruct (thread s t0) as [|fr frs] eqn:Et.
        { assert (fst (step s (OEnd t0 r')) = s) as -> by (simpl; unfold end_call; by rewrite Et). split; try done; by rewrite ?Et. }
        split.
        + rewrite Hef, Hv. destruct (s_callstack s) as [|deps cs] eqn:Ecs.
          { destruct HG as (es & junk & H1 & H2). rewrite Et, Ecs in *. destruct es; done. }
          eapply good_low; [exact Hm| |exact Jg]. intros k [d L _ _ HD _] _. split_and!; [|done|].
          * specialize (Hfun k). destruct (decide _) as [[Hx <-]|Hx]; [|done]. exfalso. apply HD. unfold writes, view. simpl. rewrite Hx. by left.
          * intros Hk. apply HD. unfold writes. simpl. by right.
        + apply Kstep.
          * intros fr' frs'. rewrite Et. intros [= <- <-]. destruct (decide (rq_fun (fr_req fr) = fn)) as [He|Hn]; [right|by left].
            destruct (Jf fr) as (J1 & J2 & J3); [by left|done|]. split_and!; [done|done|].
            destruct (kp_call _ _ _ _ _ _ _ _ _ _ _ Jk) as (ds & Hds & Hse). exists ds. split; [done|].
            apply search_call_spec in Hse as (k & b1 & -> & Hk1 & _). by apply lookup_lt_Some in Hk1.
          * intros t r1 fr' frs' [= <- <-]. rewrite Et. intros [= <- <-] He. by apply (Jf fr); [left|].
        + intros fr' Hin He. rewrite Hfr in Hin. simpl in Hin. by apply Jf; [right|].
        + by rewrite Hef.
        + by rewrite Hdisk.
      - (* ORaise *)
        rewrite decide_True in Hfr by done. split.
        + rewrite Hef, Hv. eapply good_low; [exact Hm| |exact Jg]. intros k [d L _ _ HD _] _. split_and!; [by rewrite Hfun|done|].
          intros Hk. apply HD. unfold writes in *. destruct (views s); [done|]. by right.
        + by apply Kstep.
        + intros fr' Hin He. rewrite Hfr in Hin. apply Jf; [|done]. destruct (thread s t0); [done|]. by right.
        + by rewrite Hef.
        + by rewrite Hdisk.
      - split; try done. by apply Kstep.
      - split; try done. by apply Kstep.
      - split; try done. by apply Kstep.
      - (* OSave *)
        split; try done. intros _. rewrite Hdisk. split; [|done].
        eapply good_low; [exact Hm| |exact Jg]. intros k _ Hk. split_and!; [done| |auto]. symmetry. by apply Jfu.
      - (* ORestart *)
        destruct Hund as [Hs Hfs]. destruct (Jd' Hs) as [Jd1 Jd2].
        assert (mem (fst (step s (ORestart funs'))) = disk s) as Hmem by done.
        split.
        + rewrite Hmem, Hef, Hv. eapply good_low; [exact Hdk| |exact Jd1]. intros k _ Hk. split_and!; [done|by apply Hfs|].
          by intros ?%elem_of_nil.
        + by rewrite Hmem.
        + intros fr. rewrite Hfr. by intros ?%elem_of_nil.
        + by rewrite Hef.
        + done.
      - (* ODelFun *)
        split; try done.
        + rewrite Hef, Hv. eapply good_low; [exact Hm| |exact Jg]. intros k [d L _ _ HD _] Hk. split_and!; [|done|done].
          specialize (Hfun k). rewrite decide_False in Hfun; [done|]. intros ->. lia.
        + apply Kstep; [|done]. simpl. intros ->. lia.
      - (* ODelFile *)
        split; try done. by apply Kstep.
    Qed.

    Lemma alive_runs saved (s0 : sys) p c :
      fresh pdb_empty s0 -> trusted veq md5 s0 (p ++ c) ->
      (forall x o y, p ++ c = x ++ o :: y -> fine (runs s0 x) o) -> uncaught md5 BK t0 s0 (p ++ c) ->
      (forall c1 c2 f, c = c1 ++ c2 -> f ∈ srcs \/ f ∈ xs ->
         digest_at (s_env (runs s0 (p ++ c1))) f = digest_at (s_env (runs s0 p)) f) ->
      (forall f, f ∈ srcs \/ f ∈ xs -> ODelFile f ∉ c) ->
      (forall c1 rq' c2, c = c1 ++ OBegin t0 rq' :: c2 -> rq_fun rq' = fn -> veq bd (rq_bound rq') = true ->
         snd (step (runs s0 (p ++ c1)) (OBegin t0 rq')) <> RRun) ->
      undisturbed rank fn funs saved c -> alive saved (runs s0 p) ->
      exists saved', alive saved' (runs s0 (p ++ c)).
    Proof.
      intros Hf. revert saved p. induction c as [|o c IH]; intros saved p Htr Hfine Hun Hdig Hdel Hnr Hund Hal.
      { rewrite app_nil_r. eauto. }
      destruct Hund as [Hund1 Hund].
      assert (p ++ o :: c = (p ++ [o]) ++ c) as Heq by by rewrite <- app_assoc.
      pose proof Htr as Htr1. apply trusted_app in Htr1 as [Htr1 _].
      destruct (history_good s0 p Hf Htr1) as [HB HG].
      { intros x o' y Hx. apply (Hfine x o' (y ++ o :: c)). rewrite Hx. by rewrite <- app_assoc. }
      { intros x o' y Hx. apply (Hun x o' (y ++ o :: c)). rewrite Hx. by rewrite <- app_assoc. }
      rewrite Heq in *. eapply IH; try done.
      - intros c1 c2 f Hc Hin. rewrite <- app_assoc. simpl. rewrite (Hdig (o :: c1) c2) by (by rewrite ?Hc).
        symmetry. apply (Hdig [o] c); done.
      - intros f Hin Hd. apply (Hdel f Hin). by right.
      - intros c1 rq' c2 Hc. rewrite <- app_assoc. simpl. apply (Hnr (o :: c1) rq' c2). by rewrite Hc.
      - rewrite runs_snoc. apply alive_step; try done.
        + apply (inv_runs veq); [by apply inv_fresh|done].
        + by apply trusted_end.
        + apply (Hfine p o c). by rewrite <- app_assoc.
        + specialize (Hun p o c). rewrite <- app_assoc in Hun. specialize (Hun eq_refl).
          destruct o; try done; apply HG; by destruct (unwinding _ _ _ _ _ _); [destruct (Hun eq_refl)|].
        + intros f Hin. rewrite <- runs_snoc. apply (Hdig [o] c); done.
        + intros f Hin ->. apply (Hdel f Hin). by left.
        + intros rq' -> He Hv. specialize (Hnr [] rq' c eq_refl He Hv). by rewrite app_nil_r in Hnr.
    Qed.
  End After.

  (** *** The theorem *)
  Lemma nested_noop (s0 : sys) a rq b r c srcs dsts t' :
    equivalence_test veq -> fresh pdb_empty s0 ->
    let h := a ++ OBegin t0 rq :: b ++ OEnd t0 r :: c in
    let s1 := runs s0 (a ++ OBegin t0 rq :: b) in
    let s2 := runs s0 h in
    trusted veq md5 s0 h -> (forall x o y, h = x ++ o :: y -> fine (runs s0 x) o) -> uncaught md5 BK t0 s0 h ->
    runs_during md5 BK s0 t0 rq a b ->
    (forall f, f ∈ rq_srcs rq -> ODelFile f ∉ b) ->
    snd (step s1 (OEnd t0 r)) = RDone r srcs dsts ->
    undisturbed rank (rq_fun rq) (e_fun (s_env s1)) false c ->
    (forall f, f ∈ srcs -> ODelFile f ∉ c) ->
    (forall c1 c2 f, c = c1 ++ c2 -> f ∈ srcs ->
       digest_at (s_env (runs s0 (a ++ OBegin t0 rq :: b ++ OEnd t0 r :: c1))) f = digest_at (s_env s1) f) ->
    (forall c1 rq' c2, c = c1 ++ OBegin t0 rq' :: c2 -> rq_fun rq' = rq_fun rq ->
       veq (rq_bound rq) (rq_bound rq') = true ->
       snd (step (runs s0 (a ++ OBegin t0 rq :: b ++ OEnd t0 r :: c1)) (OBegin t0 rq')) <> RRun) ->
    (forall f, f ∈ dsts -> is_Some (e_fs (s_env s2) !! f)) ->
    snd (step s2 (OBegin t' rq)) = RHit r srcs dsts /\
    c_calls (mem (fst (step s2 (OBegin t' rq)))) = c_calls (mem s2).
  Proof.
    intros Hveq Hf h s1 s2 Htr Hfine Hun [Hsr Hdp] Hdelb Hdone Hund Hdelc Hdig Hnr Hdsts.
    set (p1 := a ++ OBegin t0 rq :: b) in *.
    assert (h = p1 ++ OEnd t0 r :: c) as Hh by (unfold h, p1; rewrite <- app_assoc; done).
    assert (h = (p1 ++ [OEnd t0 r]) ++ c) as Hh2 by (rewrite Hh; by rewrite <- app_assoc).
    assert (trusted veq md5 s0 p1) as Htr1 by (rewrite Hh in Htr; by apply trusted_app in Htr as [? _]).
    assert (trusted veq md5 s0 a) as Htra by (by apply trusted_app in Htr1 as [? _]).
    assert (forall x o y, p1 = x ++ o :: y -> fine (runs s0 x) o) as Hfine1.
    { intros x o y Hx. apply (Hfine x o (y ++ OEnd t0 r :: c)). rewrite Hh, Hx. by rewrite <- app_assoc. }
    assert (uncaught md5 BK t0 s0 p1) as Hun1.
    { intros x o y Hx. apply (Hun x o (y ++ OEnd t0 r :: c)). rewrite Hh, Hx. by rewrite <- app_assoc. }
    pose proof Hsr as [Hrun _].
    destruct (begin_run veq md5 (runs s0 a) t0 rq Hrun) as (d & p & cb & Hd & Hp & Hst).
    destruct (during s0 a rq b d p cb Hf Htr1 Hfine1 Hun1 Hsr Hd Hp Hst Hdelb) as (Hsame & Hsd & Hsf & Y & fr & Z & Hth & HZ & Hrq & Hpr).
    fold p1 in Hsame, Hsd, Hsf, Hth, Hdp. fold s1 in Hsame, Hsd, Hsf, Hth, Hdp.
    assert (Y = []) as ->. { unfold depth in Hdp at 1. rewrite Hth, app_length in Hdp. simpl in Hdp. destruct Y; [done|]. simpl in Hdp. lia. }
    simpl in Hth. destruct (history_good s0 p1 Hf Htr1 Hfine1 Hun1) as [HB HG]. fold s1 in HB, HG.
    assert (ginv s1) as HG1.
    { apply HG. specialize (Hun p1 (OEnd t0 r) c Hh). by destruct (unwinding _ _ _ _ _ _); [destruct (Hun eq_refl)|]. }
    assert (inv md5 s1) as Hinv1 by (apply (inv_runs veq); [by apply inv_fresh|done]).
    pose proof (trusted_end _ _ _ _ Htra) as Hoka. pose proof (trusted_end _ _ _ _ Htr1) as Hok1. fold s1 in Hok1.
    assert (frame_inv md5 (s_env s1) (mem s1) fr) as Hfr by (apply (in_frames _ _ Hinv1 t0); rewrite Hth; by left).
    destruct (ginv_end veq md5 rank t0 s1 r fr Z Hinv1 HB HG1 Hth) as ((deps & cs & Hcs & Hgood) & HGe & HBe).
    assert (rank (rq_fun rq) < e_limit (s_env s1)) as Hlim.
    { unfold s1. rewrite (runs_limit veq md5). rewrite <- (runs_limit veq md5 s0 a).
      eapply (fo_limit _ _ _ _ (Hfine1 a (OBegin t0 rq) b eq_refl)). reflexivity. }
    (* recording *)
    pose proof Hdone as Hdone'.
    cbn [step DbModel.step] in Hdone. unfold end_call in Hdone. rewrite Hth, Hcs in Hdone.
    rewrite (lifts_cache veq md5 _ _ _ _ _ _ _ _ _ _ _ _ (s_db s1)) in Hdone. unfold on_mem in Hdone.
    destruct (cache0 _ _ _ _ _ _ _ _ _ _ _ _ _ _ (mem s1)) as [[x|[]] c'] eqn:Ec; [done|].
    simpl in Hdone. injection Hdone as Hsrcs Hdd.
    destruct (end_mem veq md5 s1 t0 r fr Z deps cs Hth Hcs) as [res Ec']. rewrite Ec in Ec'. injection Ec' as _ Hc'.
    change (c' = mem (fst (step s1 (OEnd t0 r)))) in Hc'.
    pose proof (prepare_looks veq md5 _ _ _ _ _ _ _ Hoka Hp) as (Hsh & Hkn & Hcfs).
    pose proof (prepare_found veq md5 _ _ _ _ _ _ _ Hp) as [_ Hfound].
    pose proof (prepare_spec veq md5 _ _ _ _ _ _ _ Hoka Hp) as [_ Hpok]. specialize (Hpok p eq_refl).
    destruct Hsame as (Rc & Rf & _ & _).
    rewrite Hrq, Hpr in *.
    edestruct (cache0_complete veq md5 (fun ru => ru ∈ s_log s1) (s_env s1) fr deps r (mem s1) c') as (i & Hud); rewrite ?Hrq, ?Hpr; try done.
    { destruct Hveq as (Hrefl & _). apply Hrefl. }
    { apply Hinv1. }
    { intros f Hf'. by apply Hsf. }
    { intros gn i Hcid f Hf'.
      assert (gn = rq_fun rq) as ->. { destruct (po_cid _ _ _ _ _ _ _ _ Hpok _ Hcid) as (j & ds & b1 & r1 & [= -> ->] & _). done. }
      destruct (Hcfs _ _ Hcid f Hf') as [?|Heq]; [by left|right]. rewrite Hsd by done. rewrite <- Heq.
      by apply Hsf. }
    { intros Hdirty c1 H1. rewrite Hdirty in Hgood. rewrite <- H1 in Hgood.
      eapply good_check; [|exact Hgood|done].
      intros h0 d0 L g. rewrite H1. destruct HBe as [_ HBm _]. intros Hrow. apply (HBm h0 d0 L g).
      rewrite <- Hc'.
      pose proof (cache0_functions veq md5 (s_env s1) (pr_fun_dirty p) (pr_fun_id p) (rq_fun rq) (fr_digest fr) deps
        (pr_call_id p) (rq_bound rq) r (pr_files p) (fr_xsrcs fr) (fr_xdsts fr) (mem s1)) as Hcf.
      rewrite Ec, Hdirty in Hcf. simpl in Hcf. by rewrite Hcf. }
    { intros Hclean. destruct (Hfound Hclean) as [_ Hf2]. split.
      - rewrite Hclean in Hgood. eapply good_check; [apply HB|exact Hgood|done].
      - assert (c_calls (mem s1) !! rq_fun rq = c_calls (mem (runs s0 a)) !! rq_fun rq) as Hcl by by rewrite Rc, (sh_calls _ _ _ _ Hsh).
        destruct (pr_call_id p) as [[gn i]|]; [|by rewrite Hcl].
        destruct Hf2 as [-> ?]. split; [done|]. by rewrite Hcl. }
    { intros Hnone. rewrite Rf, (sh_functions _ _ _ _ Hsh). by apply (po_nofid _ _ _ _ _ _ _ _ Hpok). }
    rewrite Hrq in Hud.
    set (p2 := p1 ++ [OEnd t0 r]) in *.
    assert (runs s0 p2 = fst (step s1 (OEnd t0 r))) as Hs2 by (unfold p2; by rewrite runs_snoc).
    assert (s_env (runs s0 p2) = s_env s1) as He2 by (rewrite Hs2; apply end_env').
    assert (forall c1, a ++ OBegin t0 rq :: b ++ OEnd t0 r :: c1 = p2 ++ c1) as Hp2.
    { intros c1. unfold p2, p1. by rewrite <- !app_assoc. }
    assert (srcs = rq_srcs rq ++ fr_xsrcs fr) as Hsrcs' by done.
    assert (forall f, f ∈ rq_srcs rq \/ f ∈ fr_xsrcs fr -> f ∈ srcs) as Hin by (intros f; rewrite Hsrcs', elem_of_app; done).
    destruct Hud as [U1 U2 U3 U4 U5].
    destruct (alive_runs (rq_fun rq) (rq_bound rq) (rq_srcs rq) (fr_xsrcs fr) (fr_xdsts fr) i r (e_fun (s_env s1)) Hveq
      false s0 p2 c Hf) as (saved' & [Jg Jk _ _ _]).
    { by rewrite <- Hh2. }
    { by rewrite <- Hh2. }
    { by rewrite <- Hh2. }
    { intros c1 c2 f Hc Hf'. rewrite He2, <- Hp2. apply (Hdig c1 c2); [done|by apply Hin]. }
    { intros f Hf'. apply Hdelc. by apply Hin. }
    { intros c1 rq' c2 Hc. rewrite <- Hp2. by apply (Hnr c1 rq' c2). }
    { done. }
    { pose proof (views_step veq md5 t0 s1 (OEnd t0 r) eq_refl) as Hv. cbv beta iota in Hv. rewrite Hth in Hv.
      change (views (fst (step s1 (OEnd t0 r))) = view <$> Z) in Hv. split.
      - rewrite He2. rewrite Hs2, Hv.
        assert (c_functions (mem (fst (step s1 (OEnd t0 r)))) =
          if pr_fun_dirty p then <[rq_fun rq := (fr_digest fr, deps)]> (c_functions (mem s1)) else c_functions (mem s1)) as ->; [|done].
        rewrite <- Hc'.
        pose proof (cache0_functions veq md5 (s_env s1) (pr_fun_dirty p) (pr_fun_id p) (rq_fun rq) (fr_digest fr) deps
          (pr_call_id p) (rq_bound rq) r (pr_files p) (fr_xsrcs fr) (fr_xdsts fr) (mem s1)) as Hcf.
        by rewrite Ec in Hcf.
      - rewrite He2, Hs2, <- Hc'. by split.
      - intros fr' Hin' He. exfalso.
        assert (view fr' ∈ view <$> Z) as Hvin.
        { rewrite <- Hv, <- Hs2. by apply elem_of_list_fmap_1. }
        destruct HG1 as (es & junk & _ & Hsk). rewrite Hth in Hsk. simpl in Hsk.
        pose proof (stack_ranks _ _ _ _ _ _ _ _ _ Hsk _ Hvin) as Hr. simpl in Hr. rewrite Hrq, He in Hr. lia.
      - by rewrite He2.
      - done. }
    rewrite <- Hh2 in Jg, Jk. fold s2 in Jg, Jk. rewrite <- Hdd, <- Hsrcs.
    eapply (up_to_date_hit veq md5 s2 t' rq (fr_xsrcs fr) (fr_xdsts fr) i r).
    - by apply (trusted_end veq md5).
    - destruct Jk as [K1 K2 K3 K4]. split; try done.
      eapply good_check; [|exact Jg|].
      + destruct (history_good s0 h Hf Htr Hfine Hun) as [[_ Hm _] _]. exact Hm.
      + unfold s2. rewrite (runs_limit veq md5). unfold s1 in Hlim. by rewrite (runs_limit veq md5) in Hlim.
    - intros f Hf'. apply Hdsts. by rewrite <- Hdd.
  Qed.
End Nest.
