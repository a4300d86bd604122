(** A completed call whose inputs and outputs did not change is a hit. *)
From stdpp Require Import base list strings gmap.
From Coq Require Import ZArith Lia.
From Verif Require Import PyMonad DbModel DbSpec CacheBackend CacheLift CacheFacts CacheInv
  DbHistory CacheStep CacheProv CacheComplete.

Section Noop.
  Context {V R : Type} (veq : V -> V -> bool) (md5 : content -> digest).
  Notation BK := (cache_backend (V := V) (R := R) veq md5).
  Notation core0 := (cache_core0 (R := R) veq).
  Notation cdb := (cdb V R).
  Notation frame := (frame V R name (name * nat) name).
  Notation sys := (sys V R (pdb V R) name (name * nat) name).
  Notation op := (op V R).
  Notation digest_at := (digest_at md5).
  Notation mem s := (p_mem (s_db s)).
  Notation step := (step md5 BK).
  Notation runs := (runs md5 BK).

  Lemma begin_run (s : sys) t (rq : request V R) :
    snd (step s (OBegin t rq)) = RRun ->
    exists d p c, e_fun (s_env s) !! rq_fun rq = Some d /\
      prepare md5 core0 (s_env s) (rq_fun rq) (rq_bound rq) (rq_srcs rq) (mem s) = (inr p, c) /\
      fst (step s (OBegin t rq)) =
        Sys (s_env s) (Pdb c (p_disk (s_db s))) ([] :: note_callee (rq_fun rq) (s_callstack s))
            (<[t := Frame rq d p [] [] (s_env s) :: thread s t]> (s_threads s)) (s_log s).
  Proof.
    simpl. unfold begin_call.
    destruct (e_fun (s_env s) !! rq_fun rq) as [d|] eqn:Ed; [|done].
    rewrite (lifts_prepare veq md5 _ _ _ _ (s_db s)). unfold on_mem.
    destruct (prepare md5 core0 _ _ _ _ _) as [[x|p] c] eqn:Ep; [done|].
    intros H. exists d, p, c. split_and!; [done|done|].
    destruct (pr_fun_dirty p), (pr_call_dirty p), (pr_files p), (pr_xfiles p), (pr_old_result p);
      try done.
    by destruct (forallb _ _).
  Qed.

  Lemma runs_body t (body : list op) (s : sys) (fr : frame) frs :
    Forall (body_op t) body -> thread s t = fr :: frs ->
    exists fr' frs', thread (runs s body) t = fr' :: frs' /\
      fr_req fr' = fr_req fr /\ fr_digest fr' = fr_digest fr /\ fr_prep fr' = fr_prep fr /\
      fr_begin fr' = fr_begin fr /\ s_db (runs s body) = s_db s /\
      s_callstack (runs s body) = s_callstack s /\
      e_fun (s_env (runs s body)) = e_fun (s_env s) /\
      e_limit (s_env (runs s body)) = e_limit (s_env s).
  Proof.
    intros Hb. revert s fr frs. induction Hb as [|o body Ho Hb IH]; intros s fr frs Ht.
    - exists fr, frs. done.
    - simpl.
      assert (exists fr1 frs1, thread (fst (step s o)) t = fr1 :: frs1 /\
        fr_req fr1 = fr_req fr /\ fr_digest fr1 = fr_digest fr /\ fr_prep fr1 = fr_prep fr /\
        fr_begin fr1 = fr_begin fr /\ s_db (fst (step s o)) = s_db s /\
        s_callstack (fst (step s o)) = s_callstack s /\
        e_fun (s_env (fst (step s o))) = e_fun (s_env s) /\
        e_limit (s_env (fst (step s o))) = e_limit (s_env s))
        as (fr1 & frs1 & H1 & H2 & H3 & H4 & H5 & H6 & H7 & H8 & H9).
      { destruct o as [ |t' xs xd g| | | | | | | | | ]; simpl in Ho; try done; try by exists fr, frs.
        subst t'. simpl. unfold add_ext. rewrite Ht, thread_insert, decide_True by done.
        eexists _, _. split; [reflexivity|]. done. }
      destruct (IH _ _ _ H1) as (fr' & frs' & G1 & G2 & G3 & G4 & G5 & G6 & G7 & G8 & G9).
      exists fr', frs'. split_and!; congruence.
  Qed.

  Lemma runs_quiet funs (after : list op) (s : sys) saved :
    (saved = true -> p_disk (s_db s) = mem s) -> e_fun (s_env s) = funs ->
    quiet funs saved after ->
    mem (runs s after) = mem s /\ e_fun (s_env (runs s after)) = e_fun (s_env s) /\
    e_limit (s_env (runs s after)) = e_limit (s_env s).
  Proof.
    revert s saved. induction after as [|o after IH]; intros s saved Hsv Hf Hq; [done|].
    destruct o as [ | | | |f ct m|f|dt| |fs| | ]; simpl in Hq; try done; simpl.
    - destruct (IH (fst (step s (OWrite f ct m))) saved) as (H1 & H2 & H3); try done.
    - destruct (IH (fst (step s (ORemove f))) saved) as (H1 & H2 & H3); try done.
    - destruct (IH (fst (step s (OTick dt))) saved) as (H1 & H2 & H3); try done.
    - destruct (IH (fst (step s OSave)) true) as (H1 & H2 & H3); try done.
    - destruct Hq as (-> & -> & Hq). specialize (Hsv eq_refl).
      destruct (IH (Sys (Env (e_fs (s_env s)) (e_now (s_env s)) funs (e_limit (s_env s)))
         (Pdb (p_disk (s_db s)) (p_disk (s_db s))) [] ∅ (s_log s)) true) as (H1 & H2 & H3); try done.
      split_and!; [|by rewrite H2|by rewrite H3]. rewrite H1. done.
  Qed.

  (** The call table as stored for one function: arguments and results. *)
  Lemma noop (s0 : sys) os t (rq : request V R) body r after t' srcs dsts :
    veq (rq_bound rq) (rq_bound rq) = true ->
    fresh pdb_empty s0 ->
    trusted veq md5 s0 (os ++ OBegin t rq :: body ++ OEnd t r :: after) ->
    let s := runs s0 os in
    let s1 := runs s0 (os ++ OBegin t rq :: body) in
    let s2 := runs s0 (os ++ OBegin t rq :: body ++ OEnd t r :: after) in
    snd (step s (OBegin t rq)) = RRun ->
    Forall (body_op t) body ->
    snd (step s1 (OEnd t r)) = RDone r srcs dsts ->
    quiet (e_fun (s_env s1)) false after ->
    (forall f, f ∈ srcs -> digest_at (s_env s2) f = digest_at (s_env s1) f) ->
    (forall f, f ∈ dsts -> is_Some (e_fs (s_env s2) !! f)) ->
    snd (step s2 (OBegin t' rq)) = RHit r srcs dsts /\
    c_calls (mem (fst (step s2 (OBegin t' rq)))) = c_calls (mem s2).
  Proof.
    intros Hvb Hfresh Hhist s s1 s2 Hrun Hbody Hdone Hquiet Hsrcs Hdsts.
    assert (trusted veq md5 s0 os) as Htr by (by apply trusted_app in Hhist as [? _]).
    assert (trusted veq md5 s0 (os ++ OBegin t rq :: body)) as Htr1.
    { replace (os ++ OBegin t rq :: body ++ OEnd t r :: after)
        with ((os ++ OBegin t rq :: body) ++ OEnd t r :: after) in Hhist by by rewrite <- app_assoc.
      by apply trusted_app in Hhist as [? _]. }
    assert (inv md5 s) as Hinv by (apply (inv_runs veq); [by apply inv_fresh|done]).
    assert (inv md5 s1) as Hinv1 by (apply (inv_runs veq); [by apply inv_fresh|done]).
    assert (inv md5 s2) as Hinv2 by (apply (inv_runs veq); [by apply inv_fresh|done]).
    destruct (begin_run s t rq Hrun) as (d & p & c & Hd & Hp & Hst).
    assert (s1 = runs (fst (step s (OBegin t rq))) body) as Hs1.
    { unfold s1. rewrite runs_app. done. }
    assert (s2 = runs (fst (step s1 (OEnd t r))) after) as Hs2.
    { unfold s2. rewrite app_comm_cons, app_assoc, runs_app. done. }
    destruct (runs_body t body (fst (step s (OBegin t rq))) (Frame rq d p [] [] (s_env s)) (thread s t))
      as (fr & frs & Ht & Hrq & Hdg & Hpr & Hbg & Hdb & Hcs & Hef & Hel); [done| |].
    { rewrite Hst. by rewrite thread_insert, decide_True. }
    rewrite <- Hs1 in Ht, Hdb, Hcs, Hef, Hel. rewrite Hst in Hdb, Hcs, Hef, Hel. simpl in *.
    pose proof (trusted_end _ _ _ _ Htr) as Hfs. pose proof (trusted_end _ _ _ _ Htr1) as Hfs1.
    pose proof (in_mem _ _ Hinv) as Hm. pose proof (in_mem _ _ Hinv1) as Hm1.
    pose proof (prepare_looks veq md5 _ _ _ _ _ _ _ Hfs Hp) as (Hsh & Hkn & Hcfs).
    pose proof (prepare_found veq md5 _ _ _ _ _ _ _ Hp) as [Hlim Hfound].
    pose proof (prepare_spec veq md5 _ _ _ _ _ _ _ Hfs Hp) as [_ Hok].
    specialize (Hok p eq_refl).
    assert (frame_inv md5 (s_env s1) (mem s1) fr) as Hfr.
    { apply (in_frames _ _ Hinv1 t). rewrite Ht. by left. }
    assert (mem s1 = c) as Hmc by by rewrite Hdb.
    assert (forall f, f ∈ rq_srcs rq -> digest_at (s_env s1) f = digest_at (s_env s) f) as Hst1.
    { intros f Hf. rewrite <- (fi_stable _ _ _ _ Hfr) by by rewrite Hrq. by rewrite Hbg. }
    (* the end of the call *)
    unfold end_call in Hdone, Hs2. rewrite Ht, Hcs in Hdone, Hs2.
    rewrite (lifts_cache veq md5 _ _ _ _ _ _ _ _ _ _ _ _ (s_db s1)) in Hdone, Hs2. unfold on_mem in Hdone, Hs2.
    destruct (cache0 _ _ _ _ _ _ _ _ _ _ _ _ _ _ (mem s1)) as [[x|[]] c'] eqn:Ec; [done|].
    simpl in Hdone, Hs2. injection Hdone as <- <-.
    edestruct (cache0_complete veq md5 (fun ru => ru ∈ s_log s1) (s_env s1) fr [] r (mem s1) c') as (i & Hud); try done.
    { by rewrite Hrq. }
    { intros f Hf. rewrite Hrq in Hf. rewrite Hmc. destruct (Hkn f Hf) as (m0 & d0 & ? & ?).
      exists m0, d0. by rewrite Hst1. }
    { intros gn i. rewrite Hrq, Hpr, Hmc. intros Hcid f Hf.
      rewrite Hst1 by done. by apply Hcfs. }
    { intros _ c1 H1. assert (0 < e_limit (s_env s1)) as Hl1 by by rewrite Hel.
      destruct (e_limit (s_env s1)) as [|n]; [lia|]. cbn [check_function].
      pose proof (fi_digest _ _ _ _ Hfr) as Hfd.
      destruct (e_fun (s_env s1) !! rq_fun (fr_req fr)) as [d0|]; [injection Hfd as ->|done].
      unfold bind. cbn. rewrite H1, lookup_insert. cbn.
      by rewrite String.eqb_refl. }
    { rewrite Hrq, Hpr, Hmc. intros Hcl. destruct (Hfound Hcl) as [Hc1 Hc2]. split.
      - rewrite Hel. eapply check_function_ext; [exact Hef|by rewrite (sh_functions _ _ _ _ Hsh)|done].
      - rewrite (sh_calls _ _ _ _ Hsh). destruct (pr_call_id p) as [[gn i]|]; [|done].
        by destruct Hc2 as [-> ?]. }
    { rewrite Hrq, Hpr, Hmc. rewrite (sh_functions _ _ _ _ Hsh). apply Hok. }
    rewrite Hrq in *.
    set (s1' := Sys _ _ _ _ _) in Hs2.
    destruct (runs_quiet (e_fun (s_env s1)) after s1' false) as (Hq1 & Hq2 & Hq3); [done|done|done|].
    rewrite <- Hs2 in Hq1, Hq2, Hq3. simpl in Hq1, Hq2, Hq3.
    eapply (up_to_date_hit veq md5 s2 t' rq (fr_xsrcs fr) (fr_xdsts fr) i r).
    - by apply (trusted_end veq md5).
    - rewrite Hq1. destruct Hud as [U1 U2 U3 U4 U5]. split; try done.
      + rewrite Hq3. eapply check_function_ext; [exact Hq2|reflexivity|done].
      + intros f Hf. destruct (U5 f Hf) as [(m0 & d0 & K1 & K2) Hcf].
        rewrite Hsrcs by (rewrite elem_of_app; tauto).
        split; [|done]. exists m0, d0. rewrite Hsrcs by (rewrite elem_of_app; tauto). done.
    - intros f Hf. by apply Hdsts.
  Qed.
End Noop.
