(** What other calls leave alone: the entry of one call, its external files and
    the digests recorded for it. *)
From stdpp Require Import base list strings gmap.
From Coq Require Import ZArith Lia.
From Verif Require Import PyMonad DbModel DbSpec DbClaims CacheBackend CacheLift CacheFacts CacheProv
  CacheInv DbHistory CacheStep CacheDeps CacheComplete CacheNoop.

Section Kept.
  Context {V R : Type} (veq : V -> V -> bool) (md5 : content -> digest).
  Notation BK := (cache_backend (V := V) (R := R) veq md5).
  Notation core0 := (cache_core0 (R := R) veq).
  Notation cdb := (cdb V R).
  Notation frame := (frame V R name (name * nat) name).
  Notation sys := (sys V R (pdb V R) name (name * nat) name).
  Notation op := (op V R).
  Notation step := (step md5 BK).
  Notation runs := (runs md5 BK).
  Notation mem s := (p_mem (s_db s)).
  Notation disk s := (p_disk (s_db s)).
  Notation cf c := (callfile (c_callfiles c)).
  Notation digest_at := (digest_at md5).
  Notation known := (known (V := V) (R := R) md5).
  Notation files_ok := (files_ok (V := V) (R := R) md5).

  (** Recording the call of frame [fr] does not concern call [i] of [fn]. *)
  Definition spared (c : cdb) (fr : frame) (fn : name) (i : nat) : Prop :=
    rq_fun (fr_req fr) <> fn \/
    (pr_fun_dirty (fr_prep fr) = false /\ pr_call_id (fr_prep fr) <> Some (fn, i) /\
     exists ds, c_calls c !! fn = Some ds /\ i < length ds).

  Lemma save_call_files_other cid ds (c : cdb) f fn i :
    cid <> (fn, i) -> cf (snd (save_call_files core0 cid ds c)) f fn i = cf c f fn i.
  Proof.
    intros Hn. revert c. induction ds as [|[[g x] d] ds IH]; intros c; simpl; [done|].
    unfold bind. cbn. rewrite IH. cbn. rewrite callfile_put. destruct (decide _) as [(-> & H1 & H2)|]; [|done].
    destruct cid. simpl in *. congruence.
  Qed.

  Lemma save_call_files_tables cid ds (c : cdb) :
    let c' := snd (save_call_files core0 cid ds c) in
    c_calls c' = c_calls c /\ c_files c' = c_files c /\ c_xsrcs c' = c_xsrcs c /\ c_xdsts c' = c_xdsts c /\
    exists u, fst (save_call_files core0 cid ds c) = inr u.
  Proof.
    destruct cid as [a j].
    destruct (save_call_files_spec veq md5 a j ds c) as (c' & E & _ & H1 & H2 & H3 & H4 & _).
    rewrite E. simpl. eauto 10.
  Qed.

  (** The list of calls of [fn] after a call with arguments [b'] was recorded. *)
  Definition next_calls (i : nat) (b' : V) (ds ds' : list (V * R)) : Prop :=
    ds' = ds \/ exists r', ds' = ds ++ [(b', r')] \/ exists j, j <> i /\ ds' = <[j := (b', r')]> ds.

  Lemma cache0_spares e (fr : frame) deps r (c : cdb) res c' fn i :
    frame_inv md5 e c fr -> files_ok e c -> spared c fr fn i ->
    cache0 veq md5 e (pr_fun_dirty (fr_prep fr)) (pr_fun_id (fr_prep fr)) (rq_fun (fr_req fr))
      (fr_digest fr) deps (pr_call_id (fr_prep fr)) (rq_bound (fr_req fr)) r
      (pr_files (fr_prep fr)) (fr_xsrcs fr) (fr_xdsts fr) c = (res, c') ->
    (forall f, known e c f -> known e c' f /\ cf c' f fn i = cf c f fn i) /\
    xfind (c_xsrcs c') (fn, i) = xfind (c_xsrcs c) (fn, i) /\
    xfind (c_xdsts c') (fn, i) = xfind (c_xdsts c) (fn, i) /\
    match c_calls c !! fn with
    | Some ds => exists ds', c_calls c' !! fn = Some ds' /\
        (rq_fun (fr_req fr) <> fn -> ds' = ds) /\ next_calls i (rq_bound (fr_req fr)) ds ds'
    | None => c_calls c' !! fn = None
    end.
  Proof.
    intros Hfr Hok Hsp. unfold cache0. unfold bind at 1.
    set (hn := rq_fun (fr_req fr)) in *. set (b' := rq_bound (fr_req fr)) in *.
    match goal with |- match ?m c with _ => _ end = _ -> _ => set (stage1 := m) end.
    assert (exists c1, stage1 c = (inr (Some hn), c1) /\ c_files c1 = c_files c /\
      (forall f, cf c1 f fn i = cf c f fn i) /\ c_calls c1 !! fn = c_calls c !! fn /\
      c_xsrcs c1 !! fn = c_xsrcs c !! fn /\ c_xdsts c1 !! fn = c_xdsts c !! fn) as (c1 & Hs1 & F1 & C1 & L1 & X1 & Y1).
    { unfold stage1. destruct (pr_fun_dirty (fr_prep fr)) eqn:Efd.
      - destruct Hsp as [Hn|(? & _)]; [|congruence].
        unfold bind. destruct (pr_fun_id (fr_prep fr)) as [x|] eqn:Eid; cbn;
          eexists; (split; [reflexivity|]); simpl; split_and!; try done.
        + intros f. rewrite callfile_purge. by rewrite decide_False.
        + by rewrite lookup_delete_ne.
        + by rewrite lookup_delete_ne.
        + by rewrite lookup_delete_ne.
      - exists c. destruct (fi_clean _ _ _ _ Hfr Efd) as [-> _]. split_and!; done. }
    rewrite Hs1. clear stage1 Hs1. unfold bind at 1.
    assert (files_ok e c1) as Hok1.
    { intros f m d ct. rewrite F1. apply Hok. }
    assert (forall f, known e c f -> known e c1 f) as K1 by (intros f; by apply known_files).
    (* the call list *)
    assert (exists c2 rs, save_call core0 (pr_call_id (fr_prep fr)) hn b' r c1 = (rs, c2) /\
      c_files c2 = c_files c1 /\ c_callfiles c2 = c_callfiles c1 /\ c_xsrcs c2 = c_xsrcs c1 /\ c_xdsts c2 = c_xdsts c1 /\
      (forall cid, rs = inr cid -> cid <> (fn, i)) /\
      match c_calls c !! fn with
      | Some ds => exists ds', c_calls c2 !! fn = Some ds' /\ (hn <> fn -> ds' = ds) /\ next_calls i b' ds ds'
      | None => c_calls c2 !! fn = None
      end) as (c2 & rs & Hs2 & F2 & C2 & X2 & Y2 & Hid & L2).
    { cbn. unfold c_save_call.
      destruct (decide (hn = fn)) as [He|Hn].
      - destruct Hsp as [?|(Hcl & Hcid & ds & Hds & Hi)]; [done|]. rewrite He.
        rewrite L1, Hds. destruct (pr_call_id (fr_prep fr)) as [[gn j]|] eqn:Ecid.
        + destruct (fi_cid _ _ _ _ Hfr _ _ Ecid) as [Hgn _]. fold hn in Hgn.
          destruct (decide (j < length ds)).
          * eexists _, _. split; [reflexivity|]. split_and!; try done.
            -- intros cid [= <-]. congruence.
            -- exists (<[j:=(b', r)]> ds). simpl. rewrite lookup_insert. split_and!; [done|done|].
               right. exists r. right. exists j. split; [|done]. congruence.
          * eexists _, _. split; [reflexivity|]. split_and!; try done.
            exists ds. rewrite L1. split_and!; [done|done|]. by left.
        + eexists _, _. split; [reflexivity|]. split_and!; try done.
          * intros cid [= <-]. intros [= ?]. lia.
          * exists (ds ++ [(b', r)]). simpl. rewrite lookup_insert. split_and!; [done|done|].
            right. exists r. by left.
      - assert (forall x, c_calls c1 !! fn = x ->
          match x with
          | Some ds => exists ds', x = Some ds' /\ (hn <> fn -> ds' = ds) /\ next_calls i b' ds ds'
          | None => x = None end) as Hx.
        { intros [ds|] Hx; [|done]. exists ds. split_and!; [done|done|]. by left. }
        specialize (Hx _ L1).
        assert (forall y, <[hn:=y]> (c_calls c1) !! fn = c_calls c !! fn) as Hy.
        { intros y. by rewrite lookup_insert_ne. }
        destruct (c_calls c1 !! hn) as [ds|]; [destruct (pr_call_id (fr_prep fr)) as [[gn j]|]; [destruct (decide _)|]|];
          eexists _, _; (split; [reflexivity|]); simpl; rewrite ?Hy, ?L1; split_and!; try done; intros ? [= <-]; congruence. }
    rewrite Hs2. destruct rs as [x|cid].
    { intros [= <- <-]. split_and!.
      - intros f Hf. split; [by apply (known_files md5 _ c1); [|by apply K1]|]. rewrite C2. apply C1.
      - unfold xfind. simpl. by rewrite X2, X1.
      - unfold xfind. simpl. by rewrite Y2, Y1.
      - exact L2. }
    specialize (Hid _ eq_refl). unfold bind at 1.
    pose proof (save_call_files_tables cid (pr_files (fr_prep fr)) c2) as (L3 & F3 & X3 & Y3 & u3 & U3).
    pose proof (fun f => save_call_files_other cid (pr_files (fr_prep fr)) c2 f fn i Hid) as C3.
    destruct (save_call_files core0 cid (pr_files (fr_prep fr)) c2) as [r3 c3]. simpl in L3, F3, X3, Y3, U3, C3. subst r3.
    unfold c_save_external, modify. unfold bind at 1. unfold bind at 1.
    set (c4 := Cdb _ _ _ _ _ _).
    assert (files_ok e c4) as Hok4.
    { intros f m d ct. unfold c4; simpl. rewrite F3, F2. apply Hok1. }
    assert (forall f, known e c f -> known e c4 f) as K4.
    { intros f Hf. apply (known_files md5 _ c1); [|by apply K1]. unfold c4. simpl. by rewrite F3, F2. }
    destruct (c_add_files veq md5 e (fr_xsrcs fr) c4) as [rx c5] eqn:E5.
    apply c_add_files_looks in E5 as [[Hsh5 Hl5] _]; [|done].
    assert (xfind (c_xsrcs c5) (fn, i) = xfind (c_xsrcs c) (fn, i) /\ xfind (c_xdsts c5) (fn, i) = xfind (c_xdsts c) (fn, i)) as [X5 Y5].
    { rewrite (sh_xsrcs _ _ _ _ Hsh5), (sh_xdsts _ _ _ _ Hsh5). unfold c4; simpl.
      rewrite !xfind_xput, !decide_False by done. unfold xfind. simpl. by rewrite X3, X2, X1, Y3, Y2, Y1. }
    assert (c_calls c5 = c_calls c2) as L5.
    { rewrite (sh_calls _ _ _ _ Hsh5). exact L3. }
    assert (forall f, known e c f -> known e c5 f /\ cf c5 f fn i = cf c f fn i) as K5.
    { intros f Hf. destruct (Hl5 f (K4 f Hf)) as [? Hc]. split; [done|]. rewrite Hc. unfold c4. simpl.
      by rewrite C3, C2, C1. }
    destruct rx as [x|xds].
    { intros [= <- <-]. rewrite L5. done. }
    pose proof (save_call_files_tables cid xds c5) as (L6 & F6 & X6 & Y6 & _).
    pose proof (fun f => save_call_files_other cid xds c5 f fn i Hid) as C6.
    destruct (save_call_files core0 cid xds c5) as [r6 c6]. simpl in L6, F6, X6, Y6, C6.
    intros [= <- <-]. rewrite L6, L5, X6, Y6. split_and!; try done.
    intros f Hf. destruct (K5 f Hf) as [? Hc]. split; [by apply (known_files md5 _ c5)|]. by rewrite C6.
  Qed.

  Lemma search_insert_ne b b' r' (ds : list (V * R)) i r k j :
    veq b b' = false -> search_call veq b k ds = Some (i, r) -> k + j <> i ->
    search_call veq b k (<[j := (b', r')]> ds) = Some (i, r).
  Proof.
    intros Hb. revert k j. induction ds as [|[ob r1] ds IH]; intros k j H Hj; simpl in H; [done|].
    destruct j as [|j]; simpl.
    - rewrite Hb. destruct (veq b ob); [|done]. injection H as <- <-. lia.
    - destruct (veq b ob); [done|]. apply IH; [done|lia].
  Qed.
  Lemma search_app_some b x (ds : list (V * R)) i r k :
    search_call veq b k ds = Some (i, r) -> search_call veq b k (ds ++ [x]) = Some (i, r).
  Proof.
    revert k. induction ds as [|[ob r1] ds IH]; intros k H; simpl in *; [done|].
    destruct (veq b ob); [done|]. by apply IH.
  Qed.
  Lemma search_next b b' (ds ds' : list (V * R)) i r :
    search_call veq b 0 ds = Some (i, r) -> veq b b' = false -> next_calls i b' ds ds' ->
    search_call veq b 0 ds' = Some (i, r).
  Proof.
    intros Hs Hb [->|(r' & [->|(j & Hj & ->)])]; [done|by apply search_app_some|by apply search_insert_ne].
  Qed.

  (** *** One step *)
  Definition spares (s : sys) (o : op) (fn : name) (i : nat) : Prop :=
    match o with
    | OEnd t _ => forall fr frs, thread s t = fr :: frs -> spared (mem s) fr fn i
    | ODelFun g => g <> fn
    | ORestart _ => False
    | _ => True
    end.

  Lemma known_env e e' (c : cdb) f : digest_at e' f = digest_at e f -> known e c f -> known e' c f.
  Proof. intros H (m & d & ? & ?). exists m, d. by rewrite H. Qed.

  (** The tables after a call that returned. *)
  Lemma end_mem (s : sys) t r fr frs deps cs :
    thread s t = fr :: frs -> s_callstack s = deps :: cs ->
    exists res, cache0 veq md5 (s_env s) (pr_fun_dirty (fr_prep fr)) (pr_fun_id (fr_prep fr)) (rq_fun (fr_req fr))
      (fr_digest fr) deps (pr_call_id (fr_prep fr)) (rq_bound (fr_req fr)) r
      (pr_files (fr_prep fr)) (fr_xsrcs fr) (fr_xdsts fr) (mem s) = (res, mem (fst (step s (OEnd t r)))).
  Proof.
    intros Et Ecs. simpl. unfold end_call. rewrite Et, Ecs.
    rewrite (lifts_cache veq md5 _ _ _ _ _ _ _ _ _ _ _ _ (s_db s)). unfold on_mem.
    destruct (cache0 _ _ _ _ _ _ _ _ _ _ _ _ _ _ (mem s)) as [[x|u] c'] eqn:Ec; eexists; reflexivity.
  Qed.
  Lemma end_mem_none (s : sys) t r :
    thread s t = [] \/ s_callstack s = [] -> mem (fst (step s (OEnd t r))) = mem s.
  Proof.
    intros H. simpl. unfold end_call. destruct (thread s t) as [|fr frs]; [done|].
    destruct H as [?| ->]; [done|]. done.
  Qed.

  (** The tables after a call that began. *)
  Lemma begin_mem (s : sys) t rq :
    files_ok (s_env s) (mem s) -> looks md5 (s_env s) (mem s) (mem (fst (step s (OBegin t rq)))).
  Proof.
    intros Hok. simpl. unfold begin_call. destruct (e_fun (s_env s) !! rq_fun rq) as [d|] eqn:Ed; [|apply looks_refl].
    simpl. rewrite (lifts_prepare veq md5 _ _ _ _ (s_db s)). unfold on_mem.
    destruct (prepare md5 core0 _ _ _ _ (mem s)) as [res c] eqn:Ep.
    apply prepare_looks_all in Ep; [|done]. destruct res as [x|p]; [done|].
    destruct (pr_fun_dirty p), (pr_call_dirty p), (pr_files p), (pr_xfiles p), (pr_old_result p);
      try destruct (forallb _ _); exact Ep.
  Qed.

  Lemma end_env' (s : sys) t r : s_env (fst (step s (OEnd t r))) = s_env s.
  Proof.
    simpl. unfold end_call. destruct (thread s t) as [|fr frs]; [done|]. destruct (s_callstack s); [done|].
    by destruct (cache _ _ _ _ _ _ _ _ _ _ _ _ _ _) as [[x|u] db].
  Qed.
  Lemma begin_env' (s : sys) t rq : s_env (fst (step s (OBegin t rq))) = s_env s.
  Proof.
    simpl. unfold begin_call. destruct (e_fun (s_env s) !! rq_fun rq) as [d|]; [|done].
    destruct (prepare _ _ _ _ _ _ _) as [[x|p] db]; [done|].
    destruct (pr_fun_dirty p), (pr_call_dirty p), (pr_files p), (pr_xfiles p), (pr_old_result p); try done.
    by destruct (forallb _ _).
  Qed.

  Lemma step_file (s : sys) o f fn i :
    inv md5 s -> files_ok (s_env s) (mem s) -> known (s_env s) (mem s) f ->
    digest_at (s_env (fst (step s o))) f = digest_at (s_env s) f ->
    o <> ODelFile f -> spares s o fn i ->
    known (s_env (fst (step s o))) (mem (fst (step s o))) f /\
    cf (mem (fst (step s o))) f fn i = cf (mem s) f fn i.
  Proof.
    intros Hinv Hok Hk Hd Hdel Hsp.
    destruct o as [t rq|t xs xd g|t r|t|g ct m|g|dt| |funs|g|g]; try done.
    - destruct (begin_mem s t rq Hok) as [_ Hl]. rewrite begin_env'. destruct (Hl f Hk) as [? Hc]. split; [done|]. by rewrite Hc.
    - rewrite end_env'. destruct (thread s t) as [|fr frs] eqn:Et; [rewrite end_mem_none by (by left); done|].
      destruct (s_callstack s) as [|deps cs] eqn:Ecs; [rewrite end_mem_none by (by right); done|].
      destruct (end_mem s t r fr frs deps cs Et Ecs) as [res Hc].
      eapply (cache0_spares _ _ _ _ _ _ _ fn i) in Hc as [H1 _]; [by apply H1| |done|by eapply Hsp].
      apply (in_frames _ _ Hinv t). rewrite Et. by left.
    - simpl. unfold raise_call. by destruct (thread s t).
    - simpl. split; [|done]. eapply known_env; [exact Hd|done].
    - simpl. split; [|done]. eapply known_env; [exact Hd|done].
    - simpl in *. split; [done|]. rewrite callfile_purge. by rewrite decide_False.
    - simpl in *. split.
      + destruct Hk as (m & d & H1 & H2). exists m, d. simpl. rewrite lookup_delete_ne by congruence. done.
      + rewrite callfile_delete. rewrite decide_False by congruence. done.
  Qed.

  (** A recorded call, apart from its function. *)
  Record kept (e : env) (c : cdb) (fn : name) (b : V) (srcs xs xd : list name) (i : nat) (r : R) : Prop := Kept {
    kp_call : exists ds, c_calls c !! fn = Some ds /\ search_call veq b 0 ds = Some (i, r);
    kp_xsrcs : xfind (c_xsrcs c) (fn, i) = xs;
    kp_xdsts : xfind (c_xdsts c) (fn, i) = xd;
    kp_files : forall f, f ∈ srcs \/ f ∈ xs -> known e c f /\ cf c f fn i = digest_at e f
  }.

  Lemma kept_env e e' c fn b srcs xs xd i r :
    (forall f, f ∈ srcs \/ f ∈ xs -> digest_at e' f = digest_at e f) ->
    kept e c fn b srcs xs xd i r -> kept e' c fn b srcs xs xd i r.
  Proof.
    intros Hd [K1 K2 K3 K4]. split; try done. intros f Hf. destruct (K4 f Hf) as [Hk Hc].
    rewrite Hd by done. split; [|done]. eapply known_env; [by apply Hd|done].
  Qed.

  Lemma step_kept (s : sys) o fn b srcs xs xd i r :
    inv md5 s -> files_ok (s_env s) (mem s) -> kept (s_env s) (mem s) fn b srcs xs xd i r ->
    (forall f, f ∈ srcs \/ f ∈ xs -> digest_at (s_env (fst (step s o))) f = digest_at (s_env s) f) ->
    (forall f, f ∈ srcs \/ f ∈ xs -> o <> ODelFile f) ->
    spares s o fn i ->
    (forall t r' fr frs, o = OEnd t r' -> thread s t = fr :: frs -> rq_fun (fr_req fr) = fn ->
       veq b (rq_bound (fr_req fr)) = false) ->
    kept (s_env (fst (step s o))) (mem (fst (step s o))) fn b srcs xs xd i r.
  Proof.
    intros Hinv Hok [(ds & Hds & Hse) K2 K3 K4] Hd Hdel Hsp Hb.
    assert (forall f, f ∈ srcs \/ f ∈ xs ->
      known (s_env (fst (step s o))) (mem (fst (step s o))) f /\
      cf (mem (fst (step s o))) f fn i = digest_at (s_env (fst (step s o))) f) as Hfiles.
    { intros f Hf. destruct (K4 f Hf) as [Hk Hc].
      destruct (step_file s o f fn i) as [? Hc']; try done; [by apply Hd|by apply Hdel|].
      split; [done|]. by rewrite Hc', Hd. }
    enough ((exists ds', c_calls (mem (fst (step s o))) !! fn = Some ds' /\ search_call veq b 0 ds' = Some (i, r)) /\
      xfind (c_xsrcs (mem (fst (step s o)))) (fn, i) = xfind (c_xsrcs (mem s)) (fn, i) /\
      xfind (c_xdsts (mem (fst (step s o)))) (fn, i) = xfind (c_xdsts (mem s)) (fn, i)) as (H1 & H2 & H3).
    { split; [done|by rewrite H2|by rewrite H3|done]. }
    clear Hfiles. assert (exists ds', c_calls (mem s) !! fn = Some ds' /\ search_call veq b 0 ds' = Some (i, r)) as Hex by eauto.
    destruct o as [t rq|t xs' xd' g|t r'|t|g ct m|g|dt| |funs|g|g]; try done.
    - destruct (begin_mem s t rq Hok) as [[_ S2 S3 S4 _ _] _]. by rewrite S2, S3, S4.
    - destruct (thread s t) as [|fr frs] eqn:Et; [rewrite end_mem_none by (by left); done|].
      destruct (s_callstack s) as [|deps cs] eqn:Ecs; [rewrite end_mem_none by (by right); done|].
      destruct (end_mem s t r' fr frs deps cs Et Ecs) as [res Hc].
      eapply (cache0_spares _ _ _ _ _ _ _ fn i) in Hc as (_ & H2 & H3 & H4); [| |done|by eapply Hsp].
      2:{ apply (in_frames _ _ Hinv t). rewrite Et. by left. }
      split_and!; [|done|done]. rewrite Hds in H4. destruct H4 as (ds' & Hds' & Hne & Hnext). exists ds'. split; [done|].
      destruct (decide (rq_fun (fr_req fr) = fn)) as [He|Hn]; [|by rewrite Hne].
      eapply search_next; [done| |done]. by eapply Hb.
    - simpl. unfold raise_call. by destruct (thread s t).
    - simpl in *. unfold xfind. simpl. rewrite !lookup_delete_ne by done. done.
  Qed.
End Kept.
