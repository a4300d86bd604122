(** In tidy histories the stored results were computed by the code that the function table
    shows. *)
From stdpp Require Import base list strings gmap.
From Coq Require Import ZArith Lia.
From Verif Require Import PyMonad DbModel DbSpec DbClaims CacheBackend CacheLift CacheFacts CacheProv DbHistory
  CacheDeps DbDeps CacheNest CodeSpec.

Section Code.
  Context {V R : Type} (veq : V -> V -> bool) (md5 : content -> digest).
  Notation BK := (cache_backend (V := V) (R := R) veq md5).
  Notation core0 := (cache_core0 (R := R) veq).
  Notation cdb := (cdb V R).
  Notation frame := (frame V R name (name * nat) name).
  Notation sys := (sys V R (pdb V R) name (name * nat) name).
  Notation op := (op V R).
  Notation occ := (occ V R).
  Notation step := (step md5 BK).
  Notation runs := (runs md5 BK).
  Notation mem s := (p_mem (s_db s)).
  Notation disk s := (p_disk (s_db s)).
  Notation table := (gmap name (digest * list name)).

  (** *** Functions whose row, and the rows of the functions it names, are current *)
  Inductive clean (E : gmap name digest) (T : table) : name -> Prop :=
    | Clean f d deps : E !! f = Some d -> T !! f = Some (d, deps) ->
        (forall g, g ∈ deps -> g <> f -> clean E T g) -> clean E T f.

  Lemma clean_inv E T f : clean E T f ->
    exists d deps, E !! f = Some d /\ T !! f = Some (d, deps) /\ forall g, g ∈ deps -> g <> f -> clean E T g.
  Proof. intros [? d deps ? ? ?]. eauto. Qed.

  Lemma check_clean n e fn (c : cdb) b fid c' :
    check_function core0 n e fn c = (inr (b, fid), c') ->
    if b then ~ clean (e_fun e) (c_functions c) fn else clean (e_fun e) (c_functions c) fn.
  Proof.
    revert fn b fid c'. induction n as [|n IH]; intros fn b fid c' H; [done|]. simpl in H.
    destruct (e_fun e !! fn) as [d|] eqn:Ed; [|done].
    unfold bind at 1 in H. cbn in H.
    destruct (c_functions c !! fn) as [[od deps]|] eqn:Er; cbn in H.
    2:{ injection H as <- _ _. intros Hc. apply clean_inv in Hc as (d' & deps' & H1 & H2 & H3).
        by rewrite Er in H2. }
    destruct (String.eqb_spec d od) as [->|Hne]; cbn in H.
    2:{ injection H as <- _ _. intros Hc. apply clean_inv in Hc as (d' & deps' & H1 & H2 & H3).
        rewrite Er in H2. injection H2 as -> _. pose proof (eq_trans (eq_sym Ed) H1) as [= ->]. done. }
    revert H. set (chk := (fix check_deps (ds : list name) : M _ bool := _)).
    assert (forall ds b c1, chk ds c = (inr b, c1) ->
      if b then exists g, g ∈ ds /\ ~ clean (e_fun e) (c_functions c) g
      else forall g, g ∈ ds -> clean (e_fun e) (c_functions c) g) as Hchk.
    { induction ds as [|dep ds IHd]; intros b1 c1 Hc.
      { injection Hc as <- _. intros g Hg. by apply elem_of_nil in Hg. }
      cbn in Hc. unfold bind in Hc.
      destruct (check_function core0 n e dep c) as [[x|[b2 i]] c2] eqn:E; [done|]. cbn in Hc.
      pose proof (check_function_pure _ _ _ _ _ _ _ E) as ->. apply IH in E. destruct b2.
      - injection Hc as <- _. exists dep. split; [by left|done].
      - apply IHd in Hc. destruct b1.
        + destruct Hc as (g & ? & ?). exists g. split; [by right|done].
        + intros g [->|Hg]%elem_of_cons; [done|by apply Hc]. }
    unfold bind. destruct (chk _ c) as [[x|b1] c1] eqn:E; [done|]. intros [= <- _ _].
    apply Hchk in E. destruct b1.
    - destruct E as (g & [Hg1 Hg2]%elem_of_list_filter & Hno). intros Hc. apply clean_inv in Hc as (d' & deps' & H1 & H2 & H3).
      apply Hno. rewrite Er in H2. injection H2 as _ ->. by apply H3.
    - apply (Clean _ _ _ od deps); [done|done|]. intros g Hg Hn. apply E. by apply elem_of_list_filter.
  Qed.

  (** *** What steps do *)
  Lemma begin_cases (s : sys) t rq :
    let s' := fst (step s (OBegin t rq)) in
    same (mem s) (mem s') /\ disk s' = disk s /\
    match snd (step s (OBegin t rq)) with
    | RErr _ => True
    | RHit r _ _ => clean (e_fun (s_env s)) (c_functions (mem s)) (rq_fun rq) /\
        exists ds b', c_calls (mem s) !! rq_fun rq = Some ds /\ (b', r) ∈ ds /\ veq (rq_bound rq) b' = true
    | RRun => exists d p, e_fun (s_env s) !! rq_fun rq = Some d /\
        thread s' t = Frame rq d p [] [] (s_env s) :: thread s t /\
        (pr_fun_dirty p = false -> clean (e_fun (s_env s)) (c_functions (mem s)) (rq_fun rq)) /\
        (pr_fun_dirty p = true -> ~ clean (e_fun (s_env s)) (c_functions (mem s)) (rq_fun rq)) /\
        (pr_fun_id p = None -> c_functions (mem s) !! rq_fun rq = None) /\
        (forall x, pr_fun_id p = Some x -> x = rq_fun rq)
    | _ => False
    end.
  Proof.
    simpl. unfold begin_call. destruct (e_fun (s_env s) !! rq_fun rq) as [d|] eqn:Ed; [|done].
    destruct (prepare md5 _ _ _ _ _ _) as [res db] eqn:Ep.
    pose proof (begin_basic _ _ _ _ _ _ Ep) as (Hdk & Hsh & Hok).
    destruct res as [x|p]; [done|]. specialize (Hok p eq_refl) as [Hfid Hres].
    assert (exists fd fid, check_function core0 (e_limit (s_env s)) (s_env s) (rq_fun rq) (mem s) = (inr (fd, fid), mem s) /\
      pr_fun_dirty p = fd /\ pr_fun_id p = fid) as (fd & fid & Hchk & Hpd & Hpi).
    { simpl in Ep. rewrite (lifts_prepare veq md5 _ _ _ _ (s_db s)) in Ep. unfold on_mem in Ep.
      destruct (prepare md5 core0 _ _ _ _ (mem s)) as [res c] eqn:Ep0. injection Ep as -> _.
      unfold prepare, bind in Ep0.
      destruct (check_function core0 (e_limit (s_env s)) (s_env s) (rq_fun rq) (mem s)) as [[x|[fd fid]] c1] eqn:E1;
        [done|].
      pose proof (check_function_pure _ _ _ _ _ _ _ E1) as ->. exists fd, fid. split; [done|].
      repeat (match type of Ep0 with context [match ?x with _ => _ end] => destruct x end; try done);
        injection Ep0 as <- _; done. }
    pose proof (check_clean _ _ _ _ _ _ _ Hchk) as Hcl.
    pose proof (check_function_spec _ _ _ _ _ _ _ _ Hchk) as (d' & _ & Hnone & _ & _).
    assert (pr_fun_dirty p = false -> clean (e_fun (s_env s)) (c_functions (mem s)) (rq_fun rq)) as H1.
    { intros Hp. rewrite <- Hpd, Hp in Hcl. done. }
    assert (pr_fun_dirty p = true -> ~ clean (e_fun (s_env s)) (c_functions (mem s)) (rq_fun rq)) as H2.
    { intros Hp. rewrite <- Hpd, Hp in Hcl. done. }
    assert (pr_fun_id p = None -> c_functions (mem s) !! rq_fun rq = None) as H3.
    { intros Hp. apply Hnone. congruence. }
    assert (forall cs, let s' := Sys (s_env s) db cs (<[t := Frame rq d p [] [] (s_env s) :: thread s t]> (s_threads s)) (s_log s) in
       same (mem s) (mem s') /\ disk s' = disk s /\ 
       exists d0 p, Some d = Some d0 /\
        thread s' t = Frame rq d0 p [] [] (s_env s) :: thread s t /\
        (pr_fun_dirty p = false -> clean (e_fun (s_env s)) (c_functions (mem s)) (rq_fun rq)) /\
        (pr_fun_dirty p = true -> ~ clean (e_fun (s_env s)) (c_functions (mem s)) (rq_fun rq)) /\
        (pr_fun_id p = None -> c_functions (mem s) !! rq_fun rq = None) /\
        (forall x, pr_fun_id p = Some x -> x = rq_fun rq)) as Hrun.
    { intros cs s'. split; [done|]. split; [done|]. exists d, p. split; [done|].
      split; [unfold s'; rewrite thread_insert; by rewrite decide_True|]. done. }
    destruct (pr_fun_dirty p) eqn:E1; [apply Hrun|].
    destruct (pr_call_dirty p) eqn:E2; [apply Hrun|].
    destruct (pr_files p) as [|] eqn:E3; [|apply Hrun].
    destruct (pr_xfiles p) as [|] eqn:E4; [|apply Hrun].
    destruct (pr_old_result p) as [r0|] eqn:E5; [|apply Hrun].
    destruct (forallb _ _) eqn:E6; [|apply Hrun]. cbn [fst snd].
    split; [done|]. split; [done|]. split; [by apply H1|].
    destruct (Hres eq_refl _ eq_refl) as (ds & i & b' & ? & ? & ?).
    exists ds, b'. split; [done|]. split; [by eapply elem_of_list_lookup_2|done].
  Qed.

  Lemma cache0_calls_dirty e fid fn dg deps cid b r files xs xd (c : cdb) res c' ds x :
    (forall y, fid = Some y -> y = fn) -> (fid = None -> c_calls c !! fn = None) ->
    cache0 (R:=R) veq md5 e true fid fn dg deps cid b r files xs xd c = (res, c') ->
    c_calls c' !! fn = Some ds -> x ∈ ds -> x = (b, r).
  Proof.
    intros Hfid Hnone Hc Hds Hx.
    assert (exists c0 : cdb, c_calls c0 !! fn = None /\
      cache0 (R:=R) veq md5 e true None fn dg deps cid b r files xs xd c0 = (res, c')) as (c0 & H0 & Hc0).
    { destruct fid as [y|]; [|exists c; auto].
      exists (snd (c_delete_function fn c)). split; [simpl; by rewrite lookup_delete|]. rewrite <- Hc. done. }
    apply cache0_calls in Hc0 as [_ Hown]; [|done].
    destruct (Hown _ _ Hds Hx) as [->|(ds0 & H & _)]; [done|congruence].
  Qed.

  Lemma end_cases (s : sys) t r fr frs L cs :
    thread s t = fr :: frs -> s_callstack s = L :: cs ->
    (forall y, pr_fun_id (fr_prep fr) = Some y -> y = rq_fun (fr_req fr)) ->
    (pr_fun_dirty (fr_prep fr) = true -> pr_fun_id (fr_prep fr) = None -> c_calls (mem s) !! rq_fun (fr_req fr) = None) ->
    let s' := fst (step s (OEnd t r)) in
    disk s' = disk s /\
    c_functions (mem s') = (if pr_fun_dirty (fr_prep fr) then <[rq_fun (fr_req fr) := (fr_digest fr, L)]> (c_functions (mem s))
                            else c_functions (mem s)) /\
    (forall gn, gn <> rq_fun (fr_req fr) -> c_calls (mem s') !! gn = c_calls (mem s) !! gn) /\
    (forall ds x, c_calls (mem s') !! rq_fun (fr_req fr) = Some ds -> x ∈ ds ->
       x = (rq_bound (fr_req fr), r) \/
       pr_fun_dirty (fr_prep fr) = false /\ exists ds0, c_calls (mem s) !! rq_fun (fr_req fr) = Some ds0 /\ x ∈ ds0).
  Proof.
    intros Ht Hcs Hfid Hnone s'. unfold s'. split; [by rewrite step_disk|]. simpl. unfold end_call. rewrite Ht, Hcs.
    rewrite (lifts_cache veq md5 _ _ _ _ _ _ _ _ _ _ _ _ (s_db s)). unfold on_mem.
    pose proof (cache0_functions veq md5 (s_env s) (pr_fun_dirty (fr_prep fr)) (pr_fun_id (fr_prep fr)) (rq_fun (fr_req fr))
      (fr_digest fr) L (pr_call_id (fr_prep fr)) (rq_bound (fr_req fr)) r (pr_files (fr_prep fr)) (fr_xsrcs fr) (fr_xdsts fr) (mem s)) as Hf.
    destruct (cache0 _ _ _ _ _ _ _ _ _ _ _ _ _ _ (mem s)) as [res c'] eqn:Ec. cbn [snd] in Hf.
    assert (mem (fst (match res with
       | inl x => (Sys (s_env s) (Pdb c' (disk s)) cs (<[t:=frs]> (s_threads s)) (Run (fr_req fr) (fr_digest fr) r (fr_begin fr) (s_env s) (fr_xsrcs fr) (fr_xdsts fr) false :: s_log s), RErr x)
       | inr _ => (Sys (s_env s) (Pdb c' (disk s)) cs (<[t:=frs]> (s_threads s)) (Run (fr_req fr) (fr_digest fr) r (fr_begin fr) (s_env s) (fr_xsrcs fr) (fr_xdsts fr) true :: s_log s),
          RDone r (rq_srcs (fr_req fr) ++ fr_xsrcs fr) (rq_dsts (fr_req fr) ++ fr_xdsts fr ++ rq_ret (fr_req fr) r))
       end)) = c') as Hm by (by destruct res).
    rewrite Hm. split; [done|].
    pose proof Ec as Ec'. apply cache0_calls in Ec' as [Hoth Hown]; [|done].
    split; [intros gn Hn; by apply Hoth|]. intros ds x Hds Hx.
    destruct (pr_fun_dirty (fr_prep fr)) eqn:Ed.
    - left. eapply cache0_calls_dirty; eauto.
    - destruct (Hown _ _ Hds Hx) as [->|?]; [by left|right; done].
  Qed.
End Code.
