(** Recorded dependencies between cached functions: the call stack of the
    pickle engine while one call runs, and what the rows of the function table
    then contain. *)
From stdpp Require Import base list strings gmap.
From Coq Require Import ZArith Lia.
From Verif Require Import PyMonad DbModel DbSpec DbClaims CacheBackend CacheLift CacheFacts CacheProv DbHistory.

Section Deps.
  Context {V R : Type} (veq : V -> V -> bool) (md5 : content -> digest).
  Notation BK := (cache_backend (V := V) (R := R) veq md5).
  Notation core0 := (cache_core0 (R := R) veq).
  Notation cdb := (cdb V R).
  Notation frame := (frame V R name (name * nat) name).
  Notation sys := (sys V R (pdb V R) name (name * nat) name).
  Notation op := (op V R).
  Notation step := (step md5 BK).
  Notation runs := (runs md5 BK).
  Notation mem s := (p_mem (s_db s)).
  Notation disk s := (p_disk (s_db s)).

  Lemma c_save_call_functions cid i b r (c : cdb) res c' :
    c_save_call cid i b r c = (res, c') -> c_functions c' = c_functions c.
  Proof.
    unfold c_save_call. intros H.
    destruct (c_calls c !! i), cid as [[? ?]|]; try (injection H as <- <-; done).
    destruct (decide _); by injection H as <- <-.
  Qed.

  Lemma save_call_files_functions cid ds (c : cdb) :
    c_functions (snd (save_call_files core0 cid ds c)) = c_functions c.
  Proof.
    revert c. induction ds as [|[[f ?] d] ds IH]; intros c; simpl; [done|].
    unfold bind. cbn. by rewrite IH.
  Qed.

  Lemma save_external_functions e cid xs xd (c : cdb) :
    c_functions (snd (c_save_external veq md5 e cid xs xd c)) = c_functions c.
  Proof.
    unfold c_save_external, bind. cbn.
    match goal with |- context [c_add_files _ _ _ _ ?c1] =>
      pose proof (keeps_add_files veq md5 e xs c1) as [H _ _ _];
      destruct (c_add_files veq md5 e xs c1) as [[x|l] c2] end; simpl in *.
    - by rewrite H.
    - by rewrite save_call_files_functions, H.
  Qed.

  (** A recording changes the row of its own function, exactly when that was found dirty. *)
  Lemma cache0_functions e fd fid fn dg deps cid b r files xs xd (c : cdb) :
    c_functions (snd (cache0 (R:=R) veq md5 e fd fid fn dg deps cid b r files xs xd c)) =
    if fd : bool then <[fn := (dg, deps)]> (c_functions c) else c_functions c.
  Proof.
    unfold cache0. unfold bind at 1.
    match goal with |- context [match ?m c with _ => _ end] => set (stage1 := m) end.
    assert (exists c1, stage1 c = (inr (if fd then Some fn else fid), c1) /\
      c_functions c1 = if fd then <[fn := (dg, deps)]> (c_functions c) else c_functions c) as (c1 & Hs & Hf).
    { unfold stage1, bind. destruct fd; [|by exists c].
      destruct fid as [x|]; cbn; eexists; (split; [reflexivity|]); simpl; [|done].
      apply insert_delete_insert. }
    rewrite Hs, <- Hf. clear stage1 Hs Hf.
    destruct (if fd then Some fn else fid) as [i|]; [|done].
    unfold bind. cbn [save_call cache_core0]. destruct (c_save_call cid i b r c1) as [[x|cid'] c2] eqn:E; simpl.
    { by eapply c_save_call_functions. }
    pose proof (save_call_files_functions cid' files c2) as H2.
    destruct (save_call_files _ cid' files c2) as [[x|[]] c3]; simpl in *.
    - rewrite H2. by eapply c_save_call_functions.
    - rewrite save_external_functions, H2. by eapply c_save_call_functions.
  Qed.

  (** The effect of a step on the row of [h]. *)
  Lemma step_functions (s : sys) (o : op) (h : name) :
    let s' := fst (step s o) in
    match o with
    | OEnd t r =>
        match thread s t, s_callstack s with
        | fr :: _, deps :: _ =>
            if decide (pr_fun_dirty (fr_prep fr) = true /\ rq_fun (fr_req fr) = h)
            then c_functions (mem s') !! h = Some (fr_digest fr, deps)
            else c_functions (mem s') !! h = c_functions (mem s) !! h
        | _, _ => c_functions (mem s') !! h = c_functions (mem s) !! h
        end
    | ODelFun g =>
        c_functions (mem s') !! h = if decide (g = h) then None else c_functions (mem s) !! h
    | ORestart _ => c_functions (mem s') !! h = c_functions (disk s) !! h
    | _ => c_functions (mem s') !! h = c_functions (mem s) !! h
    end.
  Proof.
    destruct o as [t rq|t xs xd g|t r|t|f ct m|f|dt| |funs|f|f]; simpl; try done.
    - unfold begin_call. destruct (e_fun (s_env s) !! rq_fun rq) as [d|] eqn:Ed; [|done].
      destruct (prepare md5 _ _ _ _ _ _) as [res db] eqn:Ep.
      pose proof (begin_basic _ _ _ _ _ _ Ep) as (_ & [Hf _ _ _] & _).
      destruct res as [x|p]; simpl; [by rewrite Hf|].
      destruct (pr_fun_dirty p), (pr_call_dirty p), (pr_files p), (pr_xfiles p), (pr_old_result p);
        simpl; try (by rewrite Hf).
      destruct (forallb _ _); simpl; by rewrite Hf.
    - unfold end_call. destruct (thread s t) as [|fr frs] eqn:Et; [done|].
      destruct (s_callstack s) as [|deps cs]; [done|].
      rewrite (lifts_cache veq md5 _ _ _ _ _ _ _ _ _ _ _ _ (s_db s)). unfold on_mem.
      match goal with |- context [cache0 _ _ ?e ?fd ?fid ?fn ?dg ?dd ?cid ?b ?r ?fi ?xs ?xd (mem s)] =>
        pose proof (cache0_functions e fd fid fn dg dd cid b r fi xs xd (mem s)) as Hc;
        destruct (cache0 veq md5 e fd fid fn dg dd cid b r fi xs xd (mem s)) as [[x|u] c'] end;
        cbn [snd fst s_db p_mem] in *; rewrite Hc;
        (destruct (decide _) as [[Hd Hn]|Hno];
         [rewrite Hd, Hn; by rewrite lookup_insert|]);
        (destruct (pr_fun_dirty _); [|done]); rewrite lookup_insert_ne; naive_solver.
    - unfold raise_call. by destruct (thread s t).
    - destruct (decide (f = h)) as [->|]; [by rewrite lookup_delete|by rewrite lookup_delete_ne].
  Qed.

  Lemma step_disk (s : sys) (o : op) :
    disk (fst (step s o)) = match o with OSave => mem s | _ => disk s end.
  Proof.
    destruct o as [t rq|t xs xd g|t r|t|f ct m|f|dt| |funs|f|f]; simpl; try done.
    - unfold begin_call. destruct (e_fun (s_env s) !! rq_fun rq) as [d|] eqn:Ed; [|done].
      destruct (prepare md5 _ _ _ _ _ _) as [res db] eqn:Ep.
      pose proof (begin_basic _ _ _ _ _ _ Ep) as (Hdk & _ & _).
      destruct res as [x|p]; [done|].
      destruct (pr_fun_dirty p), (pr_call_dirty p), (pr_files p), (pr_xfiles p), (pr_old_result p); try done.
      by destruct (forallb _ _).
    - unfold end_call. destruct (thread s t) as [|fr frs] eqn:Et; [done|].
      destruct (s_callstack s) as [|deps cs]; [done|].
      rewrite (lifts_cache veq md5 _ _ _ _ _ _ _ _ _ _ _ _ (s_db s)). unfold on_mem.
      by destruct (cache0 _ _ _ _ _ _ _ _ _ _ _ _ _ _ (mem s)) as [[x|u] c'].
    - unfold raise_call. by destruct (thread s t).
  Qed.

  (** The effect of a step on the call stack. *)
  Lemma step_callstack (s : sys) (o : op) :
    s_callstack (fst (step s o)) =
    match o with
    | OBegin _ rq =>
        match snd (step s o) with RRun => [] :: note_callee (rq_fun rq) (s_callstack s)
                                | _ => note_callee (rq_fun rq) (s_callstack s) end
    | OEnd t _ => match thread s t with [] => s_callstack s | _ => tail (s_callstack s) end
    | ORestart _ => []
    | _ => s_callstack s
    end.
  Proof.
    destruct o as [t rq|t xs xd g|t r|t|f ct m|f|dt| |funs|f|f]; simpl; try done.
    - unfold begin_call. destruct (e_fun (s_env s) !! rq_fun rq) as [d|] eqn:Ed; [|done].
      destruct (prepare md5 _ _ _ _ _ _) as [res db] eqn:Ep.
      destruct res as [x|p]; [done|].
      destruct (pr_fun_dirty p), (pr_call_dirty p), (pr_files p), (pr_xfiles p), (pr_old_result p); try done.
      by destruct (forallb _ _).
    - unfold end_call. destruct (thread s t) as [|fr frs] eqn:Et; [done|].
      destruct (s_callstack s) as [|deps cs]; [done|].
      by destruct (cache _ _ _ _ _ _ _ _ _ _ _ _ _ (s_db s)) as [[x|u] c'].
    - unfold raise_call. by destruct (thread s t).
  Qed.

  Lemma step_efun (s : sys) (o : op) :
    e_fun (s_env (fst (step s o))) = match o with ORestart funs => funs | _ => e_fun (s_env s) end.
  Proof.
    destruct o as [t rq|t xs xd g|t r|t|f ct m|f|dt| |funs|f|f]; simpl; try done.
    - unfold begin_call. destruct (e_fun (s_env s) !! rq_fun rq) as [d|] eqn:Ed; [|done].
      destruct (prepare md5 _ _ _ _ _ _) as [res db] eqn:Ep.
      destruct res as [x|p]; [done|].
      destruct (pr_fun_dirty p), (pr_call_dirty p), (pr_files p), (pr_xfiles p), (pr_old_result p); try done.
      by destruct (forallb _ _).
    - unfold end_call. destruct (thread s t) as [|fr frs] eqn:Et; [done|].
      destruct (s_callstack s) as [|deps cs]; [done|].
      by destruct (cache _ _ _ _ _ _ _ _ _ _ _ _ _ (s_db s)) as [[x|u] c'].
    - unfold raise_call. by destruct (thread s t).
  Qed.

  (** A call that does not fail leaves the row of its function current, or runs
      and will write it. *)
  Lemma begin_row (s : sys) t rq :
    (forall x, snd (step s (OBegin t rq)) <> RErr x) ->
    exists d, e_fun (s_env s) !! rq_fun rq = Some d /\
    ((exists deps, c_functions (mem s) !! rq_fun rq = Some (d, deps)) \/
     (exists p, snd (step s (OBegin t rq)) = RRun /\ pr_fun_dirty p = true /\
        thread (fst (step s (OBegin t rq))) t = Frame rq d p [] [] (s_env s) :: thread s t)).
  Proof.
    simpl. unfold begin_call. destruct (e_fun (s_env s) !! rq_fun rq) as [d|] eqn:Ed.
    2:{ intros H. by edestruct H. }
    destruct (prepare md5 _ _ _ _ _ _) as [res db] eqn:Ep.
    destruct res as [x|p]; [intros H; by edestruct H|]. intros _. exists d. split; [done|].
    destruct (pr_fun_dirty p) eqn:Edirty.
    { right. exists p. cbn [fst snd]. split_and!; [done|done|].
      rewrite thread_insert. by rewrite decide_True. }
    left. simpl in Ep. rewrite (lifts_prepare veq md5 _ _ _ _ (s_db s)) in Ep. unfold on_mem in Ep.
    destruct (prepare md5 core0 _ _ _ _ (mem s)) as [res c] eqn:Ep0. injection Ep as -> _.
    unfold prepare, bind in Ep0.
    destruct (check_function core0 (e_limit (s_env s)) (s_env s) (rq_fun rq) (mem s)) as [[x|[fd fid]] c1] eqn:E1;
      [done|].
    pose proof (check_function_spec _ _ _ _ _ _ _ _ E1) as (d' & Hd & _ & _ & Hclean).
    replace d' with d in * by congruence. apply Hclean.
    repeat (match type of Ep0 with context [match ?x with _ => _ end] => destruct x end; try done);
      injection Ep0 as <- _; done.
  Qed.
End Deps.
