(** Validation ends with an answer when functions call only themselves and
    functions of lower rank, in one thread. *)
From stdpp Require Import base list strings gmap.
From Coq Require Import ZArith Lia.
From Verif Require Import PyMonad DbModel DbSpec DbClaims CacheBackend CacheLift CacheFacts CacheProv
  DbHistory CacheDeps DbGuard.

Section Rank.
  Context {V R : Type} (veq : V -> V -> bool) (md5 : content -> digest).
  Notation BK := (cache_backend (V := V) (R := R) veq md5).
  Notation core0 := (cache_core0 (R := R) veq).
  Notation cdb := (cdb V R).
  Notation frame := (frame V R name (name * nat) name).
  Notation sys := (sys V R (pdb V R) name (name * nat) name).
  Notation op := (op V R).
  Notation step := (step md5 BK).
  Notation runs := (runs md5 BK).
  Notation mem s := (p_mem (s_db s)).
  Notation disk s := (p_disk (s_db s)).

  Context (rank : name -> nat).

  Definition below (g h : name) : Prop := g = h \/ rank g < rank h.

  Lemma below_trans f g h : below f g -> below g h -> below f h.
  Proof. unfold below. intros [->|?] [->|?]; auto. right. lia. Qed.

  Definition descends (c : cdb) : Prop :=
    forall h d L g, c_functions c !! h = Some (d, L) -> g ∈ L -> below g h.

  Lemma check_function_answers n e fn (c : cdb) :
    descends c -> rank fn < n -> fst (check_function core0 n e fn c) <> inl RecursionErr.
  Proof.
    intros Hc. revert fn. induction n as [|n IH]; intros fn Hr; [lia|]. simpl.
    destruct (e_fun e !! fn) as [d|]; [|done].
    unfold bind at 1. cbn.
    destruct (c_functions c !! fn) as [[od deps]|] eqn:Erow; cbn; [|done].
    destruct (String.eqb d od); cbn; [|done].
    assert (forall g, g ∈ filter (fun x => x <> fn) deps -> rank g < n) as Hds.
    { intros g [Hg Hin]%elem_of_list_filter. destruct (Hc _ _ _ _ Erow Hin) as [->|?]; [done|lia]. }
    revert Hds. generalize (filter (fun x => x <> fn) deps). intros ds Hds.
    set (chk := (fix check_deps (ds : list name) : M _ bool := _)).
    assert (forall ds, (forall g, g ∈ ds -> rank g < n) -> fst (chk ds c) <> inl RecursionErr) as Hchk.
    { clear ds Hds. induction ds as [|dep ds IHd]; intros Hds; [done|].
      cbn. unfold bind. pose proof (IH dep) as H. specialize (H (Hds dep ltac:(by left))).
      destruct (check_function core0 n e dep c) as [[x|[b i]] c2] eqn:E; [simpl in *; congruence|]. cbn.
      pose proof (check_function_pure _ _ _ _ _ _ _ E) as ->.
      destruct b; [done|]. apply IHd. intros g Hg. apply Hds. by right. }
    specialize (Hchk ds Hds). unfold bind. destruct (chk ds c) as [[x|b] c1]; simpl in *; congruence.
  Qed.

  Lemma check_call_file_fails e cid f (c : cdb) x c' :
    check_call_file md5 core0 e cid f c = (inl x, c') -> x = OSErr.
  Proof.
    unfold check_call_file, bind.
    destruct (add_file md5 core0 e f c) as [[y|[[b fid] d]] c1] eqn:E.
    - intros [= -> ->]. by apply add_file_fails in E as [-> _].
    - destruct cid as [cid|]; [|done]. cbn. by destruct (callfile _ _ _ _); [destruct (String.eqb _ _)|].
  Qed.

  Lemma check_call_files_fails e cid fs (c : cdb) x c' :
    check_call_files md5 core0 e cid fs c = (inl x, c') -> x = OSErr.
  Proof.
    revert c. induction fs as [|f fs IH]; intros c; simpl; [done|]. unfold bind.
    destruct (check_call_file md5 core0 e cid f c) as [[y|[[b fid] d]] c1] eqn:E.
    - intros [= -> ->]. by eapply check_call_file_fails.
    - destruct (check_call_files md5 core0 e cid fs c1) as [[y|ds] c2] eqn:E2; [|done].
      intros [= -> ->]. by eapply IH.
  Qed.

  Lemma external_loop_answers e cid fs (c : cdb) x c' :
    check_external_loop md5 core0 e cid fs c <> (inl x, c').
  Proof.
    revert c. induction fs as [|f fs IH]; intros c; simpl; [done|]. unfold bind, try_os.
    destruct (check_call_file md5 core0 e (Some cid) f c) as [r1 c1] eqn:E.
    assert (match r1 with inl y => y = OSErr | _ => True end) as Hr.
    { destruct r1; [|done]. by eapply check_call_file_fails. }
    specialize (IH c1).
    destruct r1 as [y|a]; [subst y|];
      (destruct (check_external_loop md5 core0 e cid fs c1) as [[y|ds] c2] eqn:E2; [|done]);
      intros [= -> ->]; by apply IH.
  Qed.

  Lemma begin_answers (s : sys) t rq :
    descends (mem s) -> rank (rq_fun rq) < e_limit (s_env s) ->
    snd (step s (OBegin t rq)) <> RErr RecursionErr.
  Proof.
    intros Hd Hr. simpl. unfold begin_call. destruct (e_fun (s_env s) !! rq_fun rq) as [d|] eqn:Ed; [|done].
    simpl. rewrite (lifts_prepare veq md5 _ _ _ _ (s_db s)). unfold on_mem.
    destruct (prepare md5 core0 _ _ _ _ (mem s)) as [[x|p] c] eqn:Ep.
    2:{ destruct (pr_fun_dirty p), (pr_call_dirty p), (pr_files p), (pr_xfiles p), (pr_old_result p); try done.
        by destruct (forallb _ _). }
    simpl. intros [= ->]. unfold prepare, bind at 1 in Ep.
    pose proof (check_function_answers _ (s_env s) _ _ Hd Hr) as Hno.
    destruct (check_function core0 (e_limit (s_env s)) (s_env s) (rq_fun rq) (mem s)) as [r1 c1] eqn:E1.
    pose proof (check_function_pure _ _ _ _ _ _ _ E1) as ->.
    destruct r1 as [y|[fd fid]]; simpl in Hno; [congruence|].
    assert (exists cd cid old, (match fd, fid with
               | false, Some fid0 => find_call core0 fid0 (rq_bound rq)
               | _, _ => ret (true, None, None)
               end) (mem s) = (inr (cd, cid, old), mem s)) as (cd & cid & old & Hfc).
    { destruct fd; [by eexists _, _, _|]. destruct fid as [fid|]; [|by eexists _, _, _].
      cbn. unfold c_find_call. destruct (c_calls (mem s) !! fid); [|by eexists _, _, _].
      destruct (search_call _ _ _ _) as [[??]|]; by eexists _, _, _. }
    unfold bind at 1 in Ep. rewrite Hfc in Ep. unfold bind at 1 in Ep.
    destruct (check_call_files md5 core0 (s_env s) cid (rq_srcs rq) (mem s)) as [[y|files] c2] eqn:E2.
    { injection Ep as -> ->. by apply check_call_files_fails in E2. }
    destruct cid as [cid|]; [|done].
    unfold bind, check_external_files, bind in Ep. cbn in Ep.
    destruct (check_external_loop md5 core0 (s_env s) cid _ c2) as [[y|xf] c3] eqn:E3; [|done].
    by apply external_loop_answers in E3.
  Qed.

  (** *** The invariant *)
  Variable t0 : nat.

  Record rinv (s : sys) : Prop := Rinv {
    ri_mem : descends (mem s);
    ri_disk : descends (disk s);
    ri_stack : forall i fr L g, thread s t0 !! i = Some fr -> s_callstack s !! i = Some L -> g ∈ L ->
      below g (rq_fun (fr_req fr));
    ri_frames : forall i fr fr', thread s t0 !! i = Some fr -> thread s t0 !! S i = Some fr' ->
      below (rq_fun (fr_req fr)) (rq_fun (fr_req fr'));
    ri_others : forall t, t <> t0 -> thread s t = []
  }.

  Lemma rinv_fresh s : fresh pdb_empty s -> rinv s.
  Proof.
    intros (Hdb & Hcs & Hth & _).
    assert (forall t, thread s t = []) as Hnil by (intros t; unfold thread; by rewrite Hth, lookup_empty).
    split.
    - rewrite Hdb. intros h d L g. simpl. by rewrite lookup_empty.
    - rewrite Hdb. intros h d L g. simpl. by rewrite lookup_empty.
    - intros i fr L g. by rewrite Hnil.
    - intros i fr fr'. by rewrite Hnil.
    - done.
  Qed.

  (** Frames that only differ in their external dependencies. *)
  Lemma rinv_same (s s' : sys) :
    rinv s -> c_functions (mem s') = c_functions (mem s) -> disk s' = disk s ->
    s_callstack s' = s_callstack s ->
    ((fun fr => rq_fun (fr_req fr)) <$> thread s' t0) = ((fun fr => rq_fun (fr_req fr)) <$> thread s t0) ->
    (forall t, t <> t0 -> thread s' t = []) -> rinv s'.
  Proof.
    intros [] Hm Hd Hc Ht Ho.
    assert (forall i fr, thread s' t0 !! i = Some fr ->
      exists fr1, thread s t0 !! i = Some fr1 /\ rq_fun (fr_req fr1) = rq_fun (fr_req fr)) as Hl.
    { intros i fr Hi. assert (((fun fr => rq_fun (fr_req fr)) <$> thread s' t0) !! i = Some (rq_fun (fr_req fr))) as H.
      { by rewrite list_lookup_fmap, Hi. }
      rewrite Ht, list_lookup_fmap in H. destruct (thread s t0 !! i) as [fr1|]; [|done]. injection H as H. eauto. }
    split; auto.
    - intros h d L g. rewrite Hm. apply ri_mem0.
    - by rewrite Hd.
    - intros i fr L g Hi. rewrite Hc. destruct (Hl _ _ Hi) as (fr1 & H1 & <-). eauto.
    - intros i fr fr' Hi Hi'. destruct (Hl _ _ Hi) as (fr1 & H1 & <-), (Hl _ _ Hi') as (fr2 & H2 & <-). eauto.
  Qed.

  Lemma rinv_step (s : sys) o :
    rinv s -> on_thread t0 o ->
    (forall t rq fr frs, o = OBegin t rq -> thread s t = fr :: frs ->
       below (rq_fun rq) (rq_fun (fr_req fr))) ->
    rinv (fst (step s o)).
  Proof.
    intros Hinv Hon Hb. pose proof Hinv as [Hm Hd Hs Hf Ho].
    pose proof (step_functions veq md5 s o) as Hfun. cbv zeta in Hfun.
    pose proof (step_disk veq md5 s o) as Hdk. pose proof (step_callstack veq md5 s o) as Hcs.
    pose proof (step_frames md5 BK s o) as Hfr. unfold frames_step in Hfr.
    destruct o as [t rq|t xs xd g|t r|t|f ct m|f|dt| |funs|f|f]; simpl in Hon; try subst t.
    - (* OBegin *)
      assert (descends (mem (fst (step s (OBegin t0 rq))))) as Hm'.
      { intros h d L g. rewrite Hfun. apply Hm. }
      assert (forall t, t <> t0 -> thread (fst (step s (OBegin t0 rq))) t = []) as Ho'.
      { intros t Hn. specialize (Hfr t). rewrite decide_False in Hfr by done. rewrite Hfr. by apply Ho. }
      assert (forall i fr L g, thread s t0 !! i = Some fr ->
        note_callee (rq_fun rq) (s_callstack s) !! i = Some L -> g ∈ L -> below g (rq_fun (fr_req fr))) as Hnote.
      { intros i fr L g Hi. destruct (s_callstack s) as [|top rest] eqn:Ecs; [done|]. destruct i as [|i]; simpl.
        - intros [= <-] [Hg|Hg]%elem_of_app.
          + apply (Hs 0 fr top g); [done|by rewrite ?Ecs|done].
          + apply elem_of_list_singleton in Hg as ->. destruct (thread s t0) as [|fr0 frs] eqn:Et; [done|].
            injection Hi as ->. by eapply Hb.
        - intros Hi' Hg. by apply (Hs (S i) fr L g). }
      specialize (Hfr t0). rewrite decide_True in Hfr by done.
      destruct Hfr as [(Hrun & d & p & _ & Hth)|[Hno Hth]].
      + split; auto.
        * by rewrite Hdk.
        * intros i fr L g. rewrite Hth, Hcs, Hrun. destruct i as [|i]; simpl.
          -- intros [= <-] [= <-] Hg. by apply elem_of_nil in Hg.
          -- intros Hi Hi'. by eapply Hnote.
        * intros i fr fr'. rewrite Hth. destruct i as [|i]; simpl; [|by apply Hf].
          intros [= <-] Hi'. simpl. destruct (thread s t0) as [|fr0 frs] eqn:Et; [done|].
          injection Hi' as ->. by eapply Hb.
      + assert (s_callstack (fst (step s (OBegin t0 rq))) = note_callee (rq_fun rq) (s_callstack s)) as Hcs'.
        { rewrite Hcs. by destruct (snd (step s (OBegin t0 rq))). }
        split; auto.
        * by rewrite Hdk.
        * intros i fr L g. rewrite Hth, Hcs'. apply Hnote.
        * intros i fr fr'. rewrite Hth. apply Hf.
    - (* OAddExt *)
      apply (rinv_same s); try done.
      + pose proof (Hfr t0) as H0. rewrite decide_True in H0 by done.
        destruct (thread s t0) as [|fr frs]; rewrite H0; [done|]. simpl. f_equal.
        destruct g; [done|]. by rewrite <- list_fmap_compose.
      + intros t Hn. specialize (Hfr t). rewrite decide_False in Hfr by done. rewrite Hfr. by apply Ho.
    - (* OEnd *)
      assert (forall t, t <> t0 -> thread (fst (step s (OEnd t0 r))) t = []) as Ho'.
      { intros t Hn. specialize (Hfr t). rewrite decide_False in Hfr by done. rewrite Hfr. by apply Ho. }
      specialize (Hfr t0). rewrite decide_True in Hfr by done.
      split; auto.
      + intros h d L g Hrow Hg. specialize (Hfun h).
        destruct (thread s t0) as [|fr frs] eqn:Et; [rewrite Hfun in Hrow; by eapply Hm|].
        destruct (s_callstack s) as [|deps cs] eqn:Ecs; [rewrite Hfun in Hrow; by eapply Hm|].
        destruct (decide _) as [[_ Hh]|_]; [|rewrite Hfun in Hrow; by eapply Hm].
        rewrite Hfun in Hrow. injection Hrow as <- <-. rewrite <- Hh.
        apply (Hs 0 fr deps g); [done|done|done].
      + by rewrite Hdk.
      + intros i fr L g. rewrite Hfr, Hcs. destruct (thread s t0) as [|fr0 frs] eqn:Et; [done|]. simpl.
        destruct (s_callstack s) as [|deps cs] eqn:Ecs; [done|]. simpl. intros Hi Hi'.
        by apply (Hs (S i) fr L g).
      + intros i fr fr'. rewrite Hfr. destruct (thread s t0) as [|fr0 frs] eqn:Et; [done|]. simpl.
        apply (Hf (S i)).
    - (* ORaise *)
      assert (forall t, t <> t0 -> thread (fst (step s (ORaise t0))) t = []) as Ho'.
      { intros t Hn. specialize (Hfr t). rewrite decide_False in Hfr by done. rewrite Hfr. by apply Ho. }
      specialize (Hfr t0). rewrite decide_True in Hfr by done.
      split; auto.
      + intros h d L g. rewrite Hfun. apply Hm.
      + by rewrite Hdk.
      + intros i fr L g. rewrite Hfr, Hcs. destruct (thread s t0) as [|fr0 frs] eqn:Et; [done|]. simpl.
        intros Hi Hi' Hg.
        destruct (lookup_lt_is_Some_2 (fr0 :: frs) i) as [fr1 H1].
        { apply lookup_lt_Some in Hi. simpl. lia. }
        eapply below_trans; [by eapply Hs|]. by eapply Hf.
      + intros i fr fr'. rewrite Hfr. destruct (thread s t0) as [|fr0 frs] eqn:Et; [done|]. simpl.
        apply (Hf (S i)).
    - apply (rinv_same s); try done.
    - apply (rinv_same s); try done.
    - apply (rinv_same s); try done.
    - by split.
    - split.
      + intros h d L g. rewrite Hfun. apply Hd.
      + by rewrite Hdk.
      + intros i fr L g. by rewrite Hcs.
      + intros i fr fr'. by rewrite Hfr.
      + intros t _. by rewrite Hfr.
    - split; auto.
      + intros h d L g. rewrite Hfun. destruct (decide _); [done|]. apply Hm.
    - apply (rinv_same s); try done.
  Qed.

  Lemma rinv_runs (s0 : sys) os :
    fresh pdb_empty s0 -> Forall (on_thread t0) os -> calls_descend md5 BK rank s0 os -> rinv (runs s0 os).
  Proof.
    intros Hf. induction os as [|o os IH] using rev_ind; intros Ht Hc; [by apply rinv_fresh|].
    apply Forall_app in Ht as [Ht Ho]. rewrite Forall_singleton in Ho.
    rewrite (runs_snoc md5). apply rinv_step; [|exact Ho|].
    - apply IH; [done|]. intros a t rq b fr frs -> Hth. apply (Hc a t rq (b ++ [o]) fr frs); [|done]. by rewrite <- app_assoc.
    - intros t rq fr frs -> Hth. by apply (Hc os t rq [] fr frs).
  Qed.

  Lemma step_limit (s : sys) o : e_limit (s_env (fst (step s o))) = e_limit (s_env s).
  Proof.
    destruct o as [t rq|t xs xd g|t r|t|f ct m|f|dt| |funs|f|f]; simpl; try done.
    - unfold begin_call. destruct (e_fun (s_env s) !! rq_fun rq) as [d|] eqn:Ed; [|done].
      destruct (prepare md5 _ _ _ _ _ _) as [res db] eqn:Ep.
      destruct res as [x|p]; [done|].
      destruct (pr_fun_dirty p), (pr_call_dirty p), (pr_files p), (pr_xfiles p), (pr_old_result p); try done.
      by destruct (forallb _ _).
    - unfold end_call. destruct (thread s t) as [|fr frs] eqn:Et; [done|].
      destruct (s_callstack s) as [|deps cs]; [done|].
      by destruct (cache _ _ _ _ _ _ _ _ _ _ _ _ _ (s_db s)) as [[x|u] c'].
    - unfold raise_call. by destruct (thread s t).
  Qed.

  Lemma runs_limit (s : sys) os : e_limit (s_env (runs s os)) = e_limit (s_env s).
  Proof. revert s. induction os as [|o os IH]; intros s; simpl; [done|]. by rewrite IH, step_limit. Qed.

  Lemma validation_answers_ranked (s0 : sys) os t rq :
    fresh pdb_empty s0 -> Forall (on_thread t0) os -> calls_descend md5 BK rank s0 os ->
    rank (rq_fun rq) < e_limit (s_env s0) ->
    snd (step (runs s0 os) (OBegin t rq)) <> RErr RecursionErr.
  Proof.
    intros Hf Ht Hc Hr. apply begin_answers; [|by rewrite runs_limit].
    by apply (ri_mem _ (rinv_runs s0 os Hf Ht Hc)).
  Qed.
End Rank.
