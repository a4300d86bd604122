(** Returning from a cached function: which errors recording the result can raise. *)
From stdpp Require Import base list strings gmap.
From Coq Require Import ZArith Lia.
From Verif Require Import PyMonad DbModel DbSpec DbClaims CacheBackend CacheLift CacheFacts CacheProv
  DbHistory CacheDeps CacheNoop.

Section Guard.
  Context {V R : Type} (veq : V -> V -> bool) (md5 : content -> digest).
  Notation BK := (cache_backend (V := V) (R := R) veq md5).
  Notation core0 := (cache_core0 (R := R) veq).
  Notation cdb := (cdb V R).
  Notation frame := (frame V R name (name * nat) name).
  Notation sys := (sys V R (pdb V R) name (name * nat) name).
  Notation op := (op V R).
  Notation step := (step md5 BK).
  Notation runs := (runs md5 BK).
  Notation mem s := (p_mem (s_db s)).
  Notation disk s := (p_disk (s_db s)).

  (** There are at least as many entries on the call stack as running functions. *)
  Definition covered (s : sys) : Prop :=
    exists T : list nat, (forall t, length (thread s t) = length (filter (fun x => x = t) T)) /\
      length T <= length (s_callstack s).

  Lemma note_callee_length fn cs : length (note_callee fn cs) = length cs.
  Proof. by destruct cs. Qed.

  Lemma covered_pop (s s' : sys) t :
    covered s -> thread s t <> [] ->
    (forall t', thread s' t' = if decide (t = t') then tail (thread s t) else thread s t') ->
    length (s_callstack s) <= S (length (s_callstack s')) -> covered s'.
  Proof.
    intros (T & HT & Hlen) Hne Hth Hcs.
    assert (t ∈ T) as Hin.
    { destruct (filter (fun x => x = t) T) as [|x l] eqn:E.
      - specialize (HT t). rewrite E in HT. by destruct (thread s t).
      - assert (x ∈ filter (fun x => x = t) T) as H by (rewrite E; by left).
        apply elem_of_list_filter in H as [-> ?]. done. }
    apply elem_of_list_split in Hin as (T1 & T2 & ->).
    exists (T1 ++ T2). split.
    - intros t'. rewrite Hth. specialize (HT t'). rewrite filter_app, app_length in HT |- *.
      rewrite filter_cons in HT. destruct (decide (t = t')) as [<-|Hn].
      + destruct (decide (t = t)); [|done]. simpl in HT. destruct (thread s t); [done|]. simpl in *. lia.
      + lia.
    - rewrite app_length in *. simpl in Hlen. lia.
  Qed.

  Lemma covered_step (s : sys) o : covered s -> covered (fst (step s o)).
  Proof.
    intros Hc. pose proof (step_frames md5 BK s o) as Hfr. pose proof (step_callstack veq md5 s o) as Hcs.
    unfold frames_step in Hfr.
    destruct o as [t rq|t xs xd g|t r|t|f ct m|f|dt| |funs|f|f].
    - destruct Hc as (T & HT & Hlen).
      destruct (snd (step s (OBegin t rq))) eqn:Eo.
      2:{ exists (t :: T). rewrite Hcs. split; [|simpl; rewrite note_callee_length; lia].
          intros t'. specialize (Hfr t'). specialize (HT t'). rewrite filter_cons.
          destruct (decide (t = t')) as [<-|Hn].
          - destruct Hfr as [(_ & d & p & _ & ->)|[Hno _]]; [|congruence]. simpl. lia.
          - by rewrite Hfr. }
      all: exists T; rewrite Hcs, note_callee_length; split; [|done]; intros t'; specialize (Hfr t');
        specialize (HT t'); destruct (decide (t = t')) as [<-|Hn]; [|by rewrite Hfr];
        destruct Hfr as [[? _]|[_ ->]]; [congruence|done].
    - destruct Hc as (T & HT & Hlen). exists T. rewrite Hcs. split; [|done].
      intros t'. rewrite <- HT. specialize (Hfr t'). destruct (decide (t = t')) as [<-|Hn]; [|by rewrite Hfr].
      destruct (thread s t) as [|fr frs]; rewrite Hfr; [done|]. simpl. destruct g; [done|by rewrite fmap_length].
    - destruct (thread s t) as [|fr frs] eqn:Et.
      + destruct Hc as (T & HT & Hlen). exists T. rewrite Hcs. split; [|done].
        intros t'. rewrite <- HT. specialize (Hfr t').
        destruct (decide (t = t')) as [<-|Hn]; by rewrite Hfr, ?Et.
      + apply (covered_pop s _ t); [done|by rewrite Et| |].
        * intros t'. specialize (Hfr t'). destruct (decide (t = t')) as [<-|]; done.
        * rewrite Hcs. destruct (s_callstack s); simpl; lia.
    - destruct (thread s t) as [|fr frs] eqn:Et.
      + destruct Hc as (T & HT & Hlen). exists T. rewrite Hcs. split; [|done].
        intros t'. rewrite <- HT. specialize (Hfr t').
        destruct (decide (t = t')) as [<-|Hn]; by rewrite Hfr, ?Et.
      + apply (covered_pop s _ t); [done|by rewrite Et| |].
        * intros t'. specialize (Hfr t'). destruct (decide (t = t')) as [<-|]; done.
        * rewrite Hcs. lia.
    - destruct Hc as (T & HT & Hlen). exists T. rewrite Hcs. split; [|done]. intros t'. by rewrite Hfr.
    - destruct Hc as (T & HT & Hlen). exists T. rewrite Hcs. split; [|done]. intros t'. by rewrite Hfr.
    - destruct Hc as (T & HT & Hlen). exists T. rewrite Hcs. split; [|done]. intros t'. by rewrite Hfr.
    - destruct Hc as (T & HT & Hlen). exists T. rewrite Hcs. split; [|done]. intros t'. by rewrite Hfr.
    - exists []. rewrite Hcs. split; [|done]. intros t'. by rewrite Hfr.
    - destruct Hc as (T & HT & Hlen). exists T. rewrite Hcs. split; [|done]. intros t'. by rewrite Hfr.
    - destruct Hc as (T & HT & Hlen). exists T. rewrite Hcs. split; [|done]. intros t'. by rewrite Hfr.
  Qed.

  Lemma covered_fresh s : fresh pdb_empty s -> covered s.
  Proof.
    intros (_ & _ & Ht & _). exists []. split; [|simpl; lia].
    intros t. unfold thread. by rewrite Ht, lookup_empty.
  Qed.

  Lemma covered_runs s os : covered s -> covered (runs s os).
  Proof. revert s. induction os as [|o os IH]; intros s H; simpl; [done|]. by apply IH, covered_step. Qed.

  Lemma covered_stack s t : covered s -> thread s t <> [] -> s_callstack s <> [].
  Proof.
    intros (T & HT & Hlen) Hne Hcs. rewrite Hcs in Hlen. simpl in Hlen.
    destruct T; [|simpl in Hlen; lia]. specialize (HT t). by destruct (thread s t).
  Qed.

  (** What a running call remembers of the tables. *)
  Definition remembers (c : cdb) (fn : name) (p : prepared R name (name * nat) name) : Prop :=
    (pr_fun_dirty p = false -> is_Some (pr_fun_id p)) /\
    (forall x, pr_fun_id p = Some x -> x = fn) /\
    (forall gn i, pr_call_id p = Some (gn, i) ->
       pr_fun_dirty p = false /\ exists ds, c_calls c !! fn = Some ds /\ i < length ds).

  Lemma prepare_remembers e fn b srcs (c : cdb) p c' :
    prepare md5 core0 e fn b srcs c = (inr p, c') -> remembers c fn p.
  Proof.
    unfold prepare, bind. destruct (check_function core0 (e_limit e) e fn c) as [r1 c1] eqn:E1.
    pose proof (check_function_pure _ _ _ _ _ _ _ E1) as ->.
    destruct r1 as [x|[fd fid]]; [done|].
    pose proof (check_function_spec _ _ _ _ _ _ _ _ E1) as (d & Hd & Hnone & Hsome & Hclean).
    assert (forall (cd : bool) (cid : option (name * nat)) (old : option R) c2,
      (match fd, fid with
       | false, Some fid0 => find_call core0 fid0 b
       | _, _ => ret (true, None, None)
       end) c = (inr (cd, cid, old), c2) -> c2 = c /\
       (forall gn i, cid = Some (gn, i) -> fd = false /\
         exists ds, c_calls c !! fn = Some ds /\ i < length ds)) as Hfc.
    { intros cd cid old c2. destruct fd; [by intros [= <- <- <- <-]|].
      destruct fid as [fid0|]; [|by intros [= <- <- <- <-]].
      specialize (Hsome fid0 eq_refl) as ->. cbn. unfold c_find_call.
      destruct (c_calls c !! fn) as [ds|]; [|by intros [= <- <- <- <-]].
      destruct (search_call veq b 0 ds) as [[i r]|] eqn:Es; [|by intros [= <- <- <- <-]].
      intros [= <- <- <- <-]. split; [done|]. intros gn j [= <- <-].
      apply search_call_spec in Es as (k & b' & -> & Hk & ?). split; [done|]. exists ds. split; [done|].
      by apply lookup_lt_Some in Hk. }
    revert Hfc. generalize (if fd then ret (true, None, None) else
         match fid with
         | Some fid0 => find_call core0 fid0 b
         | None => ret (true, None, None)
         end). intros fc Hfc.
    destruct (fc c) as [r2 c2] eqn:E2.
    destruct r2 as [x|[[cd cid] old]]; [done|].
    destruct (Hfc _ _ _ _ eq_refl) as [-> Hres].
    destruct (check_call_files md5 core0 e cid srcs c) as [[x|files] c3]; [done|].
    match goal with |- match ?m with _ => _ end = _ -> _ => destruct m as [[x|[[xs xd] xf]] c4] end; [done|].
    intros [= <- <-]. split_and!; simpl; auto.
    intros ->. destruct fid; [by eexists|]. by destruct Hnone.
  Qed.

  Lemma add_file_fails e f (c : cdb) x c' :
    add_file md5 core0 e f c = (inl x, c') -> x = OSErr /\ e_fs e !! f = None.
  Proof.
    unfold add_file, bind. cbn.
    destruct (e_fs e !! f) as [[m0 ct]|] eqn:Ef.
    2:{ destruct (c_files c !! f) as [[??]|]; cbn; by intros [= <- _]. }
    destruct (c_files c !! f) as [[om od]|] eqn:Ec; cbn; [|done].
    destruct (Z.eqb m0 om && Z.ltb one_second (e_now e - m0))%bool; cbn; [done|].
    by destruct (String.eqb _ _); cbn.
  Qed.

  Lemma add_files_fails e fs (c : cdb) x c' :
    c_add_files veq md5 e fs c = (inl x, c') -> x = OSErr /\ exists f, f ∈ fs /\ e_fs e !! f = None.
  Proof.
    revert c. induction fs as [|f fs IH]; intros c; simpl; [done|]. unfold bind.
    destruct (add_file md5 core0 e f c) as [[y|[[b fid] d]] c1] eqn:E.
    - intros [= -> ->]. apply add_file_fails in E as [-> ?]. split; [done|]. exists f. split; [by left|done].
    - destruct (c_add_files veq md5 e fs c1) as [[y|ds] c2] eqn:E2; [|done].
      intros [= -> ->]. apply IH in E2 as [-> (g & ? & ?)]. split; [done|]. exists g. split; [by right|done].
  Qed.

  Lemma save_call_files_ok cid ds (c : cdb) : exists c', save_call_files core0 cid ds c = (inr tt, c').
  Proof.
    revert c. induction ds as [|[[f ?] d] ds IH]; intros c; simpl; [by eexists|].
    unfold bind. cbn. apply IH.
  Qed.

  Lemma cache0_result e fd fid fn dg deps cid b r files xs xd (c : cdb) res c' :
    (fd = false -> is_Some fid) -> (forall x, fid = Some x -> x = fn) ->
    (forall gn i, cid = Some (gn, i) -> fd = false /\ exists ds, c_calls c !! fn = Some ds /\ i < length ds) ->
    cache0 (R:=R) veq md5 e fd fid fn dg deps cid b r files xs xd c = (res, c') ->
    (res = inr tt \/ (res = inl OSErr /\ exists f, f ∈ xs /\ e_fs e !! f = None)) /\
    (forall gn ds, c_calls c !! gn = Some ds ->
       (gn = fn /\ fd = true /\ is_Some fid) \/
       exists ds', c_calls c' !! gn = Some ds' /\ length ds <= length ds').
  Proof.
    intros Hfid0 Hfid Hcid. unfold cache0. unfold bind at 1.
    match goal with |- match ?m c with _ => _ end = _ -> _ => set (stage1 := m) end.
    assert (exists c1, stage1 c = (inr (Some fn), c1) /\
      (fd = false -> c1 = c) /\
      (forall gn ds, c_calls c !! gn = Some ds ->
         (gn = fn /\ fd = true /\ is_Some fid) \/ c_calls c1 !! gn = Some ds)) as (c1 & Hs1 & Hc1 & Hg1).
    { unfold stage1, bind. destruct fd.
      - destruct fid as [x|]; cbn; eexists; (split; [reflexivity|]); simpl; (split; [done|]); intros gn ds Hds.
        + destruct (decide (gn = fn)) as [->|]; [left; eauto|right]. by rewrite lookup_delete_ne.
        + by right.
      - destruct (Hfid0 eq_refl) as [x ->]. rewrite (Hfid x eq_refl). exists c. split_and!; try done. by right. }
    rewrite Hs1. clear stage1 Hs1. unfold bind. cbn [save_call cache_core0].
    assert (exists cid' c2, c_save_call cid fn b r c1 = (inr cid', c2) /\
      forall gn ds, c_calls c1 !! gn = Some ds ->
        exists ds', c_calls c2 !! gn = Some ds' /\ length ds <= length ds') as (cid' & c2 & Hs2 & Hg2).
    { unfold c_save_call. destruct (c_calls c1 !! fn) as [ds1|] eqn:Eds.
      - destruct cid as [[g i]|].
        + destruct (Hcid g i eq_refl) as (-> & ds & Hds & Hi). rewrite (Hc1 eq_refl) in Eds.
          rewrite Eds in Hds. injection Hds as <-. rewrite decide_True by done.
          eexists _, _. split; [reflexivity|]. intros gn ds Hds. simpl.
          rewrite (Hc1 eq_refl) in Hds |- *.
          destruct (decide (gn = fn)) as [->|]; [rewrite lookup_insert|rewrite lookup_insert_ne by done; eauto].
          eexists. split; [reflexivity|]. rewrite insert_length. rewrite Eds in Hds. by injection Hds as <-.
        + eexists _, _. split; [reflexivity|]. intros gn ds Hds. simpl.
          destruct (decide (gn = fn)) as [->|]; [rewrite lookup_insert|rewrite lookup_insert_ne by done; eauto].
          eexists. split; [reflexivity|]. rewrite app_length. rewrite Eds in Hds. injection Hds as <-. lia.
      - eexists _, _. split; [reflexivity|]. intros gn ds Hds. simpl.
        destruct (decide (gn = fn)) as [->|]; [congruence|rewrite lookup_insert_ne by done; eauto]. }
    rewrite Hs2.
    pose proof (keeps_save_call_files veq cid' files c2) as [_ Hk3 _ _].
    destruct (save_call_files_ok cid' files c2) as [c3 Hs3]. rewrite Hs3 in Hk3 |- *. simpl in Hk3.
    assert (forall c'' : cdb, c_calls c'' = c_calls c3 -> forall gn ds, c_calls c !! gn = Some ds ->
       (gn = fn /\ fd = true /\ is_Some fid) \/
       exists ds', c_calls c'' !! gn = Some ds' /\ length ds <= length ds') as Hfin.
    { intros c'' Hc'' gn ds Hds. destruct (Hg1 _ _ Hds) as [?|H1]; [by left|right].
      rewrite Hc'', Hk3. by apply Hg2. }
    unfold c_save_external, modify, bind. set (c4 := Cdb _ _ _ _ _ _).
    pose proof (keeps_add_files veq md5 e xs c4) as [_ Hk5 _ _].
    destruct (c_add_files veq md5 e xs c4) as [[x|ds5] c5] eqn:E5; simpl in Hk5.
    - intros [= <- <-]. apply add_files_fails in E5 as [-> ?]. split; [by right|]. by apply Hfin.
    - pose proof (keeps_save_call_files veq cid' ds5 c5) as [_ Hk6 _ _].
      destruct (save_call_files_ok cid' ds5 c5) as [c6 Hs6]. rewrite Hs6 in Hk6 |- *. simpl in Hk6.
      intros [= <- <-]. split; [by left|]. apply Hfin. by rewrite Hk6, Hk5.
  Qed.

  (** Every running call remembers valid positions. *)
  Definition in_range (s : sys) : Prop :=
    forall t fr, fr ∈ thread s t -> remembers (mem s) (rq_fun (fr_req fr)) (fr_prep fr).

  Lemma remembers_mono (c c' : cdb) fn p :
    (forall ds, c_calls c !! fn = Some ds -> exists ds', c_calls c' !! fn = Some ds' /\ length ds <= length ds') ->
    remembers c fn p -> remembers c' fn p.
  Proof.
    intros Hm (H1 & H2 & H3). split_and!; try done. intros gn i Hi.
    destruct (H3 gn i Hi) as (? & ds & Hds & Hlt). split; [done|].
    destruct (Hm _ Hds) as (ds' & ? & ?). exists ds'. split; [done|lia].
  Qed.

  Lemma begin_calls (s : sys) t rq : c_calls (mem (fst (step s (OBegin t rq)))) = c_calls (mem s).
  Proof.
    simpl. unfold begin_call. destruct (e_fun (s_env s) !! rq_fun rq) as [d|] eqn:Ed; [|done].
    destruct (prepare md5 _ _ _ _ _ _) as [res db] eqn:Ep.
    pose proof (begin_basic _ _ _ _ _ _ Ep) as (_ & [_ Hf _ _] & _).
    destruct res as [x|p]; simpl; [by rewrite Hf|].
    destruct (pr_fun_dirty p), (pr_call_dirty p), (pr_files p), (pr_xfiles p), (pr_old_result p);
      simpl; try (by rewrite Hf).
    destruct (forallb _ _); simpl; by rewrite Hf.
  Qed.

  Lemma end_result (s : sys) t r fr frs :
    covered s -> in_range s -> thread s t = fr :: frs ->
    ((exists srcs dsts, snd (step s (OEnd t r)) = RDone r srcs dsts) \/
     (snd (step s (OEnd t r)) = RErr OSErr /\ exists f, f ∈ fr_xsrcs fr /\ e_fs (s_env s) !! f = None)) /\
    (forall gn ds, c_calls (mem s) !! gn = Some ds ->
       (gn = rq_fun (fr_req fr) /\ pr_fun_dirty (fr_prep fr) = true /\ is_Some (pr_fun_id (fr_prep fr))) \/
       exists ds', c_calls (mem (fst (step s (OEnd t r)))) !! gn = Some ds' /\ length ds <= length ds').
  Proof.
    intros Hcov Hin Ht. pose proof (covered_stack s t Hcov) as Hcs. rewrite Ht in Hcs.
    simpl. unfold end_call. rewrite Ht. destruct (s_callstack s) as [|deps cs]; [by destruct Hcs|].
    destruct (Hin t fr) as (H1 & H2 & H3); [rewrite Ht; by left|].
    rewrite (lifts_cache veq md5 _ _ _ _ _ _ _ _ _ _ _ _ (s_db s)). unfold on_mem.
    destruct (cache0 _ _ _ _ _ _ _ _ _ _ _ _ _ _ (mem s)) as [res c'] eqn:Ec.
    apply cache0_result in Ec as [Hres Hcalls]; [|done|done|done].
    split.
    - destruct Hres as [->|[-> ?]]; simpl; [left; eauto|by right].
    - intros gn ds Hds. destruct (Hcalls _ _ Hds) as [?|?]; [by left|right]. by destruct res.
  Qed.

  Lemma in_range_step (s : sys) o :
    covered s -> in_range s -> changes_alone s ->
    (forall f, o = ODelFun f -> quiescent s) -> in_range (fst (step s o)).
  Proof.
    intros Hcov Hin Halone Hq t1 fr1 Hfr1.
    pose proof (step_frames md5 BK s o t1) as Hst. unfold frames_step in Hst.
    destruct o as [t rq|t xs xd g|t r|t|f ct m|f|dt| |funs|f|f].
    - assert (forall fr, fr ∈ thread s t1 ->
        remembers (mem (fst (step s (OBegin t rq)))) (rq_fun (fr_req fr)) (fr_prep fr)) as Hold.
      { intros fr Hfr. eapply remembers_mono; [|by eapply Hin].
        intros ds. rewrite begin_calls. eauto. }
      destruct (decide (t = t1)) as [->|]; [|rewrite Hst in Hfr1; by apply Hold].
      destruct Hst as [(Hrun & _)|[_ Hst]]; [|rewrite Hst in Hfr1; by apply Hold].
      destruct (begin_run veq md5 s t1 rq Hrun) as (d & p & c & Hd & Hp & Hs').
      rewrite Hs' in Hfr1. rewrite thread_insert, decide_True in Hfr1 by done.
      apply elem_of_cons in Hfr1 as [->|Hfr1]; [|by apply Hold].
      eapply remembers_mono; [|by eapply prepare_remembers]. intros ds. rewrite begin_calls. eauto.
    - destruct (decide (t = t1)) as [->|]; [|rewrite Hst in Hfr1; by eapply Hin].
      destruct (thread s t1) as [|fr0 frs] eqn:Et; rewrite Hst in Hfr1; [by apply elem_of_nil in Hfr1|].
      apply elem_of_cons in Hfr1 as [->|Hfr1].
      + apply (Hin t1 fr0). rewrite Et. by left.
      + destruct g; [apply (Hin t1); rewrite Et; by right|].
        apply elem_of_list_fmap in Hfr1 as (fr' & -> & Hfr1). apply (Hin t1 fr'). rewrite Et. by right.
    - destruct (thread s t) as [|fr frs] eqn:Et.
      { assert (fst (step s (OEnd t r)) = s) as -> by (simpl; unfold end_call; by rewrite Et).
        apply (Hin t1). destruct (decide (t = t1)) as [->|]; rewrite Hst in Hfr1; [|done].
        by rewrite Et in Hfr1 |- *. }
      destruct (end_result s t r fr frs Hcov Hin Et) as [_ Hcalls].
      assert (exists i, thread s t1 !! i = Some fr1 /\ (t1 = t -> i <> 0)) as (i & Hi & Hne).
      { destruct (decide (t = t1)) as [->|Hn]; rewrite Hst in Hfr1.
        - rewrite Et in Hfr1 |- *. simpl in Hfr1. apply elem_of_list_lookup in Hfr1 as [i Hi].
          by exists (S i).
        - apply elem_of_list_lookup in Hfr1 as [i Hi]. exists i. split; [done|]. congruence. }
      eapply remembers_mono; [|eapply (Hin t1); by eapply elem_of_list_lookup_2].
      intros ds Hds. destruct (Hcalls _ _ Hds) as [(Hf & Hdt & Hid)|?]; [|done]. exfalso.
      destruct (Halone t 0 fr t1 i fr1) as [-> <-]; try done; [by rewrite Et|]. by apply Hne.
    - assert (mem (fst (step s (ORaise t))) = mem s) as -> by (simpl; unfold raise_call; by destruct (thread s t)).
      apply (Hin t1). destruct (decide (t = t1)) as [->|]; rewrite Hst in Hfr1; [|done].
      destruct (thread s t1); [done|by right].
    - rewrite Hst in Hfr1. by eapply Hin.
    - rewrite Hst in Hfr1. by eapply Hin.
    - rewrite Hst in Hfr1. by eapply Hin.
    - rewrite Hst in Hfr1. by eapply Hin.
    - rewrite Hst in Hfr1. by apply elem_of_nil in Hfr1.
    - rewrite Hst, (Hq f eq_refl) in Hfr1. by apply elem_of_nil in Hfr1.
    - rewrite Hst in Hfr1. by eapply Hin.
  Qed.

  Lemma orderly_range (s0 : sys) os :
    fresh pdb_empty s0 -> orderly md5 BK s0 os -> in_range (runs s0 os).
  Proof.
    intros Hf. induction os as [|o os IH] using rev_ind; intros [Ha Hq].
    - intros t fr. simpl. unfold thread. destruct Hf as (_ & _ & -> & _). rewrite lookup_empty.
      by intros ?%elem_of_nil.
    - rewrite (runs_snoc md5). apply in_range_step.
      + by apply covered_runs, covered_fresh.
      + apply IH. split.
        * intros a b ->. apply (Ha a (b ++ [o])). by rewrite <- app_assoc.
        * intros a f b ->. apply (Hq a f (b ++ [o])). by rewrite <- app_assoc.
      + by apply (Ha os [o]).
      + intros f ->. by apply (Hq os f []).
  Qed.

  (** Returning from a cached function records its result, or reports a missing
      external source. *)
  Lemma return_result (s0 : sys) os t r fr frs :
    fresh pdb_empty s0 -> orderly md5 BK s0 os -> thread (runs s0 os) t = fr :: frs ->
    (exists srcs dsts, snd (step (runs s0 os) (OEnd t r)) = RDone r srcs dsts) \/
    (snd (step (runs s0 os) (OEnd t r)) = RErr OSErr /\
     exists f, f ∈ fr_xsrcs fr /\ e_fs (s_env (runs s0 os)) !! f = None).
  Proof.
    intros Hf Ho Ht. eapply end_result; [|by apply orderly_range|exact Ht].
    by apply covered_runs, covered_fresh.
  Qed.

  Lemma return_oserr (s0 : sys) os t r x :
    fresh pdb_empty s0 -> orderly md5 BK s0 os ->
    snd (step (runs s0 os) (OEnd t r)) = RErr x -> x = OSErr.
  Proof.
    intros Hf Ho Hx. destruct (thread (runs s0 os) t) as [|fr frs] eqn:Et.
    - simpl in Hx. unfold end_call in Hx. by rewrite Et in Hx.
    - destruct (return_result s0 os t r fr frs Hf Ho Et) as [(? & ? & H)|[H _]]; [congruence|].
      rewrite H in Hx. by injection Hx as <-.
  Qed.

  (** The innermost running call of a thread began at one place only. *)
  Lemma began_unique (s0 : sys) t rq a b rq' a' b' :
    a ++ OBegin t rq :: b = a' ++ OBegin t rq' :: b' ->
    still_running md5 BK s0 t rq a b -> still_running md5 BK s0 t rq' a' b' ->
    depth (runs s0 a) t = depth (runs s0 a') t -> a = a' /\ rq = rq' /\ b = b'.
  Proof.
    intros Heq [_ H1] [_ H2] Hd.
    apply app_eq_inv in Heq as [(k & -> & Hk)|(k & -> & Hk)].
    - destruct k as [|o k]; simpl in Hk.
      + injection Hk as Hk1 Hk2. rewrite app_nil_r. by subst.
      + injection Hk as Hk1 Hk2. subst o. specialize (H2 k _ Hk2). lia.
    - destruct k as [|o k]; simpl in Hk.
      + injection Hk as Hk1 Hk2. rewrite app_nil_r. by subst.
      + injection Hk as Hk1 Hk2. subst o. specialize (H1 k _ Hk2). lia.
  Qed.

  Lemma return_records (s0 : sys) a t rq b r :
    fresh pdb_empty s0 -> orderly md5 BK s0 (a ++ OBegin t rq :: b) ->
    runs_during md5 BK s0 t rq a b ->
    let s := runs s0 (a ++ OBegin t rq :: b) in
    (forall f, registered md5 BK s0 (fun xs _ => xs) t rq a b f -> is_Some (e_fs (s_env s) !! f)) ->
    exists srcs dsts, snd (step s (OEnd t r)) = RDone r srcs dsts.
  Proof.
    intros Hf Ho [Hrun Hdep] s Hex.
    destruct (thread s t) as [|fr frs] eqn:Et.
    { unfold depth in Hdep. fold s in Hdep. rewrite Et in Hdep. done. }
    destruct (return_result s0 _ t r fr frs Hf Ho Et) as [?|(_ & f & Hin & Hno)]; [done|].
    destruct Hf as (_ & _ & Hth & _).
    destruct (frames_began md5 BK s0 (a ++ OBegin t rq :: b) Hth t [] fr frs Et)
      as (a' & b' & Heq & Hrun' & Hn & _ & _ & Hx & _).
    assert (a = a' /\ rq = fr_req fr /\ b = b') as (<- & Hrq & <-).
    { eapply began_unique; try done. unfold depth at 1 in Hdep. fold s in Hdep. rewrite Et in Hdep.
      simpl in Hdep. lia. }
    apply Hx in Hin. rewrite <- Hrq in Hin. apply Hex in Hin as [? Hin]. unfold s in Hin. congruence.
  Qed.

  (** *** Declared sources of a hit exist *)
  Lemma check_call_files_exist e cid fs (c : cdb) ds c' :
    check_call_files md5 core0 e cid fs c = (inr ds, c') -> forall f, f ∈ fs -> is_Some (e_fs e !! f).
  Proof.
    revert c ds. induction fs as [|f fs IH]; intros c ds; simpl; [intros _ f ?; by apply elem_of_nil in H|].
    unfold bind. destruct (check_call_file md5 core0 e cid f c) as [[y|[[b fid] d]] c1] eqn:E; [done|].
    destruct (check_call_files md5 core0 e cid fs c1) as [[y|ds'] c2] eqn:E2; [done|].
    intros [= <- <-] g [->|Hg]%elem_of_cons; [|by eapply IH].
    unfold check_call_file, bind in E.
    destruct (e_fs e !! f) eqn:Ef; [by eexists|]. exfalso. unfold add_file, bind in E. cbn in E. rewrite Ef in E.
    by destruct (c_files c !! f) as [[??]|].
  Qed.

  Lemma hit_declared_exist (s : sys) t (rq : request V R) r srcs dsts :
    snd (step s (OBegin t rq)) = RHit r srcs dsts ->
    forall f, f ∈ rq_srcs rq -> is_Some (e_fs (s_env s) !! f).
  Proof.
    simpl. unfold begin_call. destruct (e_fun (s_env s) !! rq_fun rq) as [d|] eqn:Ed; [|done].
    simpl. rewrite (lifts_prepare veq md5 _ _ _ _ (s_db s)). unfold on_mem.
    destruct (prepare md5 core0 _ _ _ _ (mem s)) as [[x|p] c] eqn:Ep; [done|]. intros _.
    unfold prepare, bind at 1 in Ep.
    destruct (check_function core0 (e_limit (s_env s)) (s_env s) (rq_fun rq) (mem s)) as [[y|[fd fid]] c1]; [done|].
    unfold bind at 1 in Ep.
    match type of Ep with match ?m with _ => _ end = _ => destruct m as [[y|[[cd cid] old]] c2] end; [done|].
    unfold bind at 1 in Ep.
    destruct (check_call_files md5 core0 (s_env s) cid (rq_srcs rq) c2) as [[y|files] c3] eqn:E; [done|].
    by eapply check_call_files_exist.
  Qed.
End Guard.
