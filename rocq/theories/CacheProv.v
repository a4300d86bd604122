(** Facts about the pickle engine that need no assumption on the history. *)
From stdpp Require Import base list strings gmap.
From Coq Require Import ZArith Lia.
From Verif Require Import PyMonad DbModel DbSpec CacheBackend CacheLift CacheFacts DbHistory.

Section Prov.
  Context {V R : Type} (veq : V -> V -> bool) (md5 : content -> digest).
  Notation BK := (cache_backend (V := V) (R := R) veq md5).
  Notation core0 := (cache_core0 (R := R) veq).
  Notation cdb := (cdb V R).
  Notation frame := (frame V R name (name * nat) name).
  Notation run := (run V R).
  Notation sys := (sys V R (pdb V R) name (name * nat) name).
  Notation op := (op V R).
  Notation mem s := (p_mem (s_db s)).
  Notation disk s := (p_disk (s_db s)).

  (** Only the file tables change. *)
  Record same (c c' : cdb) : Prop := Same {
    sm_functions : c_functions c' = c_functions c;
    sm_calls : c_calls c' = c_calls c;
    sm_xsrcs : c_xsrcs c' = c_xsrcs c;
    sm_xdsts : c_xdsts c' = c_xdsts c
  }.

  Definition keeps {A} (m : M cdb A) : Prop := forall c, same c (snd (m c)).

  Lemma keeps_ret {A} (a : A) : keeps (ret a).
  Proof. intros c. done. Qed.
  Lemma keeps_raise {A} x : keeps (A := A) (raise x).
  Proof. intros c. done. Qed.
  Lemma keeps_bind {A B} (m : M cdb A) (k : A -> M cdb B) :
    keeps m -> (forall a, keeps (k a)) -> keeps (bind m k).
  Proof.
    intros Hm Hk c. unfold bind. specialize (Hm c). destruct (m c) as [[x|a] c1]; simpl in *; [done|].
    specialize (Hk a c1). destruct Hm, Hk. split; congruence.
  Qed.
  Lemma keeps_try {A} (m : M cdb A) : keeps m -> keeps (try_os m).
  Proof. intros Hm c. unfold try_os. specialize (Hm c). by destruct (m c) as [[[]|a] c1]. Qed.

  Ltac keep := repeat first
    [ apply keeps_ret | apply keeps_raise | apply keeps_try
    | apply keeps_bind; [|intros ?]
    | match goal with |- context [match ?x with _ => _ end] => destruct x end
    | assumption | (intros ?; by split) ].

  Lemma keeps_add_file e f : keeps (add_file md5 core0 e f).
  Proof. unfold add_file. keep. Qed.
  Lemma keeps_check_call_file e cid f : keeps (check_call_file md5 core0 e cid f).
  Proof. unfold check_call_file. apply keeps_bind; [apply keeps_add_file|]. intros. keep. Qed.
  Lemma keeps_check_call_files e cid fs : keeps (check_call_files md5 core0 e cid fs).
  Proof.
    induction fs as [|f fs IH]; simpl; [keep|].
    apply keeps_bind; [apply keeps_check_call_file|]. intros [[??]?].
    apply keeps_bind; [exact IH|]. intros; keep.
  Qed.
  Lemma keeps_external_loop e c fs : keeps (check_external_loop md5 core0 e c fs).
  Proof.
    induction fs as [|f fs IH]; simpl; [keep|].
    apply keeps_bind; [apply keeps_try, keeps_check_call_file|]. intros ?.
    apply keeps_bind; [exact IH|]. intros; keep.
  Qed.
  Lemma keeps_check_external_files e c : keeps (check_external_files md5 core0 e c).
  Proof. unfold check_external_files. keep. apply keeps_external_loop. Qed.
  Lemma keeps_check_function n e fn : keeps (check_function core0 n e fn).
  Proof.
    intros c. destruct (check_function core0 n e fn c) as [r c'] eqn:E.
    apply check_function_pure in E as ->. done.
  Qed.
  Lemma keeps_prepare e fn b srcs : keeps (prepare md5 core0 e fn b srcs).
  Proof.
    unfold prepare.
    apply keeps_bind; [apply keeps_check_function|]. intros [fd fid].
    apply keeps_bind; [keep|]. intros [[cd cid] old].
    apply keeps_bind; [apply keeps_check_call_files|]. intros files.
    apply keeps_bind; [|intros [[??]?]; keep].
    destruct cid; [apply keeps_check_external_files|keep].
  Qed.
  Lemma keeps_save_call_files c ds : keeps (save_call_files core0 c ds).
  Proof. induction ds as [|[[??]?] ds IH]; simpl; keep. Qed.
  Lemma keeps_add_files e fs : keeps (c_add_files (R:=R) veq md5 e fs).
  Proof.
    induction fs as [|f fs IH]; simpl; [keep|].
    apply keeps_bind; [apply keeps_add_file|]. intros [[??]?]. keep.
  Qed.

  (** What prepare reports about the call table. *)
  Record prep_basic (fn : name) (b : V) (c : cdb) (p : prepared R name (name * nat) name) : Prop := {
    pb_fid : forall x, pr_fun_id p = Some x -> x = fn;
    pb_result : pr_call_dirty p = false -> forall r, pr_old_result p = Some r ->
      exists ds i b', c_calls c !! fn = Some ds /\ ds !! i = Some (b', r) /\ veq b b' = true
  }.

  Lemma prepare_basic e fn b srcs c p c' :
    prepare md5 core0 e fn b srcs c = (inr p, c') -> prep_basic fn b c p.
  Proof.
    unfold prepare, bind. destruct (check_function core0 (e_limit e) e fn c) as [r1 c1] eqn:E1.
    pose proof (check_function_pure _ _ _ _ _ _ _ E1) as ->.
    destruct r1 as [x|[fd fid]]; [done|].
    pose proof (check_function_spec _ _ _ _ _ _ _ _ E1) as (d & Hd & Hnone & Hsome & Hclean).
    assert (forall (cd : bool) (cid : option (name * nat)) (old : option R) c2,
      (match fd, fid with
       | false, Some fid0 => find_call core0 fid0 b
       | _, _ => ret (true, None, None)
       end) c = (inr (cd, cid, old), c2) -> c2 = c /\
       (cd = false -> forall r, old = Some r ->
         exists ds i b', c_calls c !! fn = Some ds /\ ds !! i = Some (b', r) /\ veq b b' = true)) as Hfc.
    { intros cd cid old c2. destruct fd; [by intros [= <- <- <- <-]|].
      destruct fid as [fid0|]; [|by intros [= <- <- <- <-]].
      specialize (Hsome fid0 eq_refl) as ->. cbn. unfold c_find_call.
      destruct (c_calls c !! fn) as [ds|]; [|by intros [= <- <- <- <-]].
      destruct (search_call veq b 0 ds) as [[i r]|] eqn:Es; [|by intros [= <- <- <- <-]].
      intros [= <- <- <- <-]. split; [done|]. intros _ r' [= <-].
      apply search_call_spec in Es as (k & b' & -> & ? & ?). eauto 10. }
    revert Hfc. generalize (if fd then ret (true, None, None) else
         match fid with
         | Some fid0 => find_call core0 fid0 b
         | None => ret (true, None, None)
         end). intros fc Hfc.
    destruct (fc c) as [r2 c2] eqn:E2.
    destruct r2 as [x|[[cd cid] old]]; [done|].
    destruct (Hfc _ _ _ _ eq_refl) as [-> Hres].
    destruct (check_call_files md5 core0 e cid srcs c) as [[x|files] c3]; [done|].
    match goal with |- match ?m with _ => _ end = _ -> _ => destruct m as [[x|[[xs xd] xf]] c4] end; [done|].
    intros [= <- <-]. split; simpl; auto.
  Qed.

  (** What Backend.cache does to the stored results. *)
  Lemma cache0_calls e fd fid fn dg deps cid b r files xs xd c res c' :
    (forall x, fid = Some x -> x = fn) ->
    cache0 (R:=R) veq md5 e fd fid fn dg deps cid b r files xs xd c = (res, c') ->
    (forall gn, gn <> fn ->
       c_calls c' !! gn = c_calls c !! gn /\ c_functions c' !! gn = c_functions c !! gn /\
       c_xsrcs c' !! gn = c_xsrcs c !! gn /\ c_xdsts c' !! gn = c_xdsts c !! gn) /\
    (forall ds x, c_calls c' !! fn = Some ds -> x ∈ ds ->
       x = (b, r) \/ exists ds0, c_calls c !! fn = Some ds0 /\ x ∈ ds0).
  Proof.
    intros Hfid. unfold cache0. unfold bind at 1.
    match goal with |- match ?m c with _ => _ end = _ -> _ => set (stage1 := m) end.
    assert (exists c1, stage1 c = (inr (if fd then Some fn else fid), c1) /\
      (forall gn, gn <> fn -> c_calls c1 !! gn = c_calls c !! gn /\ c_functions c1 !! gn = c_functions c !! gn /\
         c_xsrcs c1 !! gn = c_xsrcs c !! gn /\ c_xdsts c1 !! gn = c_xdsts c !! gn) /\
      (c_calls c1 !! fn = None \/ c_calls c1 !! fn = c_calls c !! fn)) as (c1 & Hs1 & Hoth & Hfn).
    { unfold stage1, bind. destruct fd; [|exists c; split_and!; [done|done|by right]].
      destruct fid as [x|]; cbn; eexists; (split; [reflexivity|]); simpl.
      - split; [|left; by rewrite lookup_delete].
        intros gn Hn. rewrite lookup_insert_ne, !lookup_delete_ne by done. done.
      - split; [|by right]. intros gn Hn. rewrite lookup_insert_ne by done. done. }
    rewrite Hs1. clear stage1 Hs1. unfold bind.
    destruct (if fd then Some fn else fid) as [i|] eqn:Ei.
    2:{ intros [= <- <-]. split; [done|]. intros ds x Hds Hx. right.
        destruct Hfn as [Hfn|Hfn]; rewrite Hfn in Hds; [done|eauto]. }
    assert (i = fn) as -> by (destruct fd; [congruence|by apply Hfid]).
    cbn. destruct (c_save_call cid fn b r c1) as [[x|cid'] c2] eqn:Esc; unfold c_save_call in Esc.
    { intros [= <- <-].
      assert (c2 = c1) as ->.
      { destruct (c_calls c1 !! fn); [|done]. destruct cid as [[? ?]|]; [|done].
        destruct (decide _); congruence. }
      split; [done|]. intros ds y Hds Hy. right.
      destruct Hfn as [Hfn|Hfn]; rewrite Hfn in Hds; [done|eauto]. }
    assert ((forall gn, gn <> fn -> c_calls c2 !! gn = c_calls c1 !! gn) /\
            c_functions c2 = c_functions c1 /\ c_xsrcs c2 = c_xsrcs c1 /\ c_xdsts c2 = c_xdsts c1 /\
            fst cid' = fn /\
            (forall ds x, c_calls c2 !! fn = Some ds -> x ∈ ds ->
               x = (b, r) \/ exists ds0, c_calls c1 !! fn = Some ds0 /\ x ∈ ds0))
      as (Hc2 & Hf2 & Hx2 & Hxd2 & Hcid & Hds2).
    { destruct (c_calls c1 !! fn) as [ds1|] eqn:E1.
      - destruct cid as [[g i]|].
        + destruct (decide (i < length ds1)); [|done]. injection Esc as <- <-. simpl.
          split_and!; try done.
          * intros gn Hn. by rewrite lookup_insert_ne.
          * intros ds x. rewrite lookup_insert. intros [= <-] Hx.
            apply elem_of_list_lookup in Hx as [k Hk].
            destruct (decide (k = i)) as [->|Hki].
            -- rewrite list_lookup_insert in Hk by done. left. congruence.
            -- rewrite list_lookup_insert_ne in Hk by done. right. exists ds1. split; [done|].
               by eapply elem_of_list_lookup_2.
        + injection Esc as <- <-. simpl. split_and!; try done.
          * intros gn Hn. by rewrite lookup_insert_ne.
          * intros ds x. rewrite lookup_insert. intros [= <-] Hx.
            apply elem_of_app in Hx as [Hx|Hx]; [right; eauto|left]. by apply elem_of_list_singleton in Hx.
      - injection Esc as <- <-. simpl. split_and!; try done.
        + intros gn Hn. by rewrite lookup_insert_ne.
        + intros ds x. rewrite lookup_insert. intros [= <-] Hx. left. by apply elem_of_list_singleton in Hx. }
    pose proof (keeps_save_call_files cid' files c2) as Hk3.
    destruct (save_call_files core0 cid' files c2) as [r3 c3]. simpl in Hk3.
    assert (forall c' : cdb, same c3 c' \/ (exists c4 : cdb, same c3 c4 /\ 
               (forall gn, gn <> fn -> c_xsrcs c' !! gn = c_xsrcs c4 !! gn /\ c_xdsts c' !! gn = c_xdsts c4 !! gn) /\
               c_calls c' = c_calls c4 /\ c_functions c' = c_functions c4) ->
      (forall gn, gn <> fn ->
       c_calls c' !! gn = c_calls c !! gn /\ c_functions c' !! gn = c_functions c !! gn /\
       c_xsrcs c' !! gn = c_xsrcs c !! gn /\ c_xdsts c' !! gn = c_xdsts c !! gn) /\
      (forall ds x, c_calls c' !! fn = Some ds -> x ∈ ds ->
       x = (b, r) \/ exists ds0, c_calls c !! fn = Some ds0 /\ x ∈ ds0)) as Hfin.
    { intros c'' [Hs|(c4 & Hs & Hx & Hcc & Hff)]; destruct Hk3, Hs; split.
      - intros gn Hn. destruct (Hoth gn Hn) as (?&?&?&?). specialize (Hc2 gn Hn).
        split_and!; congruence.
      - intros ds x Hds Hx'. rewrite sm_calls1, sm_calls0 in Hds.
        destruct (Hds2 _ _ Hds Hx') as [?|(ds0 & H1 & H2)]; [by left|right].
        destruct Hfn as [Hfn|Hfn]; rewrite Hfn in H1; [done|eauto].
      - intros gn Hn. destruct (Hoth gn Hn) as (?&?&?&?). specialize (Hc2 gn Hn).
        destruct (Hx gn Hn). split_and!; congruence.
      - intros ds x Hds Hx'. rewrite Hcc, sm_calls1, sm_calls0 in Hds.
        destruct (Hds2 _ _ Hds Hx') as [?|(ds0 & H1 & H2)]; [by left|right].
        destruct Hfn as [Hfn|Hfn]; rewrite Hfn in H1; [done|eauto]. }
    destruct r3 as [x|u].
    { intros [= <- <-]. apply Hfin. by left. }
    unfold c_save_external, modify, bind.
    set (c4 := Cdb _ _ _ _ _ _).
    pose proof (keeps_add_files e xs c4) as Hk5.
    destruct (c_add_files veq md5 e xs c4) as [r5 c5]. simpl in Hk5.
    assert (forall c6, same c5 c6 -> exists c4', same c3 c4' /\
               (forall gn, gn <> fn -> c_xsrcs c6 !! gn = c_xsrcs c4' !! gn /\ c_xdsts c6 !! gn = c_xdsts c4' !! gn) /\
               c_calls c6 = c_calls c4' /\ c_functions c6 = c_functions c4') as Hext.
    { intros c6 Hs. exists c3. destruct Hk5, Hs. simpl in *. split_and!; try done; try congruence.
      intros gn Hn. rewrite sm_xsrcs1, sm_xdsts1, sm_xsrcs0, sm_xdsts0. unfold xput.
      rewrite !lookup_insert_ne by congruence. done. }
    destruct r5 as [x|ds5].
    { intros [= <- <-]. apply Hfin. right. by apply Hext. }
    pose proof (keeps_save_call_files cid' ds5 c5) as Hk6.
    destruct (save_call_files core0 cid' ds5 c5) as [r6 c6]. simpl in Hk6.
    intros [= <- <-]. apply Hfin. right. by apply Hext.
  Qed.

  (** Every stored result comes from a logged run. *)
  Definition prov (lg : list run) (c : cdb) : Prop :=
    forall fn ds b r, c_calls c !! fn = Some ds -> (b, r) ∈ ds ->
      exists ru, ru ∈ lg /\ rq_fun (ru_req ru) = fn /\ rq_bound (ru_req ru) = b /\ ru_result ru = r.

  Record pinv (s : sys) : Prop := Pinv {
    pv_mem : prov (s_log s) (mem s);
    pv_disk : prov (s_log s) (disk s);
    pv_frames : forall t fr x, fr ∈ thread s t -> pr_fun_id (fr_prep fr) = Some x ->
      x = rq_fun (fr_req fr)
  }.

  Lemma prov_log lg ru c : prov lg c -> prov (ru :: lg) c.
  Proof. intros H fn ds b r H1 H2. destruct (H _ _ _ _ H1 H2) as (ru' & ? & ?). exists ru'. split; [by right|done]. Qed.

  Lemma prov_same lg c c' : same c c' -> prov lg c -> prov lg c'.
  Proof. intros [] H fn ds b r H1 H2. rewrite sm_calls0 in H1. eauto. Qed.

  Lemma pinv_fresh s : fresh pdb_empty s -> pinv s.
  Proof.
    intros (Hdb & Hcs & Hth & Hlg). split.
    - rewrite Hdb. intros ? ? ? ?. simpl. by rewrite lookup_empty.
    - rewrite Hdb. intros ? ? ? ?. simpl. by rewrite lookup_empty.
    - intros t fr x. unfold thread. rewrite Hth, lookup_empty. by intros ?%elem_of_nil.
  Qed.

  Lemma begin_basic (s : sys) (rq : request V R) res db :
    prepare md5 (b_core BK) (s_env s) (rq_fun rq) (rq_bound rq) (rq_srcs rq) (s_db s) = (res, db) ->
    p_disk db = disk s /\ same (mem s) (p_mem db) /\
    forall p, res = inr p -> prep_basic (rq_fun rq) (rq_bound rq) (mem s) p.
  Proof.
    intros Hp. simpl in Hp.
    rewrite (lifts_prepare veq md5 _ _ _ _ (s_db s)) in Hp. unfold on_mem in Hp.
    pose proof (keeps_prepare (s_env s) (rq_fun rq) (rq_bound rq) (rq_srcs rq) (mem s)) as Hk.
    destruct (prepare _ core0 _ _ _ _ _) as [r c] eqn:E. injection Hp as <- <-. simpl in *.
    split_and!; try done. intros p ->. by eapply prepare_basic.
  Qed.

  Lemma pinv_step s o : pinv s -> pinv (fst (step md5 BK s o)).
  Proof.
    intros Hinv. pose proof Hinv as [Hm Hd Hfr].
    destruct o as [t rq|t xs xd g|t r|t|f ct m|f|dt| |funs|f|f]; simpl; try by split.
    - unfold begin_call. destruct (e_fun (s_env s) !! rq_fun rq) as [d|] eqn:Ed; [|by split].
      destruct (prepare md5 _ _ _ _ _ _) as [res db] eqn:Ep.
      pose proof (begin_basic _ _ _ _ Ep) as (Hdk & Hsh & Hok).
      assert (forall cs, pinv (Sys (s_env s) db cs (s_threads s) (s_log s))) as Hsame.
      { intros cs. split; simpl; try done.
        - by eapply prov_same.
        - by rewrite Hdk. }
      destruct res as [x|p]; [apply Hsame|].
      assert (forall cs, pinv (Sys (s_env s) db cs
                (<[t := Frame rq d p [] [] (s_env s) :: thread s t]> (s_threads s)) (s_log s))) as Hrun.
      { intros cs. destruct (Hsame cs) as [A2 A3 A4]. split; simpl in *; try done.
        intros t' fr x. rewrite thread_insert. destruct (decide (t = t')) as [<-|Hn].
        - intros [->|Hin]%elem_of_cons; [|by eapply A4].
          apply Hok. done.
        - intros Hin. by eapply A4. }
      destruct (pr_fun_dirty p), (pr_call_dirty p), (pr_files p), (pr_xfiles p), (pr_old_result p);
        try apply Hrun.
      destruct (forallb _ _); [apply Hsame|apply Hrun].
    - unfold add_ext. split; simpl; try done. intros t' fr x. rewrite thread_insert.
      destruct (decide (t = t')) as [<-|Hn]; [|intros Hin; by eapply Hfr].
      destruct (thread s t) as [|fr0 frs] eqn:Et; [by intros ?%elem_of_nil|].
      intros [->|Hin]%elem_of_cons.
      + apply (Hfr t fr0). rewrite Et. by left.
      + destruct g.
        * apply (Hfr t). rewrite Et. by right.
        * apply elem_of_list_fmap in Hin as (fr' & -> & Hin).
          apply (Hfr t fr'). rewrite Et. by right.
    - unfold end_call. destruct (thread s t) as [|fr frs] eqn:Et; [done|].
      assert (forall t' fr', fr' ∈ default [] (<[t := frs]> (s_threads s) !! t') ->
                fr' ∈ thread s t') as Hsub.
      { intros t' fr'. destruct (decide (t = t')) as [<-|Hn].
        - rewrite lookup_insert. simpl. rewrite Et. by right.
        - by rewrite lookup_insert_ne. }
      destruct (s_callstack s) as [|deps cs].
      { split; simpl; try done. intros t' fr' x Hin. by apply (Hfr t'), Hsub. }
      rewrite (lifts_cache veq md5 _ _ _ _ _ _ _ _ _ _ _ _ (s_db s)). unfold on_mem.
      destruct (cache0 _ _ _ _ _ _ _ _ _ _ _ _ _ _ (mem s)) as [res c'] eqn:Ec.
      apply cache0_calls in Ec as [Hoth Hown].
      2:{ intros x. apply (Hfr t). rewrite Et. by left. }
      assert (forall ok, prov (Run (fr_req fr) (fr_digest fr) r (fr_begin fr) (s_env s)
                 (fr_xsrcs fr) (fr_xdsts fr) ok :: s_log s) c') as Hp.
      { intros ok fn ds b r' H1 H2. destruct (decide (fn = rq_fun (fr_req fr))) as [->|Hn].
        - destruct (Hown _ _ H1 H2) as [[= -> ->]|(ds0 & H3 & H4)].
          + eexists. split; [by left|done].
          + destruct (Hm _ _ _ _ H3 H4) as (ru & ? & ?). exists ru. split; [by right|done].
        - destruct (Hoth fn Hn) as [Hc _]. rewrite Hc in H1.
          destruct (Hm _ _ _ _ H1 H2) as (ru & ? & ?). exists ru. split; [by right|done]. }
      destruct res as [x|[]]; (split; simpl; [apply Hp|by apply prov_log|]);
        intros t' fr' x' Hin; by apply (Hfr t'), Hsub.
    - unfold raise_call. destruct (thread s t) as [|fr frs] eqn:Et; [done|].
      split; simpl; try done. intros t' fr' x. rewrite thread_insert.
      destruct (decide (t = t')) as [<-|Hn]; intros Hin.
      + apply (Hfr t). rewrite Et. by right.
      + by eapply Hfr.
    - split; simpl; try done. intros t fr x. unfold thread; simpl. rewrite lookup_empty.
      by intros ?%elem_of_nil.
    - split; simpl; try done. intros fn ds b r H1 H2. simpl in H1.
      apply lookup_delete_Some in H1 as [_ H1]. eauto.
  Qed.

  Lemma pinv_runs s os : pinv s -> pinv (runs md5 BK s os).
  Proof.
    revert s. induction os as [|o os IH]; intros s Hinv; simpl; [done|].
    apply IH. by apply pinv_step.
  Qed.

  Lemma hit_prov (s : sys) (t : nat) (rq : request V R) (r : R) xs xd :
    pinv s -> snd (step md5 BK s (OBegin t rq)) = RHit r xs xd ->
    exists ru, ru ∈ s_log s /\ rq_fun (ru_req ru) = rq_fun rq /\
      veq (rq_bound rq) (rq_bound (ru_req ru)) = true /\ ru_result ru = r.
  Proof.
    intros [Hm _ _]. simpl. unfold begin_call.
    destruct (e_fun (s_env s) !! rq_fun rq) as [d|] eqn:Ed; [|done].
    destruct (prepare md5 _ _ _ _ _ _) as [res db] eqn:Ep.
    pose proof (begin_basic _ _ _ _ Ep) as (Hdk & Hsh & Hok).
    destruct res as [x|p]; [done|]. specialize (Hok p eq_refl) as [_ Hres].
    destruct (pr_fun_dirty p) eqn:E1; [done|].
    destruct (pr_call_dirty p) eqn:E2; [done|].
    destruct (pr_files p) as [|] eqn:E3; [|done].
    destruct (pr_xfiles p) as [|] eqn:E4; [|done].
    destruct (pr_old_result p) as [r0|] eqn:E5; [|done].
    destruct (forallb _ _) eqn:E6; [|done]. simpl. intros [= <- <- <-].
    destruct (Hres eq_refl _ eq_refl) as (ds & i & b' & H1 & H2 & H3).
    destruct (Hm _ _ _ _ H1 (elem_of_list_lookup_2 _ _ _ H2)) as (ru & ? & ? & ? & ?).
    exists ru. subst. done.
  Qed.
End Prov.
