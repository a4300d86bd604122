(** With the SQLite backend a changed external source is noticed, provided that nothing but
    the call itself looks at the file after it has changed. *)
From stdpp Require Import base list strings gmap.
From Coq Require Import ZArith Lia.
From Verif Require Import PyMonad DbModel DbSpec DbClaims SqlBackend SqlSpec SqlLift SqlFacts SqlInv SqlStep DbHistory SqlExt SqlKept.

Section Guard.
  Context {V R : Type} (md5 : content -> digest) {S FunId CallId FileId : Type}.
  Context (BK : backend V R S FunId CallId FileId).
  Notation sys := (sys V R S FunId CallId FileId).
  (** After the history [os] the operation [o] does not concern file [f]: it is not a call with [f]
      among its declared sources, nor of a function that ever registered [f], nor the end
      of a call that registered [f]. *)
  Definition leaves_alone (s0 : sys) (os : list (op V R)) (o : op V R) (f : name) : Prop :=
    match o with
    | OBegin _ rq => f ∉ rq_srcs rq /\ forall ru, ran md5 BK s0 os ru -> rq_fun (ru_req ru) = rq_fun rq -> f ∉ ru_xsrcs ru
    | OEnd t _ => forall a rq b, os = a ++ OBegin t rq :: b -> runs_during md5 BK s0 t rq a b ->
        ~ registered md5 BK s0 (fun xs _ => xs) t rq a b f /\ ~ registered md5 BK s0 (fun _ xd => xd) t rq a b f
    | _ => True
    end.
  (** The call [rq] takes place in [b], after [a].  Its function is not running before, and is not
      called otherwise; calls end with an error only while nothing else runs; while
      [f] is other than at the end of [b] it is left alone, and it is never deleted from the database. *)
  Definition seen_by_itself (s0 : sys) (a b c : list (op V R)) (rq : request V R) (f : name) : Prop :=
    errors_alone md5 BK s0 (a ++ b ++ c) /\
    (forall t a1 rq1 b1, a = a1 ++ OBegin t rq1 :: b1 -> still_running md5 BK s0 t rq1 a1 b1 -> rq_fun rq1 <> rq_fun rq) /\
    not_called (rq_fun rq) (tail b) /\ not_called (rq_fun rq) c /\ ODelFile f ∉ c /\
    forall c1 o c2, c = c1 ++ o :: c2 ->
      (forall d, digest_at md5 (s_env (runs md5 BK s0 (a ++ b ++ c1))) f = Some d ->
                 digest_at md5 (s_env (runs md5 BK s0 (a ++ b))) f = Some d) \/
      leaves_alone s0 (a ++ b ++ c1) o f.
End Guard.

Lemma app_cons_cases {A} (a a' y y' : list A) x x' : a ++ x :: y = a' ++ x' :: y' ->
  (exists z, a = a' ++ x' :: z /\ y' = z ++ x :: y) \/ (a = a' /\ x = x' /\ y = y') \/
  (exists z, a' = a ++ x :: z /\ y = z ++ x' :: y').
Proof.
  revert a'. induction a as [|e a IH]; intros [|e' a'] H; simpl in H.
  - injection H as -> ->. auto.
  - injection H as -> ->. right. right. eauto.
  - injection H as -> <-. left. eauto.
  - injection H as -> H. apply IH in H as [(z & -> & ->)|[(-> & -> & ->)|(z & -> & ->)]]; [left|right; left|right; right]; eauto.
Qed.

Section Change.
  Context {V R : Type} (veq : V -> V -> bool) (md5 : content -> digest).
  Context (F : name -> Z -> content).
  Context (Hveq : equivalence_test veq).
  Notation BK := (sql_backend (V := V) (R := R) veq md5).
  Notation core0 := (sql_core0 (R := R) veq).
  Notation frame := (frame V R nat nat nat).
  Notation sys := (sys V R (conn V R) nat nat nat).
  Notation op := (op V R).
  Notation digest_at := (digest_at md5).
  Notation pinv := (pinv (V := V) (R := R) md5 F).
  Notation inv := (inv (R := R) veq md5 F).
  Notation step := (step md5 BK).
  Notation runs := (runs md5 BK).
  Notation cur s := (k_cur (s_db s)).
  Notation base s := (k_base (s_db s)).

  Definition ext_inv (s : sys) : Prop := pinv (s_log s) (cur s) /\ pinv (s_log s) (base s).

  Lemma begin_tables (s : sys) t rq : let s' := fst (step s (OBegin t rq)) in
    base s' = base s /\ s_log s' = s_log s /\
    (cur s' = cur s \/ exists r, prepare md5 core0 (s_env s) (rq_fun rq) (rq_bound rq) (rq_srcs rq) (cur s) = (r, cur s')).
  Proof.
    simpl. unfold begin_call. destruct (e_fun (s_env s) !! rq_fun rq) as [d|]; [|by auto].
    destruct (prepare md5 (b_core BK) _ _ _ _ _) as [res db] eqn:Ep. simpl in Ep.
    rewrite (lifts_prepare veq md5 _ _ _ _ (s_db s)) in Ep. unfold on_cur in Ep.
    destruct (prepare _ core0 _ _ _ _ _) as [r q] eqn:E. injection Ep as <- <-.
    destruct r as [x|p]; [cbn; eauto|].
    destruct (pr_fun_dirty p), (pr_call_dirty p), (pr_files p), (pr_xfiles p), (pr_old_result p);
      try (cbn; eauto; fail).
    destruct (forallb _ _); cbn; eauto.
  Qed.
  Lemma begin_runs (s : sys) t rq : snd (step s (OBegin t rq)) = RRun -> let s' := fst (step s (OBegin t rq)) in
    exists d p, prepare md5 core0 (s_env s) (rq_fun rq) (rq_bound rq) (rq_srcs rq) (cur s) = (inr p, cur s') /\
      thread s' t = Frame rq d p [] [] (s_env s) :: thread s t.
  Proof.
    simpl. unfold begin_call. destruct (e_fun (s_env s) !! rq_fun rq) as [d|]; [|done].
    destruct (prepare md5 (b_core BK) _ _ _ _ _) as [res db] eqn:Ep. simpl in Ep.
    rewrite (lifts_prepare veq md5 _ _ _ _ (s_db s)) in Ep. unfold on_cur in Ep.
    destruct (prepare _ core0 _ _ _ _ _) as [r q] eqn:E. injection Ep as <- <-.
    destruct r as [x|p]; [done|].
    assert (forall cs, exists d0 p0, (@inr exn _ p, q) = (inr p0, q) /\
      thread (Sys (s_env s) (Conn q (base s) (k_version (s_db s))) cs (<[t := Frame rq d p [] [] (s_env s) :: thread s t]> (s_threads s)) (s_log s)) t =
        Frame rq d0 p0 [] [] (s_env s) :: thread s t) as H.
    { intros cs. exists d, p. split; [done|]. rewrite thread_insert. by rewrite decide_True. }
    destruct (pr_fun_dirty p), (pr_call_dirty p), (pr_files p), (pr_xfiles p), (pr_old_result p);
      try (intros _; apply H).
    destruct (forallb _ _); [done|]. intros _. apply H.
  Qed.

  (** Ends of calls. *)
  Lemma end_tables (s : sys) t r : let s' := fst (step s (OEnd t r)) in
    (s_db s' = s_db s /\ s_log s' = s_log s /\ forall srcs dsts, snd (step s (OEnd t r)) <> RDone r srcs dsts) \/
    exists fr frs deps ok, thread s t = fr :: frs /\
      s_log s' = Run (fr_req fr) (fr_digest fr) r (fr_begin fr) (s_env s) (fr_xsrcs fr) (fr_xdsts fr) ok :: s_log s /\
      ((ok = true /\ base s' = cur s' /\ (exists srcs dsts, snd (step s (OEnd t r)) = RDone r srcs dsts) /\
        cache0 veq md5 (s_env s) (pr_fun_dirty (fr_prep fr)) (pr_fun_id (fr_prep fr)) (rq_fun (fr_req fr))
          (fr_digest fr) deps (pr_call_id (fr_prep fr)) (rq_bound (fr_req fr)) r
          (pr_files (fr_prep fr)) (fr_xsrcs fr) (fr_xdsts fr) (cur s) = (inr tt, cur s')) \/
       (ok = false /\ base s' = base s /\ cur s' = base s /\ exists x, snd (step s (OEnd t r)) = RErr x)).
  Proof.
    simpl. unfold end_call. destruct (thread s t) as [|fr frs]; [by left|].
    destruct (s_callstack s) as [|deps cs]; [by left|]. right. exists fr, frs, deps.
    rewrite (cache_transaction veq md5 _ _ _ _ _ _ _ _ _ _ _ _ (s_db s)).
    destruct (cache0 _ _ _ _ _ _ _ _ _ _ _ _ _ _ (cur s)) as [[x|[]] c'] eqn:Ec; cbn [fst snd s_db s_log k_cur k_base].
    - exists false. split; [done|]. split; [done|]. right. eauto.
    - exists true. split; [done|]. split; [done|]. left. split_and!; eauto.
  Qed.

  Lemma end_env (s : sys) t r : s_env (fst (step s (OEnd t r))) = s_env s.
  Proof.
    simpl. unfold end_call. destruct (thread s t) as [|fr frs]; [done|]. destruct (s_callstack s) as [|deps cs]; [done|].
    by destruct (cache _ _ _ _ _ _ _ _ _ _ _ _ _ _) as [[?|?] ?].
  Qed.

  Lemma step_ext_inv s o : inv s -> ext_inv s -> ext_inv (fst (step s o)).
  Proof.
    intros Hinv [Hc Hb]. pose proof Hinv as [Hfs Hm Hd Hfr].
    destruct o as [t rq|t xs xd g|t r|t|f ct m|f|dt| |funs|f|f].
    - destruct (begin_tables s t rq) as (H1 & H2 & H3). unfold ext_inv. rewrite H1, H2. split; [|done].
      destruct H3 as [->|(r & Hp)]; [done|]. exact (prepare_pinv veq md5 F _ _ _ _ _ Hfs _ _ _ Hc Hp).
    - done.
    - destruct (end_tables s t r) as [(H1 & H2 & _)|(fr & frs & deps & ok & Et & Hlg & [(-> & Hb' & _ & Hca)|(-> & Hb' & Hc' & _)])]; unfold ext_inv.
      + by rewrite H1, H2.
      + rewrite Hb', Hlg.
        assert (forall q, cache0 veq md5 (s_env s) (pr_fun_dirty (fr_prep fr)) (pr_fun_id (fr_prep fr)) (rq_fun (fr_req fr))
          (fr_digest fr) deps (pr_call_id (fr_prep fr)) (rq_bound (fr_req fr)) r
          (pr_files (fr_prep fr)) (fr_xsrcs fr) (fr_xdsts fr) (cur s) = (inr tt, q) ->
          pinv (Run (fr_req fr) (fr_digest fr) r (fr_begin fr) (s_env s) (fr_xsrcs fr) (fr_xdsts fr) true :: s_log s) q) as H.
        { intros q Hq. eapply (cache0_pinv veq md5 F Hveq) in Hq; [exact Hq|done|done| |done]. apply (Hfr t). rewrite Et. by left. }
        auto.
      + rewrite Hb', Hc', Hlg. split; by apply pinv_log.
    - unfold ext_inv. simpl. unfold raise_call. by destruct (thread s t).
    - done.
    - done.
    - done.
    - done.
    - unfold ext_inv. simpl. destruct (k_version (s_db s)); simpl; [done|]. split; apply (pinv_empty veq).
    - unfold ext_inv. simpl. unfold on_cur. set (q := snd (s_delete_function f (cur s))).
      change (s_delete_function f (cur s)) with (@inr exn _ false, q). cbn [fst s_log s_db k_cur k_base]. split; [|done].
      by apply delete_function_pinv.
    - unfold ext_inv. simpl. unfold on_cur. set (q := snd (s_delete_file f (cur s))).
      change (s_delete_file f (cur s)) with (@inr exn _ false, q). cbn [fst s_log s_db k_cur k_base]. split; [|done].
      by apply pinv_delete_file.
  Qed.

  Lemma errors_alone_app s a b : errors_alone md5 BK s (a ++ b) -> errors_alone md5 BK s a.
  Proof. intros H a1 t r x b1 -> Hx. apply (H a1 t r x (b1 ++ b)); [|done]. by rewrite <- app_assoc. Qed.
  Lemma history_ok_app s a b : history_ok md5 BK F s (a ++ b) -> history_ok md5 BK F s a /\ history_ok md5 BK F (runs s a) b.
  Proof.
    revert s. induction a as [|o a IH]; intros s H; simpl in *; [done|]. destruct H as (H1 & H2 & H3).
    destruct (IH _ H3). done.
  Qed.
  Lemma both_runs s os : fresh conn_empty s -> fs_faithful F (s_env s) -> history_ok md5 BK F s os -> errors_alone md5 BK s os ->
    inv (runs s os) /\ ext_inv (runs s os).
  Proof.
    intros Hf Hfs Hh He. split; [apply inv_runs; [done|by apply inv_fresh|done|done]|].
    induction os as [|o os IH] using rev_ind.
    { destruct Hf as (Hdb & _). unfold ext_inv. simpl. rewrite Hdb. split; apply (pinv_empty veq). }
    rewrite runs_snoc. apply history_ok_app in Hh as [Hh _]. apply errors_alone_app in He.
    apply step_ext_inv; [|by apply IH]. apply inv_runs; [done|by apply inv_fresh|done|done].
  Qed.

  Context (fn : name) (bd : V) (f : name) (d0 : digest).
  Notation dep := (dep (V := V) (R := R) veq fn bd f d0).
  Notation unchanged := (unchanged md5 f d0).
  Notation calmly := (calmly (V := V) (R := R) veq fn bd f d0).

  (** One step while the call is running. *)
  Lemma step_during s o : inv s -> ext_inv s ->
    match o with
    | OEnd t r => (forall x, snd (step s o) <> RErr x) /\ forall fr frs, thread s t = fr :: frs -> rq_fun (fr_req fr) <> fn
    | ORestart _ | ODelFun _ => False
    | _ => True
    end -> calmly False (cur s) (cur (fst (step s o))).
  Proof.
    intros Hinv [Hc Hb]. pose proof Hinv as [Hfs Hm Hd Hfr].
    assert (forall q, shrink md5 F (cur s) q -> calmly False (cur s) q) as Hshr.
    { intros q Hsh. apply calmly_files; [apply Hsh|apply Hsh|done]. }
    destruct o as [t rq|t xs xd g|t r|t|f' ct m|f'|dt| |funs|f'|f']; intros Ho; try done; try apply calmly_refl.
    - destruct (begin_tables s t rq) as (_ & _ & [->|(r & Hp)]); [apply calmly_refl|].
      apply Hshr. by apply (prepare_spec veq md5 F) in Hp as [? _]; [|done|apply Hc].
    - destruct Ho as [Hne Hot].
      destruct (end_tables s t r) as [(-> & _)|(fr & frs & deps & ok & Et & Hlg & [(-> & Hb' & _ & Hca)|(-> & _ & _ & x & Hx)])].
      + apply calmly_refl.
      + eapply (cache0_calmly veq md5 F Hveq) in Hca; [exact Hca|done|exact Hm| |exact Hc|by eapply Hot|done].
        apply (Hfr t). rewrite Et. by left.
      + by destruct (Hne x).
    - simpl. unfold raise_call. destruct (thread s t); apply calmly_refl.
    - simpl. unfold on_cur. set (q := snd (s_delete_file f' (cur s))).
      change (s_delete_file f' (cur s)) with (@inr exn _ false, q). cbn [fst s_db k_cur].
      apply Hshr, delete_file_shrink.
  Qed.

  (** One step after the call was recorded. *)
  Lemma dep_empty : dep sq_empty.
  Proof. intros i d s c r. simpl. by rewrite lookup_empty. Qed.
  Lemma step_dep s o : inv s -> ext_inv s -> dep (cur s) -> dep (base s) ->
    match o with
    | OBegin t rq => unchanged (s_env s) \/ avoids f (s_log s) (rq_fun rq) (rq_srcs rq)
    | OEnd t r => forall fr frs, thread s t = fr :: frs -> rq_fun (fr_req fr) <> fn /\
        (unchanged (s_env s) \/ (f ∉ fr_xsrcs fr /\ f ∉ fr_xdsts fr))
    | ODelFile g => g <> f
    | _ => True
    end -> dep (cur (fst (step s o))) /\ dep (base (fst (step s o))).
  Proof.
    intros Hinv [Hc Hb] Dc Db. pose proof Hinv as [Hfs Hm Hd Hfr].
    destruct o as [t rq|t xs xd g|t r|t|f' ct m|f'|dt| |funs|f'|f']; intros Ho; try done.
    - destruct (begin_tables s t rq) as (-> & _ & [->|(r & Hp)]); [done|]. split; [|done].
      exact (proj2 (prepare_calm veq md5 F fn bd f d0 _ _ _ _ _ Hfs Ho _ _ _ (conj Hc Dc) Hp)).
    - destruct (end_tables s t r) as [(-> & _)|(fr & frs & deps & ok & Et & Hlg & [(-> & -> & _ & Hca)|(-> & -> & -> & _)])]; [done| |done].
      destruct (Ho _ _ Et) as [Hn Hu].
      eapply (cache0_calmly veq md5 F Hveq fn bd f d0 True) in Hca; [|done|exact Hm| |exact Hc|done|done].
      + assert (dep (cur (fst (step s (OEnd t r))))) by (eapply calmly_dep; [|exact Hca|exact Dc]; done). done.
      + apply (Hfr t). rewrite Et. by left.
    - simpl. unfold raise_call. by destruct (thread s t).
    - simpl. destruct (k_version (s_db s)); simpl; [done|]. split; apply dep_empty.
    - set (q := snd (s_delete_function f' (cur s))).
      change (dep q /\ dep (base s)). split; [|done].
      destruct (decide (f' = fn)) as [Heq|Hn].
      + pose proof (delete_function_inv veq md5 F (s_log s) (s_env s) f' (cur s) Hm) as (_ & H2 & _). fold q in H2.
        intros i d s' c r. rewrite <- Heq. by rewrite H2.
      + eapply (calmly_dep _ _ _ _ _ True); [done| |exact Dc]. apply (delete_function_calmly veq md5 F); [apply Hm|done].
    - set (q := snd (s_delete_file f' (cur s))).
      change (dep q /\ dep (base s)). split; [|done].
      pose proof (delete_file_shrink md5 F f' (cur s)) as Hsh. fold q in Hsh.
      intros i d s' c r. rewrite (sh_funs _ _ _ _ Hsh), (sh_calls _ _ _ _ Hsh). intros H1 H2.
      destruct (Dc _ _ _ _ _ H1 H2) as (j & m & H3 & H4 & H5). exists j, m. unfold q, s_delete_file. simpl.
      destruct (q_files (cur s) !! f') as [[[i' m'] d']|] eqn:Ef; [|done]. simpl. rewrite lookup_delete_ne by done.
      assert (j <> i') as Hj. { intros ->. apply Ho. by eapply (wf_finj _ _ _ (p_wf _ _ _ _ Hc)). }
      split; [done|]. split; [by apply elem_filter_xs|]. by apply map_filter_lookup_Some.
  Qed.
End Change.

Section Main.
  Context {V R : Type} (veq : V -> V -> bool) (md5 : content -> digest).
  Context (Hveq : equivalence_test veq).
  Notation BK := (sql_backend (V := V) (R := R) veq md5).
  Notation core0 := (sql_core0 (R := R) veq).
  Notation frame := (frame V R nat nat nat).
  Notation sys := (sys V R (conn V R) nat nat nat).
  Notation op := (op V R).
  Notation digest_at := (digest_at md5).
  Notation step := (step md5 BK).
  Notation runs := (runs md5 BK).
  Notation still_running := (still_running md5 BK).
  Notation registered := (registered md5 BK).
  Notation cur s := (k_cur (s_db s)).
  Notation base s := (k_base (s_db s)).

  Lemma cache0_found (F : name -> Z -> content) lg e (fr : frame) deps (r : R) q u q' (f : name) : fs_faithful F e ->
    db_inv_ex veq md5 F None lg q -> frame_inv veq md5 e q fr -> f ∈ fr_xsrcs fr ->
    cache0 veq md5 e (pr_fun_dirty (fr_prep fr)) (pr_fun_id (fr_prep fr)) (rq_fun (fr_req fr))
      (fr_digest fr) deps (pr_call_id (fr_prep fr)) (rq_bound (fr_req fr)) r
      (pr_files (fr_prep fr)) (fr_xsrcs fr) (fr_xdsts fr) q = (inr u, q') -> is_Some (digest_at e f).
  Proof.
    intros Hfs Hdb Hfr Hf H. apply (cache0_recording veq md5 F Hveq lg) in H as (i & c & qd & q1 & q2 & q3 & []); [|done|done|done].
    destruct rc_ext as [u4 E4]. apply save_external_split in E4 as (ss & qa & _ & _ & _ & _ & _ & _ & _ & E2 & _).
    apply (check_all_found veq md5 F) in E2 as [_ Hfound]; [|done| |apply NoDup_remove_dups].
    - destruct (Hfound f) as (b & j & m & d & _ & _ & -> & _); [by apply elem_of_remove_dups|done].
    - destruct rc_wf as (_ & _ & []). by split.
  Qed.

  (** The frame of a running call stays where it is. *)
  Lemma frame_stays (s0 : sys) a t rq b p :
    still_running s0 t rq a b ->
    (exists d, thread (runs s0 (a ++ [OBegin t rq])) t = Frame rq d p [] [] (s_env (runs s0 a)) :: thread (runs s0 a) t) ->
    exists Y fr Z, thread (runs s0 (a ++ OBegin t rq :: b)) t = Y ++ fr :: Z /\ length Z = depth (runs s0 a) t /\
      fr_req fr = rq /\ fr_prep fr = p.
  Proof.
    intros [Hr Hsr] (d & Hth). induction b as [|o b IH] using rev_ind.
    { rewrite Hth. exists []. eauto 10. }
    destruct IH as (Y & fr & Z & Ht & HZ & Hq & Hp).
    { intros b1 b2 ->. apply (Hsr b1 (b2 ++ [o])). by rewrite <- app_assoc. }
    assert (depth (runs s0 a) t < depth (runs s0 (a ++ OBegin t rq :: b ++ [o])) t) as Hd.
    { apply (Hsr (b ++ [o]) []). by rewrite app_nil_r. }
    set (s := runs s0 (a ++ OBegin t rq :: b)) in *.
    replace (runs s0 (a ++ OBegin t rq :: b ++ [o])) with (fst (step s o)) in *
      by (unfold s; rewrite <- runs_snoc, <- app_assoc; done).
    pose proof (step_frames md5 BK s o t) as Hst. unfold frames_step in Hst.
    assert (forall l, thread s t = l -> thread (fst (step s o)) t = l ->
      exists Y fr Z, thread (fst (step s o)) t = Y ++ fr :: Z /\ length Z = depth (runs s0 a) t /\ fr_req fr = rq /\ fr_prep fr = p) as Hsame.
    { intros l H1 H2. exists Y, fr, Z. rewrite H2, <- H1, Ht. done. }
    assert (thread (fst (step s o)) t = tail (thread s t) ->
      exists Y fr Z, thread (fst (step s o)) t = Y ++ fr :: Z /\ length Z = depth (runs s0 a) t /\ fr_req fr = rq /\ fr_prep fr = p) as Htail.
    { intros H1. unfold depth in Hd at 2. rewrite H1, Ht in Hd. destruct Y as [|y Y]; simpl in Hd.
      - rewrite HZ in Hd. lia.
      - exists Y, fr, Z. rewrite H1, Ht. done. }
    destruct o as [t' rq'|t' xs xd g|t' r|t'| | | | | | |]; try exact (Hsame _ eq_refl Hst).
    - destruct (decide (t' = t)) as [->|]; [|exact (Hsame _ eq_refl Hst)].
      destruct Hst as [(_ & d' & p' & _ & Hst)|[_ Hst]]; [|exact (Hsame _ eq_refl Hst)].
      rewrite Hst, Ht. exists (Frame rq' d' p' [] [] (s_env s) :: Y), fr, Z. done.
    - destruct (decide (t' = t)) as [->|]; [|exact (Hsame _ eq_refl Hst)].
      rewrite Ht in Hst. destruct Y as [|y Y]; cbn [app] in Hst; rewrite Hst.
      + exists [], (frame_add xs xd fr), (if g then Z else frame_add xs xd <$> Z). split; [done|].
        split; [destruct g; by rewrite ?fmap_length|done].
      + destruct g.
        * exists (frame_add xs xd y :: Y), fr, Z. done.
        * rewrite fmap_app, fmap_cons. exists (frame_add xs xd y :: (frame_add xs xd <$> Y)), (frame_add xs xd fr), (frame_add xs xd <$> Z).
          by rewrite fmap_length.
    - destruct (decide (t' = t)) as [->|]; [auto|exact (Hsame _ eq_refl Hst)].
    - destruct (decide (t' = t)) as [->|]; [auto|exact (Hsame _ eq_refl Hst)].
    - unfold depth in Hd at 2. rewrite Hst in Hd. simpl in Hd. lia.
  Qed.

  Theorem change_noticed : external_change_detected (R := R) veq md5 (seen_by_itself md5 BK).
  Proof.
    intros F' s0 a t rq b r c f srcs dsts BK' Hf Hfs Hh [Hsr Hdp] Hreg s1 Hdone (He & Hfree & Hnb & Hnc & Hdel & Hcalm) s Hex Hch t' (rh & sh & dh & Hhit).
    subst BK'. set (fn := rq_fun rq) in *. set (bd := rq_bound rq) in *. cbn [tail] in Hnb.
    assert (not_called fn b) as Hnb' by (intros t1 rq1 Hin; apply (Hnb t1 rq1); apply elem_of_app; by left). clear Hnb.
    assert (Hth0 : s_threads s0 = ∅) by (by destruct Hf as (_ & _ & ? & _)).
    assert (Hlg0 : s_log s0 = []) by (by destruct Hf as (_ & _ & _ & ?)).
    (* every prefix satisfies the invariants *)
    assert (forall os os', a ++ (OBegin t rq :: b ++ [OEnd t r]) ++ c = os ++ os' ->
      inv veq md5 F' (runs s0 os) /\ ext_inv md5 F' (runs s0 os)) as Hinv.
    { intros os os' Heq. apply (both_runs veq md5 F' Hveq); [done|done| |].
      - assert (a ++ OBegin t rq :: b ++ OEnd t r :: c = os ++ os') as Heq' by (rewrite <- Heq; simpl; by rewrite <- app_assoc).
        rewrite Heq' in Hh. by apply history_ok_app in Hh as [? _].
      - rewrite Heq in He. by apply errors_alone_app in He. }
    (* where frames of fn can come from *)
    assert (forall b1 b2 t1 l1 fr l2, b = b1 ++ b2 -> thread (runs s0 (a ++ OBegin t rq :: b1)) t1 = l1 ++ fr :: l2 ->
      rq_fun (fr_req fr) = fn -> t1 = t /\ fr_req fr = rq /\ length l2 = depth (runs s0 a) t /\
      (forall g, g ∈ fr_xsrcs fr <-> registered s0 (fun xs _ => xs) t rq a b1 g)) as Hours.
    { intros b1 b2 t1 l1 fr l2 -> Hth Hfn.
      destruct (frames_began md5 BK s0 _ Hth0 _ _ _ _ Hth) as (a' & b' & Heq & [Hr' Hsr'] & Hn & _ & _ & Hx & _).
      apply app_cons_cases in Heq as [(z & Ha & Hb)|[(<- & [= <- Hrq] & <-)|(z & Ha & Hb)]].
      - exfalso. apply (Hfree t1 a' (fr_req fr) z Ha); [|done]. split; [done|]. intros b3 b4 ->. apply (Hsr' b3 (b4 ++ OBegin t rq :: b1)). rewrite Hb. by rewrite <- app_assoc.
      - rewrite <- Hrq in *. split_and!; try done. by injection Hn as ->.
      - exfalso. apply (Hnb' t1 (fr_req fr)); [|done]. rewrite Hb. apply elem_of_app. left. apply elem_of_app. right. by left. }
    assert (forall b1 b2 l, b = b1 ++ l :: b2 -> runs s0 (a ++ OBegin t rq :: b1 ++ [l]) = fst (step (runs s0 (a ++ OBegin t rq :: b1)) l)) as Hsnoc.
    { intros. rewrite <- runs_snoc, <- app_assoc. done. }
    (* the start *)
    destruct Hsr as [Hrr Hsr].
    destruct (begin_runs veq md5 (runs s0 a) t rq Hrr) as (dg & p & Hprep & Hframe). rewrite <- runs_snoc in Hframe, Hprep.
    destruct (Hinv a _ eq_refl) as [[Ifs Icur _ _] Iext].
    pose proof (prepare_cid veq md5 _ _ _ _ _ _ _ Hprep) as Hcid.
    pose proof (prepare_spec veq md5 F' _ _ _ _ _ _ _ Ifs (di_wf _ _ _ _ _ _ Icur) Hprep) as [Hsh0 _].
    (* while it runs *)
    assert (forall b1 b2, b = b1 ++ b2 ->
      calmly veq fn bd f EmptyString False (cur (runs s0 (a ++ [OBegin t rq]))) (cur (runs s0 (a ++ OBegin t rq :: b1)))) as Hduring.
    { intros b1. induction b1 as [|o b1 IH] using rev_ind; intros b2 Heq; [apply calmly_refl|].
      rewrite <- app_assoc in Heq. simpl in Heq. eapply calmly_trans; [by apply (IH (o :: b2))|].
      rewrite (Hsnoc b1 b2) by done.
      destruct (Hinv (a ++ OBegin t rq :: b1) (o :: b2 ++ OEnd t r :: c)) as [Hi Hx].
      { rewrite Heq. simpl. by repeat (rewrite <- app_assoc; simpl). }
      assert (depth (runs s0 a) t < depth (fst (step (runs s0 (a ++ OBegin t rq :: b1)) o)) t) as Hdo.
      { rewrite <- (Hsnoc b1 b2) by done. apply (Hsr _ b2). rewrite <- app_assoc. done. }
      apply (step_during veq md5 F' Hveq); [done|done|].
      destruct o as [t1 rq1|t1 xs xd g|t1 r1|t1| | | | |funs|g|g]; try done.
      - split.
        + intros x Hxx.
          assert (quiescent (runs s0 ((a ++ OBegin t rq :: b1) ++ [OEnd t1 r1]))) as Hq.
          { eapply (He (a ++ OBegin t rq :: b1) t1 r1 x); [|exact Hxx]. rewrite Heq. simpl. by repeat (rewrite <- app_assoc; simpl). }
          rewrite runs_snoc in Hq. unfold depth in Hdo. rewrite (Hq t) in Hdo. simpl in Hdo. lia.
        + intros fr frs Hth Hfn.
          destruct (Hours b1 (OEnd t1 r1 :: b2) t1 [] fr frs) as (-> & _ & Hl & _); [done|exact Hth|done|].
          pose proof (step_frames md5 BK (runs s0 (a ++ OBegin t rq :: b1)) (OEnd t r1) t) as Hst. unfold frames_step in Hst.
          rewrite decide_True in Hst by done. unfold depth in Hdo at 2. rewrite Hst, Hth in Hdo. simpl in Hdo. lia.
      - pose proof (step_frames md5 BK (runs s0 (a ++ OBegin t rq :: b1)) (ORestart funs) t) as Hst. unfold frames_step in Hst.
        unfold depth in Hdo at 2. rewrite Hst in Hdo. simpl in Hdo. lia.
      - assert (quiescent (runs s0 (a ++ OBegin t rq :: b1))) as Hq.
        { replace (a ++ OBegin t rq :: b ++ OEnd t r :: c) with ((a ++ OBegin t rq :: b1) ++ ODelFun g :: b2 ++ OEnd t r :: c) in Hh.
          2:{ rewrite Heq. by repeat (rewrite <- app_assoc; simpl). }
          apply history_ok_app in Hh as [_ (_ & Hq & _)]. exact Hq. }
        pose proof (Hsr b1 (ODelFun g :: b2) Heq) as Hd1.
        assert (depth (runs s0 (a ++ OBegin t rq :: b1)) t = 0) as H0 by (unfold depth; by rewrite (Hq t)). lia. }
    (* the end *)
    specialize (Hduring b [] (eq_sym (app_nil_r b))). fold s1 in Hduring.
    destruct (Hinv (a ++ OBegin t rq :: b) (OEnd t r :: c)) as [I1 X1].
    { simpl. by repeat (rewrite <- app_assoc; simpl). }
    fold s1 in I1, X1.
    destruct (frame_stays s0 a t rq b p) as (Y & fr & Z & Hth & HZ & Hfrq & Hfrp); [done|by exists dg|].
    fold s1 in Hth, Hdp.
    assert (Y = []) as ->. { unfold depth in Hdp at 1. rewrite Hth, app_length in Hdp. simpl in Hdp. destruct Y; [done|]. simpl in Hdp. lia. }
    destruct (Hours b [] t [] fr Z) as (_ & _ & _ & Hxs); [by rewrite app_nil_r|exact Hth|by rewrite Hfrq|].
    destruct (end_tables veq md5 s1 t r) as [(_ & _ & Hnd)|(fr' & frs & deps & ok & Et & Hlg & [(-> & Hbase & _ & Hca)|(_ & _ & _ & x & Hx)])].
    { by destruct (Hnd srcs dsts). }
    2:{ rewrite Hdone in Hx. done. }
    rewrite Hth in Et. injection Et as <- <-.
    assert (frame_inv veq md5 (s_env s1) (cur s1) fr) as Hfi by (apply (in_frames _ _ _ _ I1 t); rewrite Hth; by left).
    assert (f ∈ fr_xsrcs fr) as Hfx by (by apply Hxs).
    destruct (digest_at (s_env s1) f) as [d0|] eqn:Hd0.
    2:{ destruct (cache0_found F' (s_log s1) (s_env s1) fr deps r (cur s1) tt (cur (fst (step s1 (OEnd t r)))) f) as [d' Hd']; [apply I1|apply I1|exact Hfi|exact Hfx|exact Hca|congruence]. }
    assert (dep veq fn bd f d0 (cur (fst (step s1 (OEnd t r))))) as Hdep1.
    { eapply (cache0_mine veq md5 F' Hveq fn bd f d0 (s_log s1)); [apply I1|apply I1|exact Hfi|apply X1| | | |exact Hfx|exact Hd0|exact Hca].
      - by rewrite Hfrq.
      - by rewrite Hfrq.
      - rewrite Hfrp. intros Hcl i Hi. destruct (Hcid Hcl i Hi) as [(d & sd & Hrow) Hc].
        destruct Hduring as [Hd1 Hd2 _]. rewrite (sh_funs _ _ _ _ Hsh0) in Hd1, Hd2. rewrite (sh_calls _ _ _ _ Hsh0) in Hd2.
        rewrite Hd1. split; [eauto|]. by rewrite (Hd2 i d sd Hrow). }
    (* afterwards *)
    set (bb := OBegin t rq :: b ++ [OEnd t r]) in *.
    assert (runs s0 (a ++ bb) = fst (step s1 (OEnd t r))) as Hs2.
    { unfold bb, s1. rewrite <- runs_snoc, <- app_assoc. done. }
    assert (s_env (runs s0 (a ++ bb)) = s_env s1) as Henv.
    { by rewrite Hs2, end_env. }
    assert (depth (runs s0 (a ++ bb)) t = depth (runs s0 a) t) as Hdend.
    { rewrite Hs2. pose proof (step_frames md5 BK s1 (OEnd t r) t) as Hst. unfold frames_step in Hst.
      rewrite decide_True in Hst by done. unfold depth at 1. rewrite Hst, Hth. simpl. exact HZ. }
    (* no call of fn is running *)
    assert (forall c1 c2 t1 l1 fr1 l2, c = c1 ++ c2 -> thread (runs s0 (a ++ bb ++ c1)) t1 = l1 ++ fr1 :: l2 -> rq_fun (fr_req fr1) <> fn) as Hnone.
    { intros c1 c2 t1 l1 fr1 l2 -> Hth1 Hfn.
      destruct (frames_began md5 BK s0 _ Hth0 _ _ _ _ Hth1) as (a' & b' & Heq & [Hr' Hsr'] & _).
      unfold bb in Heq. simpl in Heq.
      apply app_cons_cases in Heq as [(z & Ha & Hb)|[(<- & [= <- Hrq] & Hb)|(z & Ha & Hb)]].
      - apply (Hfree t1 a' (fr_req fr1) z Ha); [|done]. split; [done|]. intros b3 b4 ->.
        apply (Hsr' b3 (b4 ++ OBegin t rq :: (b ++ [OEnd t r]) ++ c1)). rewrite Hb. by rewrite <- app_assoc.
      - rewrite <- Hrq in *. specialize (Hsr' (b ++ [OEnd t r]) c1 (eq_sym Hb)). fold bb in Hsr'. lia.
      - symmetry in Hb. rewrite <- app_assoc in Hb.
        assert (OBegin t1 (fr_req fr1) ∈ b ++ [OEnd t r] ++ c1) as Hin by (rewrite <- Hb; apply elem_of_app; right; by left).
        apply elem_of_app in Hin as [Hin|[Hin|Hin]%elem_of_app].
        + by apply (Hnb' _ _ Hin).
        + by apply elem_of_list_singleton in Hin.
        + apply (Hnc t1 (fr_req fr1)); [|done]. apply elem_of_app. by left. }
    assert (forall c1 c2, c = c1 ++ c2 -> dep veq fn bd f d0 (cur (runs s0 (a ++ bb ++ c1))) /\ dep veq fn bd f d0 (base (runs s0 (a ++ bb ++ c1)))) as Hafter.
    { intros c1. induction c1 as [|o c1 IH] using rev_ind; intros c2 Heq.
      { rewrite app_nil_r, Hs2, Hbase. done. }
      rewrite <- app_assoc in Heq. simpl in Heq. destruct (IH (o :: c2) Heq) as [Dc Db].
      replace (a ++ bb ++ c1 ++ [o]) with ((a ++ bb ++ c1) ++ [o]) by (by rewrite <- !app_assoc).
      rewrite runs_snoc. destruct (Hinv (a ++ bb ++ c1) (o :: c2)) as [Ii Xx].
      { rewrite Heq. by rewrite <- !app_assoc. }
      apply (step_dep veq md5 F' Hveq); [done|done|done|done|].
      assert (unchanged md5 f d0 (s_env (runs s0 (a ++ bb ++ c1))) \/ leaves_alone md5 BK s0 (a ++ bb ++ c1) o f) as Hor.
      { destruct (Hcalm _ _ _ Heq) as [Hu|?]; [left|by right]. intros d Hd. apply Hu in Hd. rewrite Henv, Hd0 in Hd. by injection Hd. }
      destruct o as [t1 rq1|t1 xs xd g|t1 r1|t1| | | | |funs|g|g]; try done.
      - destruct Hor as [?|[H1 H2]]; [by left|right]. split; [done|]. intros ru Hru. apply H2.
        by apply log_ran.
      - intros fr1 frs1 Hth1. split; [by eapply (Hnone c1 (OEnd t1 r1 :: c2) t1 [])|].
        destruct Hor as [?|Hl]; [by left|right].
        destruct (frames_began md5 BK s0 _ Hth0 t1 [] fr1 frs1 Hth1) as (a' & b' & Hos & Hrun & Hn & _ & _ & Hx1 & Hx2).
        destruct (Hl a' (fr_req fr1) b' Hos) as [N1 N2].
        { split; [done|]. rewrite <- Hos. unfold depth at 1. rewrite Hth1. exact Hn. }
        split; [by rewrite Hx1|by rewrite Hx2].
      - intros ->. apply Hdel. rewrite Heq. apply elem_of_app. right. by left. }
    destruct (Hafter c [] (eq_sym (app_nil_r c))) as [Dc _].
    assert (runs s0 (a ++ bb ++ c) = s) as Hs. { unfold s, bb. simpl. by rewrite <- app_assoc. }
    destruct (Hinv (a ++ bb ++ c) []) as [Ie Xe]; [by rewrite app_nil_r|]. rewrite Hs in Dc, Ie, Xe.
    (* the query *)
    destruct Hex as [d Hd]. rewrite Hd in Hch.
    simpl in Hhit. unfold begin_call in Hhit. destruct (e_fun (s_env s) !! rq_fun rq) as [dg'|]; [|done].
    destruct (prepare md5 _ _ _ _ _ _) as [res db] eqn:Ep. simpl in Ep.
    rewrite (lifts_prepare veq md5 _ _ _ _ (s_db s)) in Ep. unfold on_cur in Ep.
    destruct (prepare _ core0 _ _ _ _ _) as [r0 q] eqn:Eq. injection Ep as <- <-.
    destruct r0 as [x|p0]; [done|].
    pose proof (prepare_changed veq md5 F' fn bd f d0 (s_env s) (rq_srcs rq) (cur s) d p0 q (in_fs _ _ _ _ Ie) (p_wf _ _ _ _ (proj1 Xe)) Dc Hd) as Hpc.
    destruct Hpc as [Hne|Hne]; [congruence|exact Eq|..].
    - destruct (pr_fun_dirty p0); [done|done].
    - destruct (pr_fun_dirty p0); [done|]. by destruct (pr_call_dirty p0).
    - destruct (pr_fun_dirty p0), (pr_call_dirty p0), (pr_files p0); done.
    - destruct (pr_fun_dirty p0), (pr_call_dirty p0), (pr_files p0), (pr_xfiles p0); done.
  Qed.
End Main.
