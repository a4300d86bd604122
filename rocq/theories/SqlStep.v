(** The invariant of the SQLite backend is preserved as long as recordings fail only while
    nothing else is running; soundness of hits. *)
From stdpp Require Import base list strings gmap.
From Coq Require Import ZArith Lia.
From Verif Require Import PyMonad DbModel DbSpec SqlBackend SqlSpec SqlLift SqlFacts SqlInv DbHistory.

(** Whenever a call ends with an error, no cached function is running any more. *)
Definition errors_alone {V R S FunId CallId FileId} (md5 : content -> digest) (BK : backend V R S FunId CallId FileId)
    (s0 : sys V R S FunId CallId FileId) (os : list (op V R)) : Prop :=
  forall a t r x b, os = a ++ OEnd t r :: b ->
    snd (step md5 BK (runs md5 BK s0 a) (OEnd t r)) = RErr x -> quiescent (runs md5 BK s0 (a ++ [OEnd t r])).

Section Step.
  Context {V R : Type} (veq : V -> V -> bool) (md5 : content -> digest).
  Context (F : name -> Z -> content).
  Context (Hveq : equivalence_test veq).
  Notation BK := (sql_backend (V := V) (R := R) veq md5).
  Notation core0 := (sql_core0 (R := R) veq).
  Notation frame := (frame V R nat nat nat).
  Notation sys := (sys V R (conn V R) nat nat nat).
  Notation op := (op V R).
  Notation digest_at := (digest_at md5).
  Notation db_inv := (db_inv_ex (V := V) (R := R) veq md5 F None).
  Notation frame_inv := (frame_inv (V := V) (R := R) veq md5).
  Notation cur s := (k_cur (s_db s)).
  Notation base s := (k_base (s_db s)).

  Record inv (s : sys) : Prop := Inv {
    in_fs : fs_faithful F (s_env s);
    in_cur : db_inv (s_log s) (cur s);
    in_base : db_inv (s_log s) (base s);
    in_frames : forall t fr, fr ∈ thread s t -> frame_inv (s_env s) (cur s) fr
  }.

  Lemma inv_fresh s : fresh conn_empty s -> fs_faithful F (s_env s) -> inv s.
  Proof.
    intros (Hdb & Hcs & Hth & Hlg) Hfs. split; [done|..].
    - rewrite Hdb. apply db_inv_empty.
    - rewrite Hdb. apply db_inv_empty.
    - intros t fr. unfold thread. rewrite Hth, lookup_empty. by intros ?%elem_of_nil.
  Qed.

  Lemma frame_inv_env e e' c fr :
    e_fun e' = e_fun e ->
    (forall f, f ∈ rq_srcs (fr_req fr) -> digest_at e' f = digest_at e f) ->
    frame_inv e c fr -> frame_inv e' c fr.
  Proof.
    intros Hf Hs []. split; auto.
    - by rewrite Hf.
    - intros f Hin. by rewrite Hs, fi_stable by done.
    - intros i H f Hin. destruct (fi_same i H f Hin) as [?|Hd]; [by left|right].
      intros d. rewrite Hs by done. auto.
  Qed.
  Lemma frame_inv_add e c xs xd fr : frame_inv e c fr -> frame_inv e c (frame_add xs xd fr).
  Proof. intros []. split; auto. Qed.

  Lemma frame_inv_begin e lg q q' rq p d :
    db_inv lg q ->
    prep_ok veq md5 e (rq_fun rq) (rq_bound rq) (rq_srcs rq) q q' p ->
    shrink md5 F q q' -> e_fun e !! rq_fun rq = Some d ->
    frame_inv e q' (Frame rq d p [] [] e).
  Proof.
    intros [Hw He] [] Hsh Hd. pose proof Hw as []. split; simpl; auto.
    - intros H. destruct (po_clean H) as (i & d' & deps & Hid & Hd' & Hf). exists i. split; [done|].
      rewrite (sh_nfun _ _ _ _ Hsh), (sh_funs _ _ _ _ Hsh). split; [by eauto|].
      intros g d2 dp Hg. assert (g = rq_fun rq) as -> by eauto. split; [done|]. congruence.
    - intros c H. destruct (po_cid _ H) as (i & b' & r & Hfd & Hid & Hin & Hv & _).
      rewrite (sh_ncall _ _ _ _ Hsh), (sh_calls _ _ _ _ Hsh). split; [done|]. split; [by apply (wf_clt _ Hin)|].
      intros i2 b2 r2 Hin2. pose proof (wf_cuniq _ _ Hin Hin2 eq_refl) as [= <- <- <-]. done.
    - intros c H f Hf. destruct (po_same c H f Hf) as [?|(d' & Hd1 & Hd2)]; [by left|right].
      intros d2 H2. apply (sh_cf _ _ _ _ Hsh) in H2. congruence.
  Qed.

  Lemma begin_prepare (s : sys) (rq : request V R) res db :
    inv s ->
    prepare md5 (b_core BK) (s_env s) (rq_fun rq) (rq_bound rq) (rq_srcs rq) (s_db s) = (res, db) ->
    k_base db = base s /\ shrink md5 F (cur s) (k_cur db) /\
    forall p, res = inr p ->
      prep_ok veq md5 (s_env s) (rq_fun rq) (rq_bound rq) (rq_srcs rq) (cur s) (k_cur db) p.
  Proof.
    intros [Hfs Hm Hd Hfr] Hp. simpl in Hp.
    rewrite (lifts_prepare veq md5 _ _ _ _ (s_db s)) in Hp. unfold on_cur in Hp.
    destruct (prepare _ core0 _ _ _ _ _) as [r c] eqn:E. injection Hp as <- <-. simpl.
    split; [done|]. eapply prepare_spec; [exact Hfs|apply Hm|exact E].
  Qed.

  Lemma inv_step s o :
    inv s -> op_faithful F o -> well_behaved s o ->
    (forall t r x, o = OEnd t r -> snd (step md5 BK s o) = RErr x -> quiescent (fst (step md5 BK s o))) ->
    inv (fst (step md5 BK s o)).
  Proof.
    intros Hinv Hop Hwb Hq. pose proof Hinv as [Hfs Hm Hd Hfr].
    destruct o as [t rq|t xs xd g|t r|t|f ct m|f|dt| |funs|f|f]; simpl.
    - (* OBegin *)
      unfold begin_call. destruct (e_fun (s_env s) !! rq_fun rq) as [d|] eqn:Ed; [|by split].
      destruct (prepare md5 _ _ _ _ _ _) as [res db] eqn:Ep.
      pose proof (begin_prepare _ _ _ _ Hinv Ep) as (Hdk & Hsh & Hok).
      assert (forall cs, inv (Sys (s_env s) db cs (s_threads s) (s_log s))) as Hsame.
      { intros cs. split; simpl; try done.
        - by eapply db_inv_shrink.
        - by rewrite Hdk.
        - intros t' fr Hin. eapply frame_inv_agrees; [by eapply shrink_agrees|]. by eapply Hfr. }
      destruct res as [x|p]; [apply Hsame|].
      assert (forall cs, inv (Sys (s_env s) db cs
                (<[t := Frame rq d p [] [] (s_env s) :: thread s t]> (s_threads s)) (s_log s))) as Hrun.
      { intros cs. destruct (Hsame cs) as [A1 A2 A3 A4]. split; simpl in *; try done.
        intros t' fr. rewrite thread_insert. destruct (decide (t = t')) as [<-|Hn].
        - intros [->|Hin]%elem_of_cons; [|by eapply A4].
          eapply frame_inv_begin; [exact Hm| |done|done]. by apply Hok.
        - intros Hin. by eapply A4. }
      destruct (pr_fun_dirty p), (pr_call_dirty p), (pr_files p), (pr_xfiles p), (pr_old_result p);
        try apply Hrun.
      destruct (forallb _ _); [apply Hsame|apply Hrun].
    - (* OAddExt *)
      unfold add_ext. split; simpl; try done. intros t' fr. rewrite thread_insert.
      destruct (decide (t = t')) as [<-|Hn]; [|intros Hin; by eapply Hfr].
      destruct (thread s t) as [|fr0 frs] eqn:Et; [by intros ?%elem_of_nil|].
      intros [->|Hin]%elem_of_cons.
      + apply frame_inv_add, (Hfr t). rewrite Et. by left.
      + destruct g.
        * apply (Hfr t). rewrite Et. by right.
        * apply elem_of_list_fmap in Hin as (fr' & -> & Hin).
          apply frame_inv_add, (Hfr t). rewrite Et. by right.
    - (* OEnd *)
      specialize (Hq t r). simpl in Hq. revert Hq.
      unfold end_call. destruct (thread s t) as [|fr frs] eqn:Et; [done|].
      assert (forall t' fr', fr' ∈ default [] (<[t := frs]> (s_threads s) !! t') ->
                fr' ∈ thread s t') as Hsub.
      { intros t' fr'. destruct (decide (t = t')) as [<-|Hn].
        - rewrite lookup_insert. simpl. rewrite Et. by right.
        - by rewrite lookup_insert_ne. }
      destruct (s_callstack s) as [|deps cs].
      { split; simpl; try done. intros t' fr' Hin. by apply (Hfr t'), Hsub. }
      assert (frame_inv (s_env s) (cur s) fr) as Hf by (apply (Hfr t); rewrite Et; by left).
      rewrite (cache_transaction veq md5 _ _ _ _ _ _ _ _ _ _ _ _ (s_db s)).
      destruct (cache0 _ _ _ _ _ _ _ _ _ _ _ _ _ _ (cur s)) as [[x|[]] c'] eqn:Ec; cbn [fst snd].
      + intros Hq. split; simpl; [done|by apply db_inv_log|by apply db_inv_log|].
        intros t' fr' Hin. specialize (Hq x eq_refl eq_refl t'). unfold thread in Hq, Hin. simpl in Hq, Hin.
        rewrite Hq in Hin. by apply elem_of_nil in Hin.
      + intros _. eapply (cache0_inv veq md5 F Hveq (s_log s)) in Ec as [Hag Hdb]; try done.
        split; simpl; [done|done|done|].
        intros t' fr' Hin. eapply frame_inv_agrees; [exact Hag|]. by apply (Hfr t'), Hsub.
    - (* ORaise *)
      unfold raise_call. destruct (thread s t) as [|fr frs] eqn:Et; [done|].
      split; simpl; try done. intros t' fr'. rewrite thread_insert.
      destruct (decide (t = t')) as [<-|Hn]; intros Hin.
      + apply (Hfr t). rewrite Et. by right.
      + by eapply Hfr.
    - (* OWrite *)
      simpl in Hop, Hwb. split; simpl; try done.
      + intros g m' c'. simpl. destruct (decide (f = g)) as [<-|Hn].
        * rewrite lookup_insert. by intros [= <- <-].
        * rewrite lookup_insert_ne by done. apply Hfs.
      + intros t fr Hin. eapply (frame_inv_env (s_env s)); [done| |by eapply Hfr].
        intros g Hg. unfold digest_at; simpl. rewrite lookup_insert_ne; [done|].
        intros ->. apply Hwb. by exists t, fr.
    - (* ORemove *)
      simpl in Hwb. split; simpl; try done.
      + intros g m' c'. simpl. intros H. apply lookup_delete_Some in H as [_ H]. by apply Hfs.
      + intros t fr Hin. eapply (frame_inv_env (s_env s)); [done| |by eapply Hfr].
        intros g Hg. unfold digest_at; simpl. rewrite lookup_delete_ne; [done|].
        intros ->. apply Hwb. by exists t, fr.
    - (* OTick *)
      split; simpl; try done. intros t fr Hin. eapply (frame_inv_env (s_env s)); [done| |by eapply Hfr]. done.
    - (* OSave *)
      by split.
    - (* ORestart *)
      split; simpl; try done.
      + destruct (k_version (s_db s)); simpl; [done|apply db_inv_empty].
      + destruct (k_version (s_db s)); simpl; [done|apply db_inv_empty].
      + intros t fr. unfold thread; simpl. rewrite lookup_empty. by intros ?%elem_of_nil.
    - (* ODelFun *)
      simpl in Hwb. pose proof (delete_function_inv veq md5 F (s_log s) (s_env s) f (cur s) Hm) as (H1 & _ & H3).
      unfold on_cur. set (q := snd (s_delete_function f (cur s))) in *.
      change (s_delete_function f (cur s)) with (@inr exn _ false, q). split; cbn [s_env s_db s_log fst k_cur k_base]; try done.
      intros t fr Hin. eapply frame_inv_agrees; [exact H3|]. by eapply Hfr.
    - (* ODelFile *)
      pose proof (delete_file_shrink md5 F f (cur s)) as Hsh.
      unfold on_cur. set (q := snd (s_delete_file f (cur s))) in *.
      change (s_delete_file f (cur s)) with (@inr exn _ false, q). split; cbn [s_env s_db s_log fst k_cur k_base]; try done.
      + by eapply db_inv_shrink.
      + intros t fr Hin. eapply frame_inv_agrees; [by eapply shrink_agrees|]. by eapply Hfr.
  Qed.

  Lemma inv_runs s os : inv s -> history_ok md5 BK F s os -> errors_alone md5 BK s os -> inv (runs md5 BK s os).
  Proof.
    revert s. induction os as [|o os IH]; intros s Hinv; simpl; [done|].
    intros (H1 & H2 & H3) He. apply IH; [|done|].
    - apply inv_step; try done. intros t r x -> Hx. by apply (He [] t r x os).
    - intros a t r x b -> Hx. by apply (He (o :: a) t r x b).
  Qed.

  (** What a hit means. *)
  Lemma hit_sound_in lg (s : sys) (t : nat) (rq : request V R) (r : R) xs xd :
    inv s -> db_inv lg (cur s) -> snd (step md5 BK s (OBegin t rq)) = RHit r xs xd ->
    exists ru, ru ∈ lg /\
      rq_fun (ru_req ru) = rq_fun rq /\ veq (rq_bound rq) (rq_bound (ru_req ru)) = true /\
      ru_result ru = r /\
      e_fun (s_env s) !! rq_fun rq = Some (ru_digest ru) /\
      (forall f, f ∈ rq_srcs rq -> f ∈ rq_srcs (ru_req ru) ->
         is_Some (digest_at (s_env s) f) /\
         digest_at (s_env s) f = digest_at (ru_begin ru) f).
  Proof.
    intros Hinv [Hw He]. simpl. unfold begin_call.
    destruct (e_fun (s_env s) !! rq_fun rq) as [d|] eqn:Ed; [|done].
    destruct (prepare md5 _ _ _ _ _ _) as [res db] eqn:Ep.
    pose proof (begin_prepare _ _ _ _ Hinv Ep) as (Hdk & Hsh & Hok).
    destruct res as [x|p]; [done|]. specialize (Hok p eq_refl) as [].
    destruct (pr_fun_dirty p) eqn:E1; [done|].
    destruct (pr_call_dirty p) eqn:E2; [done|].
    destruct (pr_files p) as [|] eqn:E3; [|done].
    destruct (pr_xfiles p) as [|] eqn:E4; [|done].
    destruct (pr_old_result p) as [r0|] eqn:E5; [|done].
    destruct (forallb _ _) eqn:E6; [|done]. simpl. intros [= <- <- <-].
    destruct (po_call_dirty eq_refl) as [c Hcid].
    destruct (po_cid _ Hcid) as (i & b' & r & _ & Hid & Hin & Hv & [= <-]).
    destruct (po_clean eq_refl) as (i' & d' & deps & Hid' & Hd' & Hc). rewrite Ed in Hd'. injection Hd' as <-.
    rewrite Hid in Hid'. injection Hid' as <-.
    destruct (He _ _ _ _ Hin) as (ru & Hru & []); [done|].
    destruct en_digest as [dp Hdp].
    pose proof (wf_ginj _ _ _ Hw _ _ _ _ _ _ _ Hc Hdp) as Hfn.
    exists ru. split_and!; try done.
    - destruct Hveq as (_ & _ & Ht). by eapply Ht.
    - rewrite <- Hfn in Hdp. congruence.
    - intros f Hf Hf'. destruct (po_same _ Hcid f Hf) as [(? & ? & Hd0)|(d0 & Hd0 & Hcf)].
      + by apply elem_of_nil in Hd0.
      + split; [by rewrite Hd0|]. rewrite Hd0. symmetry. by apply en_srcs.
  Qed.
  Lemma hit_sound (s : sys) (t : nat) (rq : request V R) (r : R) xs xd :
    inv s -> snd (step md5 BK s (OBegin t rq)) = RHit r xs xd ->
    exists ru, ru ∈ s_log s /\
      rq_fun (ru_req ru) = rq_fun rq /\ veq (rq_bound rq) (rq_bound (ru_req ru)) = true /\
      ru_result ru = r /\
      e_fun (s_env s) !! rq_fun rq = Some (ru_digest ru) /\
      (forall f, f ∈ rq_srcs rq -> f ∈ rq_srcs (ru_req ru) ->
         is_Some (digest_at (s_env s) f) /\
         digest_at (s_env s) f = digest_at (ru_begin ru) f).
  Proof. intros Hinv. apply hit_sound_in; [done|apply Hinv]. Qed.
End Step.

Section Hits.
  Context {V R : Type} (veq : V -> V -> bool) (md5 : content -> digest).
  Notation BK := (sql_backend (V := V) (R := R) veq md5).
  Theorem hits_justified_alone : equivalence_test veq -> hits_justified (R := R) veq md5 (errors_alone md5 BK).
  Proof.
    intros Hveq F D s0 os t rq r srcs dsts BK' Hf Hfs Hh [Hd1 Hd2] Hok s Hhit.
    edestruct (hit_sound veq md5 F Hveq s) as (ru & Hru & Hfn & Hv & Hr & Hdg & Hs); [|exact Hhit|].
    { apply inv_runs; [done|by apply inv_fresh|done|done]. }
    assert (ran md5 BK s0 os ru) as Hran.
    { destruct Hf as (_ & _ & ? & ?). by apply log_ran. }
    exists ru. split_and!; try done.
    - etrans; [exact Hdg|]. destruct Hran as (t' & a & b & c & _ & _ & _ & _ & _ & He & _). by rewrite <- He, Hfn.
    - destruct Hran as (t' & a & b & c & -> & _). intros f Hin. apply Hs; [done|].
      rewrite (Hd1 t' (ru_req ru)).
      2:{ rewrite !elem_of_app. left. right. by left. }
      rewrite Hfn, <- (Hd2 _ (rq_bound rq)) by done.
      rewrite <- (Hd1 t rq); [done|]. rewrite elem_of_app. right. by left.
  Qed.
End Hits.
