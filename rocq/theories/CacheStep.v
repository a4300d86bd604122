(** The invariant is preserved by every operation; soundness of hits. *)
From stdpp Require Import base list strings gmap.
From Coq Require Import ZArith Lia.
From Verif Require Import PyMonad DbModel DbSpec CacheBackend CacheLift CacheFacts CacheInv DbHistory.

Section Step.
  Context {V R : Type} (veq : V -> V -> bool) (md5 : content -> digest).
  Notation BK := (cache_backend (V := V) (R := R) veq md5).
  Notation core0 := (cache_core0 (R := R) veq).
  Notation cdb := (cdb V R).
  Notation frame := (frame V R name (name * nat) name).
  Notation run := (run V R).
  Notation sys := (sys V R (pdb V R) name (name * nat) name).
  Notation op := (op V R).
  Notation cf c := (callfile (c_callfiles c)).
  Notation digest_at := (digest_at md5).
  Notation db_inv := (db_inv_ex (V := V) (R := R) md5 None).
  Notation frame_inv := (frame_inv (V := V) (R := R) md5).
  Notation mem s := (p_mem (s_db s)).
  Notation disk s := (p_disk (s_db s)).

  Record inv (s : sys) : Prop := Inv {
    in_mem : db_inv (fun ru => ru ∈ s_log s) (mem s);
    in_disk : db_inv (fun ru => ru ∈ s_log s) (disk s);
    in_frames : forall t fr, fr ∈ thread s t -> frame_inv (s_env s) (mem s) fr
  }.

  Lemma inv_fresh s : fresh pdb_empty s -> inv s.
  Proof.
    intros (Hdb & Hcs & Hth & Hlg). split.
    - rewrite Hdb. apply db_inv_empty.
    - rewrite Hdb. apply db_inv_empty.
    - intros t fr. unfold thread. rewrite Hth, lookup_empty. by intros ?%elem_of_nil.
  Qed.

  Lemma frame_inv_env e e' c fr :
    e_fun e' = e_fun e ->
    (forall f, f ∈ rq_srcs (fr_req fr) -> digest_at e' f = digest_at e f) ->
    frame_inv e c fr -> frame_inv e' c fr.
  Proof.
    intros Hf Hs []. split; auto.
    - by rewrite Hf.
    - intros f Hin. by rewrite Hs, fi_stable by done.
    - intros gn i H f Hin. destruct (fi_same gn i H f Hin) as [?|Hd]; [by left|right].
      intros d. rewrite Hs by done. auto.
  Qed.

  Lemma frame_inv_add e c xs xd fr : frame_inv e c fr -> frame_inv e c (frame_add xs xd fr).
  Proof. intros []. split; auto. Qed.

  Lemma frame_inv_begin e c c' rq p d :
    prep_ok veq md5 e (rq_fun rq) (rq_bound rq) (rq_srcs rq) c p ->
    shrink md5 e c c' ->
    e_fun e !! rq_fun rq = Some d ->
    frame_inv e c' (Frame rq d p [] [] e).
  Proof.
    intros [] Hsh Hd. split; simpl; auto.
    - intros H. destruct (po_clean H) as [? (d' & deps & Hd' & Hc)]. split; [done|].
      rewrite (sh_functions _ _ _ _ Hsh). rewrite Hd in Hd'. injection Hd' as <-. eauto.
    - intros H d' deps. rewrite (sh_functions _ _ _ _ Hsh), po_nofid by done. done.
    - intros gn i H. destruct (po_cid _ H) as (j & ds & b' & r & [= -> ->] & ? & _). done.
    - intros gn i H f Hf. destruct (po_same gn i H f Hf) as [?|(d' & Hd1 & Hd2)]; [by left|right].
      intros d2 H2. apply Hsh in H2. congruence.
  Qed.

  Lemma delete_file_shrink e f c : shrink (V:=V) (R:=R) md5 e c (snd (c_delete_file f c)).
  Proof.
    split; try done; simpl.
    - intros g fn i d. rewrite callfile_delete. by destruct (decide (f = g)).
    - intros Hok g m d ct. simpl. intros H. apply lookup_delete_Some in H as [_ H]. by apply Hok.
  Qed.

  (** A call that is about to be answered or to run. *)
  Lemma begin_prepare (s : sys) (rq : request V R) res db :
    files_ok md5 (s_env s) (mem s) ->
    prepare md5 (b_core BK) (s_env s) (rq_fun rq) (rq_bound rq) (rq_srcs rq) (s_db s) = (res, db) ->
    p_disk db = disk s /\ shrink md5 (s_env s) (mem s) (p_mem db) /\
    forall p, res = inr p ->
      prep_ok veq md5 (s_env s) (rq_fun rq) (rq_bound rq) (rq_srcs rq) (mem s) p.
  Proof.
    intros Hok Hp. simpl in Hp.
    rewrite (lifts_prepare veq md5 _ _ _ _ (s_db s)) in Hp. unfold on_mem in Hp.
    destruct (prepare _ core0 _ _ _ _ _) as [r c] eqn:E. injection Hp as <- <-. simpl.
    split; [done|]. by eapply prepare_spec.
  Qed.

  Lemma inv_step s o :
    inv s -> files_ok md5 (s_env s) (mem s) -> well_behaved s o -> inv (fst (step md5 BK s o)).
  Proof.
    intros Hinv Hfs Hwb. pose proof Hinv as [Hm Hd Hfr].
    destruct o as [t rq|t xs xd g|t r|t|f ct m|f|dt| |funs|f|f]; simpl.
    - (* OBegin *)
      unfold begin_call. destruct (e_fun (s_env s) !! rq_fun rq) as [d|] eqn:Ed; [|by split].
      destruct (prepare md5 _ _ _ _ _ _) as [res db] eqn:Ep.
      pose proof (begin_prepare _ _ _ _ Hfs Ep) as (Hdk & Hsh & Hok).
      assert (forall cs, inv (Sys (s_env s) db cs (s_threads s) (s_log s))) as Hsame.
      { intros cs. split; simpl; try done.
        - by eapply db_inv_shrink.
        - by rewrite Hdk.
        - intros t' fr Hin. eapply frame_inv_agrees; [by eapply shrink_agrees|]. by eapply Hfr. }
      destruct res as [x|p]; [apply Hsame|].
      assert (forall cs, inv (Sys (s_env s) db cs
                (<[t := Frame rq d p [] [] (s_env s) :: thread s t]> (s_threads s)) (s_log s))) as Hrun.
      { intros cs. destruct (Hsame cs) as [A2 A3 A4]. split; simpl in *; try done.
        intros t' fr. rewrite thread_insert. destruct (decide (t = t')) as [<-|Hn].
        - intros [->|Hin]%elem_of_cons; [|by eapply A4].
          eapply frame_inv_begin; [|done|done]. by apply Hok.
        - intros Hin. by eapply A4. }
      destruct (pr_fun_dirty p), (pr_call_dirty p), (pr_files p), (pr_xfiles p), (pr_old_result p);
        try apply Hrun.
      destruct (forallb _ _); [apply Hsame|apply Hrun].
    - (* OAddExt *)
      unfold add_ext. split; simpl; try done. intros t' fr. rewrite thread_insert.
      destruct (decide (t = t')) as [<-|Hn]; [|intros Hin; by eapply Hfr].
      destruct (thread s t) as [|fr0 frs] eqn:Et; [by intros ?%elem_of_nil|].
      intros [->|Hin]%elem_of_cons.
      + apply frame_inv_add, (Hfr t). rewrite Et. by left.
      + destruct g.
        * apply (Hfr t). rewrite Et. by right.
        * apply elem_of_list_fmap in Hin as (fr' & -> & Hin).
          apply frame_inv_add, (Hfr t). rewrite Et. by right.
    - (* OEnd *)
      unfold end_call. destruct (thread s t) as [|fr frs] eqn:Et; [done|].
      assert (forall t' fr', fr' ∈ default [] (<[t := frs]> (s_threads s) !! t') ->
                fr' ∈ thread s t') as Hsub.
      { intros t' fr'. destruct (decide (t = t')) as [<-|Hn].
        - rewrite lookup_insert. simpl. rewrite Et. by right.
        - by rewrite lookup_insert_ne. }
      destruct (s_callstack s) as [|deps cs].
      { split; simpl; try done. intros t' fr' Hin. by apply (Hfr t'), Hsub. }
      assert (frame_inv (s_env s) (mem s) fr) as Hf by (apply (Hfr t); rewrite Et; by left).
      rewrite (lifts_cache veq md5 _ _ _ _ _ _ _ _ _ _ _ _ (s_db s)). unfold on_mem.
      destruct (cache0 _ _ _ _ _ _ _ _ _ _ _ _ _ _ (mem s)) as [res c'] eqn:Ec.
      set (ru := Run (fr_req fr) (fr_digest fr) r (fr_begin fr) (s_env s) (fr_xsrcs fr) (fr_xdsts fr) (is_ok res)).
      eapply (cache0_inv veq md5 (fun x => x ∈ s_log s) (fun x => x ∈ ru :: s_log s)) in Ec as [Hag Hdb]; try done.
      2:{ intros Hdt. destruct (pr_call_id (fr_prep fr)) as [[gn i]|] eqn:Ecid; [|done].
          destruct (fi_cid _ _ _ _ Hf _ _ Ecid) as [_ ?]. congruence. }
      2:{ intros x Hx. by right. }
      2:{ by left. }
      destruct res as [x|[]]; (split; simpl; [done|eapply db_inv_mono; [|exact Hd]; intros ? ?; by right|]);
        intros t' fr' Hin; (eapply frame_inv_agrees; [exact Hag|]); by apply (Hfr t'), Hsub.
    - (* ORaise *)
      unfold raise_call. destruct (thread s t) as [|fr frs] eqn:Et; [done|].
      split; simpl; try done. intros t' fr'. rewrite thread_insert.
      destruct (decide (t = t')) as [<-|Hn]; intros Hin.
      + apply (Hfr t). rewrite Et. by right.
      + by eapply Hfr.
    - (* OWrite *)
      simpl in Hwb. split; simpl; try done.
      intros t fr Hin. eapply (frame_inv_env (s_env s)); [done| |by eapply Hfr].
      intros g Hg. unfold digest_at; simpl. rewrite lookup_insert_ne; [done|].
      intros ->. apply Hwb. by exists t, fr.
    - (* ORemove *)
      simpl in Hwb. split; simpl; try done.
      intros t fr Hin. eapply (frame_inv_env (s_env s)); [done| |by eapply Hfr].
      intros g Hg. unfold digest_at; simpl. rewrite lookup_delete_ne; [done|].
      intros ->. apply Hwb. by exists t, fr.
    - (* OTick *)
      split; simpl; try done. intros t fr Hin. eapply (frame_inv_env (s_env s)); [done| |by eapply Hfr]. done.
    - (* OSave *)
      by split.
    - (* ORestart *)
      split; simpl; try done. intros t fr. unfold thread; simpl. rewrite lookup_empty.
      by intros ?%elem_of_nil.
    - (* ODelFun *)
      simpl in Hwb. destruct (delete_function core0 f (mem s)) as [res c] eqn:E.
      cbn in E. injection E as <- <-. split; simpl; try done.
      + by eapply (delete_function_inv veq md5 (fun ru => ru ∈ s_log s) f (mem s)).
      + intros t fr Hin. exfalso. pose proof (Hwb t) as Ht. unfold thread in Ht, Hin; simpl in Hin.
        rewrite Ht in Hin. by apply elem_of_nil in Hin.
    - (* ODelFile *)
      split; simpl; try done.
      + eapply db_inv_shrink; [|exact Hm]. apply (delete_file_shrink (s_env s) f).
      + intros t fr Hin. eapply frame_inv_agrees; [|by eapply Hfr].
        eapply shrink_agrees, (delete_file_shrink (s_env s) f).
  Qed.

  (** At all times recorded digests with the present modification times are right. *)
  Fixpoint trusted (s : sys) (os : list op) : Prop :=
    match os with
    | [] => files_ok md5 (s_env s) (mem s)
    | o :: os' => files_ok md5 (s_env s) (mem s) /\ well_behaved s o /\
                  trusted (fst (step md5 BK s o)) os'
    end.

  Lemma inv_runs s os : inv s -> trusted s os -> inv (runs md5 BK s os).
  Proof.
    revert s. induction os as [|o os IH]; intros s Hinv; simpl; [done|].
    intros (H1 & H2 & H3). apply IH; [|done]. by apply inv_step.
  Qed.

  Lemma trusted_app s (a b : list op) :
    trusted s (a ++ b) -> trusted s a /\ trusted (runs md5 BK s a) b.
  Proof.
    revert s. induction a as [|o a IH]; intros s; simpl.
    - intros H. split; [|done]. destruct b; [done|apply H].
    - intros (H1 & H2 & H3). by apply IH in H3 as [??].
  Qed.

  Lemma trusted_end s os : trusted s os -> files_ok md5 (s_env (runs md5 BK s os)) (mem (runs md5 BK s os)).
  Proof. intros H. rewrite <- (app_nil_r os) in H. by apply trusted_app in H as [_ ?]. Qed.

  (** What a hit means. *)
  Lemma hit_entry (lg : run -> Prop) (s : sys) (t : nat) (rq : request V R) (r : R) xs xd :
    db_inv lg (mem s) -> files_ok md5 (s_env s) (mem s) ->
    snd (step md5 BK s (OBegin t rq)) = RHit r xs xd ->
    exists ru, lg ru /\
      rq_fun (ru_req ru) = rq_fun rq /\ veq (rq_bound rq) (rq_bound (ru_req ru)) = true /\
      ru_result ru = r /\
      e_fun (s_env s) !! rq_fun rq = Some (ru_digest ru) /\
      xs = rq_srcs rq ++ ru_xsrcs ru /\ xd = rq_dsts rq ++ ru_xdsts ru ++ rq_ret rq r /\
      (forall f, f ∈ rq_srcs rq -> f ∈ rq_srcs (ru_req ru) ->
         is_Some (digest_at (s_env s) f) /\
         digest_at (s_env s) f = digest_at (ru_begin ru) f) /\
      (forall f, f ∈ ru_xsrcs ru -> ru_recorded ru = true -> is_Some (e_fs (s_env s) !! f) ->
         digest_at (s_env s) f = digest_at (ru_end ru) f) /\
      (forall f, f ∈ xd -> is_Some (e_fs (s_env s) !! f)).
  Proof.
    intros Hinv Htr. simpl. unfold begin_call.
    destruct (e_fun (s_env s) !! rq_fun rq) as [d|] eqn:Ed; [|done].
    destruct (prepare md5 _ _ _ _ _ _) as [res db] eqn:Ep.
    pose proof (begin_prepare _ _ _ _ Htr Ep) as (Hdk & Hsh & Hok).
    destruct res as [x|p]; [done|]. specialize (Hok p eq_refl) as [].
    destruct (pr_fun_dirty p) eqn:E1; [done|].
    destruct (pr_call_dirty p) eqn:E2; [done|].
    destruct (pr_files p) as [|] eqn:E3; [|done].
    destruct (pr_xfiles p) as [|] eqn:E4; [|done].
    destruct (pr_old_result p) as [r0|] eqn:E5; [|done].
    destruct (forallb _ _) eqn:E6; [|done]. simpl. intros [= <- <- <-].
    destruct (po_call_dirty eq_refl) as [[gn i] Hcid].
    destruct (po_cid _ Hcid) as (j & ds & b' & r & [= -> ->] & _ & Hds & Hi & Hveq & [= <-]).
    destruct (po_clean eq_refl) as [_ (d' & deps & Hd' & Hc)]. rewrite Ed in Hd'. injection Hd' as <-.
    destruct (di_entry _ _ _ _ Hinv _ _ _ _ _ Hds Hi) as (ru & Hru & []); [done|].
    destruct (po_xsrcs _ Hcid) as [Hxs Hxd].
    exists ru. split_and!; try done.
    - congruence.
    - destruct en_digest as [dp Hdp]. rewrite Hc in Hdp. congruence.
    - congruence.
    - congruence.
    - intros f Hf Hf'. destruct (po_same _ _ Hcid f Hf) as [[d0 Hd0]|(d0 & Hd0 & Hcf)].
      + by apply elem_of_nil in Hd0.
      + split; [by rewrite Hd0|]. rewrite Hd0. symmetry. by apply en_srcs.
    - intros f Hf Hrec [[m ct] Hfs].
      assert (digest_at (s_env s) f = Some (md5 ct)) as Hdg by (unfold digest_at; by rewrite Hfs).
      rewrite Hdg. symmetry. apply en_ext; auto. apply (po_x _ _ Hcid eq_refl); [congruence|done].
    - intros f Hf. rewrite forallb_forall in E6.
      specialize (E6 f). unfold exists_file in E6.
      destruct (e_fs (s_env s) !! f) eqn:Ef; [eauto|].
      discriminate E6. apply elem_of_list_In. rewrite !elem_of_app in *. tauto.
  Qed.

  Lemma hit_sound (s : sys) (t : nat) (rq : request V R) (r : R) xs xd :
    inv s -> files_ok md5 (s_env s) (mem s) ->
    snd (step md5 BK s (OBegin t rq)) = RHit r xs xd ->
    exists ru, ru ∈ s_log s /\
      rq_fun (ru_req ru) = rq_fun rq /\ veq (rq_bound rq) (rq_bound (ru_req ru)) = true /\
      ru_result ru = r /\
      e_fun (s_env s) !! rq_fun rq = Some (ru_digest ru) /\
      xs = rq_srcs rq ++ ru_xsrcs ru /\ xd = rq_dsts rq ++ ru_xdsts ru ++ rq_ret rq r /\
      (forall f, f ∈ rq_srcs rq -> f ∈ rq_srcs (ru_req ru) ->
         is_Some (digest_at (s_env s) f) /\
         digest_at (s_env s) f = digest_at (ru_begin ru) f) /\
      (forall f, f ∈ ru_xsrcs ru -> ru_recorded ru = true -> is_Some (e_fs (s_env s) !! f) ->
         digest_at (s_env s) f = digest_at (ru_end ru) f) /\
      (forall f, f ∈ xd -> is_Some (e_fs (s_env s) !! f)).
  Proof. intros H. apply hit_entry, H. Qed.
End Step.
