(** When the table of known files can be relied upon: which entries an operation
    adds to it, and two kinds of file systems for which they stay right. *)
From stdpp Require Import base list strings gmap.
From Coq Require Import ZArith Lia.
From Verif Require Import PyMonad DbModel DbSpec DbClaims CacheBackend CacheLift CacheFacts CacheInv
  DbHistory CacheStep CacheProv CacheDeps.

Section Trust.
  Context {V R : Type} (veq : V -> V -> bool) (md5 : content -> digest).
  Notation BK := (cache_backend (V := V) (R := R) veq md5).
  Notation core0 := (cache_core0 (R := R) veq).
  Notation cdb := (cdb V R).
  Notation sys := (sys V R (pdb V R) name (name * nat) name).
  Notation op := (op V R).
  Notation step := (step md5 BK).
  Notation runs := (runs md5 BK).
  Notation mem s := (p_mem (s_db s)).
  Notation disk s := (p_disk (s_db s)).

  (** Entries of [c'] are entries of [c] or describe a present file satisfying [P]. *)
  Definition grows (e : env) (P : name -> Prop) (c c' : cdb) : Prop :=
    forall f m d, c_files c' !! f = Some (m, d) ->
      c_files c !! f = Some (m, d) \/
      (P f /\ exists ct, e_fs e !! f = Some (m, ct) /\ d = md5 ct).

  Lemma grows_refl e P c : grows e P c c.
  Proof. intros f m d H. by left. Qed.
  Lemma grows_trans e P c1 c2 c3 : grows e P c1 c2 -> grows e P c2 c3 -> grows e P c1 c3.
  Proof. intros H1 H2 f m d H. destruct (H2 _ _ _ H) as [?|?]; [by apply H1|by right]. Qed.
  Lemma grows_mono e (P Q : name -> Prop) c c' : (forall f, P f -> Q f) -> grows e P c c' -> grows e Q c c'.
  Proof. intros HPQ H f m d Hf. destruct (H _ _ _ Hf) as [?|[? ?]]; [by left|right; auto]. Qed.
  Lemma grows_same e P (c c' : cdb) : c_files c' = c_files c -> grows e P c c'.
  Proof. intros H f m d. rewrite H. by left. Qed.

  Lemma grows_add_file e f (c : cdb) : grows e (fun g => g = f) c (snd (add_file md5 core0 e f c)).
  Proof.
    intros g m d. unfold add_file, bind. cbn.
    destruct (e_fs e !! f) as [[m0 ct]|] eqn:Ef.
    2:{ destruct (c_files c !! f) as [[??]|]; cbn; by left. }
    destruct (c_files c !! f) as [[om od]|] eqn:Ec; cbn.
    - destruct (Z.eqb m0 om && Z.ltb one_second (e_now e - m0))%bool; cbn; [by left|].
      destruct (String.eqb _ _); cbn; (destruct (decide (f = g)) as [->|Hn];
        [rewrite lookup_insert; intros [= <- <-]; right; eauto|
         rewrite lookup_insert_ne by done; rewrite ?lookup_delete_ne by done; by left]).
    - (destruct (decide (f = g)) as [->|Hn];
        [rewrite lookup_insert; intros [= <- <-]; right; eauto|
         rewrite lookup_insert_ne by done; rewrite ?lookup_delete_ne by done; by left]).
  Qed.

  Lemma grows_check_call_file e cid f (c : cdb) :
    grows e (fun g => g = f) c (snd (check_call_file md5 core0 e cid f c)).
  Proof.
    pose proof (grows_add_file e f c) as H. unfold check_call_file, bind.
    destruct (add_file md5 core0 e f c) as [[x|[[b fid] d]] c1]; [done|].
    destruct cid as [cid|]; [|done]. cbn. by destruct (callfile _ _ _ _); [destruct (String.eqb _ _)|].
  Qed.

  Lemma grows_check_call_files e cid fs (c : cdb) :
    grows e (fun g => g ∈ fs) c (snd (check_call_files md5 core0 e cid fs c)).
  Proof.
    revert c. induction fs as [|f fs IH]; intros c; simpl; [apply grows_refl|].
    pose proof (grows_check_call_file e cid f c) as H. unfold bind.
    apply (grows_mono _ _ (fun g => g ∈ f :: fs)) in H; [|intros ? ->; by left].
    destruct (check_call_file md5 core0 e cid f c) as [[x|[[b fid] d]] c1]; [done|].
    specialize (IH c1). apply (grows_mono _ _ (fun g => g ∈ f :: fs)) in IH; [|intros ? ?; by right].
    destruct (check_call_files md5 core0 e cid fs c1) as [[x|ds] c2]; by eapply grows_trans.
  Qed.

  Lemma grows_external_loop e cid fs (c : cdb) :
    grows e (fun g => g ∈ fs) c (snd (check_external_loop md5 core0 e cid fs c)).
  Proof.
    revert c. induction fs as [|f fs IH]; intros c; simpl; [apply grows_refl|].
    pose proof (grows_check_call_file e (Some cid) f c) as H. unfold bind, try_os.
    apply (grows_mono _ _ (fun g => g ∈ f :: fs)) in H; [|intros ? ->; by left].
    destruct (check_call_file md5 core0 e (Some cid) f c) as [r1 c1].
    specialize (IH c1). apply (grows_mono _ _ (fun g => g ∈ f :: fs)) in IH; [|intros ? ?; by right].
    destruct (check_external_loop md5 core0 e cid fs c1) as [r2 c2] eqn:E2.
    assert (grows e (fun g => g ∈ f :: fs) c c2) as H2 by by eapply grows_trans.
    destruct r1 as [[]|[[b fid] d]]; try exact H; rewrite E2; destruct r2; exact H2.
  Qed.

  (** External sources recorded for a call of [fn] with arguments equal to [b]. *)
  Definition recorded_ext (c : cdb) (fn : name) (b : V) (f : name) : Prop :=
    exists i ds b' r, c_calls c !! fn = Some ds /\ ds !! i = Some (b', r) /\ veq b b' = true /\
      f ∈ xfind (c_xsrcs c) (fn, i).

  Lemma grows_prepare e fn b srcs (c : cdb) :
    grows e (fun f => f ∈ srcs \/ recorded_ext c fn b f) c (snd (prepare md5 core0 e fn b srcs c)).
  Proof.
    set (P := fun f => _). unfold prepare, bind at 1.
    destruct (check_function core0 (e_limit e) e fn c) as [r1 c1] eqn:E1.
    pose proof (check_function_pure _ _ _ _ _ _ _ E1) as ->.
    destruct r1 as [x|[fd fid]]; [apply grows_refl|].
    pose proof (check_function_spec _ _ _ _ _ _ _ _ E1) as (d & Hd & Hnone & Hsome & Hclean).
    assert (exists cd cid old, (match fd, fid with
               | false, Some fid0 => find_call core0 fid0 b
               | _, _ => ret (true, None, None)
               end) c = (inr (cd, cid, old), c) /\
      (forall x, cid = Some x -> forall f, f ∈ xfind (c_xsrcs c) x -> P f))
      as (cd & cid & old & Hfc & Hcid).
    { destruct fd.
      - exists true, None, None. split; done.
      - destruct fid as [fid|].
        + rewrite (Hsome _ eq_refl). cbn. unfold c_find_call.
          destruct (c_calls c !! fn) as [ds|] eqn:Ec.
          * destruct (search_call veq b 0 ds) as [[j r0]|] eqn:Es.
            -- apply search_call_spec in Es as (k & b' & -> & Hk & Hv).
               exists false, (Some (fn, k)), (Some r0). split; [done|].
               intros ? [= <-] f Hf. right. by exists k, ds, b', r0.
            -- exists true, None, None. split; done.
          * exists true, None, None. split; done.
        + exists true, None, None. split; done. }
    unfold bind at 1. rewrite Hfc. unfold bind at 1.
    pose proof (grows_check_call_files e cid srcs c) as H2.
    pose proof (keeps_check_call_files veq md5 e cid srcs c) as [_ _ Hx _].
    apply (grows_mono _ _ P) in H2; [|intros ? ?; by left].
    destruct (check_call_files md5 core0 e cid srcs c) as [[x|files] c2]; [done|].
    destruct cid as [cid|]; [|exact H2].
    unfold bind, check_external_files, bind. cbn. cbn in Hx. rewrite Hx.
    pose proof (grows_external_loop e cid (xfind (c_xsrcs c) cid) c2) as H3.
    apply (grows_mono _ _ P) in H3; [|by apply Hcid].
    destruct (check_external_loop md5 core0 e cid _ c2) as [[x|xf] c3]; by eapply grows_trans.
  Qed.

  Lemma grows_add_files e fs (c : cdb) : grows e (fun g => g ∈ fs) c (snd (c_add_files veq md5 e fs c)).
  Proof.
    revert c. induction fs as [|f fs IH]; intros c; simpl; [apply grows_refl|].
    pose proof (grows_add_file e f c) as H. unfold bind.
    apply (grows_mono _ _ (fun g => g ∈ f :: fs)) in H; [|intros ? ->; by left].
    destruct (add_file md5 core0 e f c) as [[x|[[b fid] d]] c1]; [done|].
    specialize (IH c1). apply (grows_mono _ _ (fun g => g ∈ f :: fs)) in IH; [|intros ? ?; by right].
    destruct (c_add_files veq md5 e fs c1) as [[x|ds] c2]; by eapply grows_trans.
  Qed.

  Lemma save_call_files_files cid ds (c : cdb) :
    c_files (snd (save_call_files core0 cid ds c)) = c_files c.
  Proof.
    revert c. induction ds as [|[[f ?] d] ds IH]; intros c; simpl; [done|].
    unfold bind. cbn. by rewrite IH.
  Qed.

  Lemma c_save_call_files_same cid i b r (c : cdb) res c' :
    c_save_call cid i b r c = (res, c') -> c_files c' = c_files c.
  Proof.
    unfold c_save_call. intros H.
    destruct (c_calls c !! i), cid as [[? ?]|]; try (injection H as <- <-; done).
    destruct (decide _); by injection H as <- <-.
  Qed.

  Lemma grows_save_external e cid xs xd (c : cdb) :
    grows e (fun g => g ∈ xs) c (snd (c_save_external veq md5 e cid xs xd c)).
  Proof.
    unfold c_save_external, bind. cbn.
    match goal with |- context [c_add_files _ _ _ _ ?c1] =>
      pose proof (grows_add_files e xs c1) as H;
      destruct (c_add_files veq md5 e xs c1) as [[x|l] c2] end; simpl in *; [exact H|].
    eapply grows_trans; [exact H|]. apply grows_same, save_call_files_files.
  Qed.

  Lemma grows_cache0 e fd fid fn dg deps cid b r files xs xd (c : cdb) :
    grows e (fun g => g ∈ xs) c (snd (cache0 (R:=R) veq md5 e fd fid fn dg deps cid b r files xs xd c)).
  Proof.
    unfold cache0. unfold bind at 1.
    match goal with |- context [match ?m c with _ => _ end] => set (stage1 := m) end.
    assert (exists c1, stage1 c = (inr (if fd then Some fn else fid), c1) /\ c_files c1 = c_files c) as (c1 & Hs & Hf).
    { unfold stage1, bind. destruct fd; [|by exists c].
      destruct fid as [x|]; cbn; eexists; (split; [reflexivity|]); done. }
    rewrite Hs. clear stage1 Hs.
    destruct (if fd then Some fn else fid) as [i|]; [|by apply grows_same].
    unfold bind. cbn [save_call cache_core0]. destruct (c_save_call cid i b r c1) as [[x|cid'] c2] eqn:E; simpl.
    { apply c_save_call_files_same in E. apply grows_same. congruence. }
    apply c_save_call_files_same in E.
    pose proof (save_call_files_files cid' files c2) as H2.
    destruct (save_call_files _ cid' files c2) as [[x|[]] c3]; simpl in *.
    - apply grows_same. congruence.
    - eapply grows_trans; [|apply grows_save_external]. apply grows_same. congruence.
  Qed.

  (** The files an operation has a look at. *)
  Definition looks (s : sys) (o : op) (f : name) : Prop :=
    match o with
    | OBegin _ rq => f ∈ rq_srcs rq \/ recorded_ext (mem s) (rq_fun rq) (rq_bound rq) f
    | OEnd t _ => exists fr frs, thread s t = fr :: frs /\ f ∈ fr_xsrcs fr
    | _ => False
    end.

  Lemma step_files (s : sys) (o : op) f m d :
    c_files (mem (fst (step s o))) !! f = Some (m, d) ->
    c_files (mem s) !! f = Some (m, d) \/ c_files (disk s) !! f = Some (m, d) \/
    (looks s o f /\ exists ct, e_fs (s_env s) !! f = Some (m, ct) /\ d = md5 ct).
  Proof.
    destruct o as [t rq|t xs xd g|t r|t|g ct m0|g|dt| |funs|g|g]; simpl; try tauto.
    - unfold begin_call. destruct (e_fun (s_env s) !! rq_fun rq) as [dg|] eqn:Ed; [|tauto].
      simpl. rewrite (lifts_prepare veq md5 _ _ _ _ (s_db s)). unfold on_mem.
      pose proof (grows_prepare (s_env s) (rq_fun rq) (rq_bound rq) (rq_srcs rq) (mem s)) as Hg.
      destruct (prepare md5 core0 _ _ _ _ (mem s)) as [res c]. simpl in Hg.
      intros H. cut (c_files c !! f = Some (m, d)).
      { intros Hc. destruct (Hg _ _ _ Hc) as [?|?]; tauto. }
      destruct res as [x|p]; [exact H|].
      destruct (pr_fun_dirty p), (pr_call_dirty p), (pr_files p), (pr_xfiles p), (pr_old_result p); try exact H.
      destruct (forallb _ _); exact H.
    - unfold end_call. destruct (thread s t) as [|fr frs] eqn:Et; [tauto|].
      destruct (s_callstack s) as [|deps cs]; [tauto|].
      rewrite (lifts_cache veq md5 _ _ _ _ _ _ _ _ _ _ _ _ (s_db s)). unfold on_mem.
      match goal with |- context [cache0 _ _ ?e ?fd ?fid ?fn ?dg ?dd ?cid ?b ?r ?fi ?xs ?xd (mem s)] =>
        pose proof (grows_cache0 e fd fid fn dg dd cid b r fi xs xd (mem s)) as Hg;
        destruct (cache0 veq md5 e fd fid fn dg dd cid b r fi xs xd (mem s)) as [res c'] end.
      intros H. assert (c_files c' !! f = Some (m, d)) as Hc by (destruct res; exact H).
      destruct (Hg _ _ _ Hc) as [?|[? ?]]; [tauto|]. right; right. split; [|done]. by exists fr, frs.
    - unfold raise_call. destruct (thread s t); tauto.
    - intros H. apply lookup_delete_Some in H as [_ H]. tauto.
  Qed.

  (** File systems on which a modification time determines the content. *)
  Definition true_to (F : name -> Z -> content) (c : cdb) : Prop :=
    forall f m d, c_files c !! f = Some (m, d) -> d = md5 (F f m).

  Lemma step_fs (s : sys) (o : op) :
    e_fs (s_env (fst (step s o))) =
    match o with
    | OWrite f c m => <[f := (m, c)]> (e_fs (s_env s))
    | ORemove f => delete f (e_fs (s_env s))
    | _ => e_fs (s_env s)
    end.
  Proof.
    destruct o as [t rq|t xs xd g|t r|t|f ct m|f|dt| |funs|f|f]; simpl; try done.
    - unfold begin_call. destruct (e_fun (s_env s) !! rq_fun rq) as [d|] eqn:Ed; [|done].
      destruct (prepare md5 _ _ _ _ _ _) as [res db] eqn:Ep.
      destruct res as [x|p]; [done|].
      destruct (pr_fun_dirty p), (pr_call_dirty p), (pr_files p), (pr_xfiles p), (pr_old_result p); try done.
      by destruct (forallb _ _).
    - unfold end_call. destruct (thread s t) as [|fr frs] eqn:Et; [done|].
      destruct (s_callstack s) as [|deps cs]; [done|].
      by destruct (cache _ _ _ _ _ _ _ _ _ _ _ _ _ (s_db s)) as [[x|u] c'].
    - unfold raise_call. by destruct (thread s t).
  Qed.

  Lemma step_now (s : sys) (o : op) :
    e_now (s_env (fst (step s o))) =
    match o with OTick dt => (e_now (s_env s) + dt)%Z | _ => e_now (s_env s) end.
  Proof.
    destruct o as [t rq|t xs xd g|t r|t|f ct m|f|dt| |funs|f|f]; simpl; try done.
    - unfold begin_call. destruct (e_fun (s_env s) !! rq_fun rq) as [d|] eqn:Ed; [|done].
      destruct (prepare md5 _ _ _ _ _ _) as [res db] eqn:Ep.
      destruct res as [x|p]; [done|].
      destruct (pr_fun_dirty p), (pr_call_dirty p), (pr_files p), (pr_xfiles p), (pr_old_result p); try done.
      by destruct (forallb _ _).
    - unfold end_call. destruct (thread s t) as [|fr frs] eqn:Et; [done|].
      destruct (s_callstack s) as [|deps cs]; [done|].
      by destruct (cache _ _ _ _ _ _ _ _ _ _ _ _ _ (s_db s)) as [[x|u] c'].
    - unfold raise_call. by destruct (thread s t).
  Qed.

  Lemma faithful_step F (s : sys) o :
    fs_faithful F (s_env s) -> op_faithful F o -> fs_faithful F (s_env (fst (step s o))).
  Proof.
    intros Hf Ho f m c. rewrite step_fs.
    destruct o as [t rq|t xs xd g|t r|t|f' ct m0|f'|dt| |funs|f'|f']; simpl in Ho; try by apply Hf.
    - destruct (decide (f' = f)) as [->|Hn].
      + rewrite lookup_insert. by intros [= <- <-].
      + rewrite lookup_insert_ne by done. by apply Hf.
    - intros H. apply lookup_delete_Some in H as [_ H]. by apply Hf.
  Qed.

  Lemma true_step F (s : sys) o :
    fs_faithful F (s_env s) -> true_to F (mem s) -> true_to F (disk s) ->
    true_to F (mem (fst (step s o))) /\ true_to F (disk (fst (step s o))).
  Proof.
    intros Hf Hm Hd. split.
    - intros f m d H. destruct (step_files _ _ _ _ _ H) as [?|[?|(_ & ct & He & ->)]]; auto.
      by rewrite (Hf _ _ _ He).
    - rewrite step_disk. by destruct o.
  Qed.

  Lemma history_trusted_gen F (s : sys) os :
    fs_faithful F (s_env s) -> true_to F (mem s) -> true_to F (disk s) ->
    history_ok md5 BK F s os -> trusted veq md5 s os.
  Proof.
    revert s. induction os as [|o os IH]; intros s Hf Hm Hd Hh.
    - intros f m d ct Hc He. by rewrite (Hm _ _ _ Hc), (Hf _ _ _ He).
    - destruct Hh as (H1 & H2 & H3). split_and!; [|done|].
      + intros f m d ct Hc He. by rewrite (Hm _ _ _ Hc), (Hf _ _ _ He).
      + destruct (true_step F s o) as [? ?]; try done. apply IH; try done. by apply faithful_step.
  Qed.

  Lemma history_trusted F (s : sys) os :
    fresh pdb_empty s -> fs_faithful F (s_env s) -> history_ok md5 BK F s os -> trusted veq md5 s os.
  Proof.
    intros (Hdb & _) Hf. apply history_trusted_gen; [done| |];
      rewrite Hdb; intros f m d; simpl; by rewrite lookup_empty.
  Qed.
End Trust.
