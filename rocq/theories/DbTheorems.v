(** The property theorems about cached calls with the in-memory/pickle
    backend, put together from the invariants. *)
From stdpp Require Import base list strings gmap.
From Coq Require Import ZArith Lia.
From Verif Require Import PyMonad DbModel DbSpec CacheBackend CacheLift CacheFacts CacheInv
  DbHistory CacheStep CacheProv CacheComplete CacheNoop CacheTrust.

Section Theorems.
  Context {V R : Type} (veq : V -> V -> bool) (md5 : content -> digest).
  Notation BK := (cache_backend (V := V) (R := R) veq md5).
  Notation sys := (sys V R (pdb V R) name (name * nat) name).
  Notation op := (op V R).
  Notation digest_at := (digest_at md5).
  Notation mem s := (p_mem (s_db s)).
  Notation step := (step md5 BK).
  Notation runs := (runs md5 BK).
  Notation ran := (ran md5 BK).

  Lemma hit_was_produced (s0 : sys) os t (rq : request V R) r srcs dsts :
    fresh pdb_empty s0 ->
    snd (step (runs s0 os) (OBegin t rq)) = RHit r srcs dsts ->
    exists ru, ran s0 os ru /\ rq_fun (ru_req ru) = rq_fun rq /\
      veq (rq_bound rq) (rq_bound (ru_req ru)) = true /\ ru_result ru = r.
  Proof.
    intros Hf Hhit.
    edestruct (hit_prov veq md5 (runs s0 os)) as (ru & Hru & ?); [|exact Hhit|].
    { by apply pinv_runs, pinv_fresh. }
    exists ru. split; [|done]. destruct Hf as (_ & _ & ? & ?). by apply log_ran.
  Qed.

  Lemma trusted_hit_facts (s0 : sys) os t (rq : request V R) r srcs dsts :
    fresh pdb_empty s0 -> trusted veq md5 s0 os ->
    let s := runs s0 os in
    snd (step s (OBegin t rq)) = RHit r srcs dsts ->
    exists ru, ran s0 os ru /\
      rq_fun (ru_req ru) = rq_fun rq /\
      veq (rq_bound rq) (rq_bound (ru_req ru)) = true /\
      ru_result ru = r /\
      e_fun (s_env s) !! rq_fun rq = Some (ru_digest ru) /\
      srcs = rq_srcs rq ++ ru_xsrcs ru /\
      dsts = rq_dsts rq ++ ru_xdsts ru ++ rq_ret rq r /\
      (forall f, f ∈ rq_srcs rq -> f ∈ rq_srcs (ru_req ru) ->
         is_Some (digest_at (s_env s) f) /\
         digest_at (s_env s) f = digest_at (ru_begin ru) f) /\
      (forall f, f ∈ ru_xsrcs ru -> ru_recorded ru = true -> is_Some (e_fs (s_env s) !! f) ->
         digest_at (s_env s) f = digest_at (ru_end ru) f) /\
      (forall f, f ∈ dsts -> is_Some (e_fs (s_env s) !! f)).
  Proof.
    intros Hf Htr s Hhit.
    edestruct (hit_sound veq md5 s) as (ru & Hru & ?); [| |exact Hhit|].
    { apply (inv_runs veq); [by apply inv_fresh|done]. }
    { by apply (trusted_end veq md5). }
    exists ru. split; [|done]. destruct Hf as (_ & _ & ? & ?). by apply log_ran.
  Qed.

  Lemma hit_facts F (s0 : sys) os t (rq : request V R) r srcs dsts :
    fresh pdb_empty s0 -> fs_faithful F (s_env s0) -> history_ok md5 BK F s0 os ->
    let s := runs s0 os in
    snd (step s (OBegin t rq)) = RHit r srcs dsts ->
    exists ru, ran s0 os ru /\
      rq_fun (ru_req ru) = rq_fun rq /\
      veq (rq_bound rq) (rq_bound (ru_req ru)) = true /\
      ru_result ru = r /\
      e_fun (s_env s) !! rq_fun rq = Some (ru_digest ru) /\
      srcs = rq_srcs rq ++ ru_xsrcs ru /\
      dsts = rq_dsts rq ++ ru_xdsts ru ++ rq_ret rq r /\
      (forall f, f ∈ rq_srcs rq -> f ∈ rq_srcs (ru_req ru) ->
         is_Some (digest_at (s_env s) f) /\
         digest_at (s_env s) f = digest_at (ru_begin ru) f) /\
      (forall f, f ∈ ru_xsrcs ru -> ru_recorded ru = true -> is_Some (e_fs (s_env s) !! f) ->
         digest_at (s_env s) f = digest_at (ru_end ru) f) /\
      (forall f, f ∈ dsts -> is_Some (e_fs (s_env s) !! f)).
  Proof. intros Hf Hfs Hh. apply trusted_hit_facts; [done|]. by eapply history_trusted. Qed.

  Lemma ran_begins (s0 : sys) os ru : ran s0 os ru -> exists t, OBegin t (ru_req ru) ∈ os.
  Proof.
    intros (t & a & b & c & -> & _). exists t. rewrite elem_of_app. right. by left.
  Qed.

  Lemma hit_sources F D (s0 : sys) os t (rq : request V R) r srcs dsts :
    fresh pdb_empty s0 -> fs_faithful F (s_env s0) -> history_ok md5 BK F s0 os ->
    declared_by veq D (os ++ [OBegin t rq]) ->
    let s := runs s0 os in
    snd (step s (OBegin t rq)) = RHit r srcs dsts ->
    exists ru, ran s0 os ru /\ rq_fun (ru_req ru) = rq_fun rq /\
      veq (rq_bound rq) (rq_bound (ru_req ru)) = true /\ ru_result ru = r /\
      forall f, f ∈ rq_srcs rq ->
        is_Some (digest_at (s_env s) f) /\
        digest_at (s_env s) f = digest_at (ru_begin ru) f.
  Proof.
    intros Hf Hfs Hh [Hd1 Hd2] s Hhit.
    destruct (hit_facts F s0 os t rq r srcs dsts Hf Hfs Hh Hhit)
      as (ru & Hran & Hfn & Hv & Hr & _ & _ & _ & Hs & _).
    exists ru. split_and!; try done. intros f Hin. apply Hs; [done|].
    destruct (ran_begins _ _ _ Hran) as [t' Hb].
    rewrite (Hd1 t' (ru_req ru)) by (rewrite elem_of_app; by left).
    rewrite Hfn, <- (Hd2 _ (rq_bound rq)) by done.
    rewrite <- (Hd1 t rq); [done|]. rewrite elem_of_app. right. by left.
  Qed.

  Lemma hit_function F (s0 : sys) os t (rq : request V R) r srcs dsts :
    fresh pdb_empty s0 -> fs_faithful F (s_env s0) -> history_ok md5 BK F s0 os ->
    let s := runs s0 os in
    snd (step s (OBegin t rq)) = RHit r srcs dsts ->
    exists ru, ran s0 os ru /\ rq_fun (ru_req ru) = rq_fun rq /\
      veq (rq_bound rq) (rq_bound (ru_req ru)) = true /\ ru_result ru = r /\
      e_fun (s_env s) !! rq_fun rq = e_fun (ru_begin ru) !! rq_fun rq.
  Proof.
    intros Hf Hfs Hh s Hhit.
    destruct (hit_facts F s0 os t rq r srcs dsts Hf Hfs Hh Hhit)
      as (ru & Hran & Hfn & Hv & Hr & Hd & _).
    exists ru. split_and!; try done. etrans; [exact Hd|].
    destruct Hran as (t' & a & b & c & _ & _ & _ & _ & _ & He & _). by rewrite <- He, Hfn.
  Qed.

  Lemma hit_externals F (s0 : sys) os t (rq : request V R) r srcs dsts :
    fresh pdb_empty s0 -> fs_faithful F (s_env s0) -> history_ok md5 BK F s0 os ->
    let s := runs s0 os in
    snd (step s (OBegin t rq)) = RHit r srcs dsts ->
    exists ru, ran s0 os ru /\ rq_fun (ru_req ru) = rq_fun rq /\
      veq (rq_bound rq) (rq_bound (ru_req ru)) = true /\ ru_result ru = r /\
      (forall f, f ∈ ru_xsrcs ru -> f ∈ srcs) /\
      (ru_recorded ru = true ->
       forall f, f ∈ ru_xsrcs ru -> is_Some (e_fs (s_env s) !! f) ->
         digest_at (s_env s) f = digest_at (ru_end ru) f).
  Proof.
    intros Hf Hfs Hh s Hhit.
    destruct (hit_facts F s0 os t rq r srcs dsts Hf Hfs Hh Hhit)
      as (ru & Hran & Hfn & Hv & Hr & Hd & -> & -> & _ & Hx & _).
    exists ru. split_and!; try done.
    - intros f ?. rewrite elem_of_app. by right.
    - intros ? f ? ?. by apply Hx.
  Qed.

  (** No assumption on the history is needed for outputs. *)
  Lemma hit_outputs (s : sys) t (rq : request V R) r srcs dsts :
    snd (step s (OBegin t rq)) = RHit r srcs dsts ->
    (forall f, f ∈ rq_dsts rq -> f ∈ dsts) /\ (forall f, f ∈ rq_ret rq r -> f ∈ dsts) /\
    forall f, f ∈ dsts -> is_Some (e_fs (s_env s) !! f).
  Proof.
    simpl. unfold begin_call.
    destruct (e_fun (s_env s) !! rq_fun rq) as [d|] eqn:Ed; [|done].
    destruct (prepare md5 _ _ _ _ _ _) as [[x|p] db] eqn:Ep; [done|].
    destruct (pr_fun_dirty p) eqn:E1; [done|].
    destruct (pr_call_dirty p) eqn:E2; [done|].
    destruct (pr_files p) as [|] eqn:E3; [|done].
    destruct (pr_xfiles p) as [|] eqn:E4; [|done].
    destruct (pr_old_result p) as [r0|] eqn:E5; [|done].
    destruct (forallb _ _) eqn:E6; [|done]. simpl. intros [= <- <- <-].
    split_and!; intros f; rewrite !elem_of_app; try tauto. intros Hf.
    rewrite forallb_forall in E6. specialize (E6 f).
    unfold exists_file in E6. destruct (e_fs (s_env s) !! f); [done|].
    discriminate E6. rewrite <- elem_of_list_In, !elem_of_app. tauto.
  Qed.

  Lemma hit_xdsts F (s0 : sys) os t (rq : request V R) r srcs dsts :
    fresh pdb_empty s0 -> fs_faithful F (s_env s0) -> history_ok md5 BK F s0 os ->
    let s := runs s0 os in
    snd (step s (OBegin t rq)) = RHit r srcs dsts ->
    exists ru, ran s0 os ru /\ rq_fun (ru_req ru) = rq_fun rq /\
      veq (rq_bound rq) (rq_bound (ru_req ru)) = true /\ ru_result ru = r /\
      forall f, f ∈ rq_dsts rq \/ f ∈ rq_ret rq r \/ f ∈ ru_xdsts ru ->
        f ∈ dsts /\ is_Some (e_fs (s_env s) !! f).
  Proof.
    intros Hf Hfs Hh s Hhit.
    destruct (hit_facts F s0 os t rq r srcs dsts Hf Hfs Hh Hhit)
      as (ru & Hran & Hfn & Hv & Hr & Hd & -> & -> & _ & _ & Hx).
    exists ru. split_and!; try done. intros f Hin.
    assert (f ∈ rq_dsts rq ++ ru_xdsts ru ++ rq_ret rq r) as Hm by (rewrite !elem_of_app; tauto).
    split; [done|]. by apply Hx.
  Qed.

  Lemma never_completed (s0 : sys) os t (rq : request V R) r srcs dsts :
    fresh pdb_empty s0 ->
    (forall ru, ran s0 os ru -> rq_fun (ru_req ru) = rq_fun rq ->
       veq (rq_bound rq) (rq_bound (ru_req ru)) = true -> ru_result ru <> r) ->
    snd (step (runs s0 os) (OBegin t rq)) <> RHit r srcs dsts.
  Proof.
    intros Hf Hno Hhit.
    destruct (hit_was_produced s0 os t rq r srcs dsts Hf Hhit) as (ru & H1 & H2 & H3 & H4).
    by apply (Hno ru).
  Qed.
End Theorems.
