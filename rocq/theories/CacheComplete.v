(** An unchanged call is answered from the cache. *)
From stdpp Require Import base list strings gmap.
From Coq Require Import ZArith Lia.
From Verif Require Import PyMonad DbModel DbSpec CacheBackend CacheLift CacheFacts CacheInv DbHistory CacheStep CacheProv.

Section Complete.
  Context {V R : Type} (veq : V -> V -> bool) (md5 : content -> digest).
  Notation BK := (cache_backend (V := V) (R := R) veq md5).
  Notation core0 := (cache_core0 (R := R) veq).
  Notation cdb := (cdb V R).
  Notation frame := (frame V R name (name * nat) name).
  Notation sys := (sys V R (pdb V R) name (name * nat) name).
  Notation op := (op V R).
  Notation cf c := (callfile (c_callfiles c)).
  Notation digest_at := (digest_at md5).
  Notation files_ok := (files_ok (V := V) (R := R) md5).
  Notation mem s := (p_mem (s_db s)).

  (** The files table holds the current digest of [f]. *)
  Definition known (e : env) (c : cdb) (f : name) : Prop :=
    exists m d, c_files c !! f = Some (m, d) /\ digest_at e f = Some d.

  (** [c'] is [c] after looking at files: what was known stays recorded. *)
  Definition looks (e : env) (c c' : cdb) : Prop :=
    shrink md5 e c c' /\
    forall f, known e c f -> known e c' f /\ forall fn i, cf c' f fn i = cf c f fn i.

  Lemma looks_refl e c : looks e c c.
  Proof. split; [apply shrink_refl|done]. Qed.
  Lemma looks_trans e a b c : looks e a b -> looks e b c -> looks e a c.
  Proof.
    intros [S1 H1] [S2 H2]. split; [by eapply shrink_trans|].
    intros f Hf. destruct (H1 f Hf) as [Hk E1]. destruct (H2 f Hk) as [Hk2 E2].
    split; [done|]. intros. by rewrite E2.
  Qed.

  Lemma add_file_looks e f c r c' :
    files_ok e c -> add_file md5 core0 e f c = (r, c') ->
    looks e c c' /\
    (forall x, r = inr x -> known e c' f) /\
    (known e c f -> exists d, r = inr (false, f, d) /\ digest_at e f = Some d).
  Proof.
    intros Hok H. pose proof (add_file_shrink _ _ _ _ _ _ _ Hok H) as Hsh.
    pose proof (add_file_spec veq md5 e f c Hok) as Hs.
    destruct (e_fs e !! f) as [[m ct]|] eqn:Ef.
    - destruct Hs as (b & Hs & Hb). rewrite Hs in H. injection H as <- <-.
      assert (known e c f -> b = false) as Hkb.
      { intros (m0 & d0 & H1 & H2). destruct b; [|done]. exfalso.
        unfold DbSpec.digest_at in H2. rewrite Ef in H2. injection H2 as <-.
        unfold add_file, bind, ret, raise in Hs. cbn in Hs. rewrite Ef, H1 in Hs. cbn in Hs.
        destruct (Z.eqb m m0 && _)%bool; cbn in Hs; [done|]. by rewrite String.eqb_refl in Hs. }
      split_and!; [split; [done|]| |].
      + intros g (m0 & d0 & H1 & H2). destruct (decide (f = g)) as [<-|Hn].
        * assert (b = false) as -> by (apply Hkb; by exists m0, d0).
          split; [|done]. exists m, (md5 ct). simpl. rewrite lookup_insert.
          unfold DbSpec.digest_at. by rewrite Ef.
        * split.
          -- exists m0, d0. simpl. by rewrite lookup_insert_ne.
          -- intros fn i. simpl. destruct b; [|done].
             rewrite callfile_delete. by destruct (decide (f = g)).
      + intros x _. exists m, (md5 ct). simpl. rewrite lookup_insert.
        unfold DbSpec.digest_at. by rewrite Ef.
      + intros Hk. rewrite (Hkb Hk). exists (md5 ct). unfold DbSpec.digest_at. by rewrite Ef.
    - rewrite Hs in H. injection H as <- <-. split_and!; [apply looks_refl|done|].
      intros (m0 & d0 & H1 & H2). unfold DbSpec.digest_at in H2. by rewrite Ef in H2.
  Qed.

  Lemma check_call_file_looks e cid f c r c' :
    files_ok e c -> check_call_file md5 core0 e cid f c = (r, c') ->
    looks e c c' /\ (forall x, r = inr x -> known e c' f) /\
    (forall gn i, cid = Some (gn, i) -> known e c f -> cf c f gn i = digest_at e f ->
       exists d, r = inr (false, f, d)).
  Proof.
    intros Hok H. unfold check_call_file, bind in H.
    destruct (add_file md5 core0 e f c) as [ra ca] eqn:Ea.
    pose proof (add_file_looks _ _ _ _ _ Hok Ea) as (Hl & Hk & Hc).
    destruct ra as [x|[[b fid] d]].
    { injection H as <- <-. split_and!; [done|done|].
      intros gn i _ Hkn _. destruct (Hc Hkn) as (d & ? & _). done. }
    assert (c' = ca) as ->.
    { destruct cid as [[gn i]|]; cbn in H; [|by injection H].
      destruct (callfile _ _ _ _); [destruct (String.eqb _ _)|]; by injection H. }
    split_and!; [done|intros; by eapply Hk|].
    intros gn i -> Hkn Hcf. destruct (Hc Hkn) as (d' & [= -> -> ->] & Hd).
    cbn in H. destruct (proj2 Hl f Hkn) as [_ Heq]. rewrite Heq, Hcf, Hd in H.
    rewrite String.eqb_refl in H. injection H as <-. eauto.
  Qed.

  Lemma check_call_files_looks e cid fs c r c' :
    files_ok e c -> check_call_files md5 core0 e cid fs c = (r, c') ->
    looks e c c' /\ (forall x, r = inr x -> forall f, f ∈ fs -> known e c' f) /\
    (forall gn i, cid = Some (gn, i) ->
       (forall f, f ∈ fs -> known e c f /\ cf c f gn i = digest_at e f) -> r = inr []).
  Proof.
    revert c r c'. induction fs as [|f fs IH]; intros c r c' Hok H; simpl in H.
    - injection H as <- <-. split_and!; [apply looks_refl| |done]. by intros ? _ ? ?%elem_of_nil.
    - unfold bind in H.
      destruct (check_call_file md5 core0 e cid f c) as [r1 c1] eqn:E1.
      pose proof (check_call_file_looks _ _ _ _ _ _ Hok E1) as (Hl1 & Hk1 & Hc1).
      destruct r1 as [x|[[b fid] d]].
      { injection H as <- <-. split_and!; [done|done|]. intros gn i -> Hall.
        destruct (Hall f) as [Hkf Hcf]; [by left|].
        by destruct (Hc1 _ _ eq_refl Hkf Hcf) as (d & ?). }
      destruct (check_call_files md5 core0 e cid fs c1) as [r2 c2] eqn:E2.
      apply IH in E2 as (Hl2 & Hk2 & Hc2); [|by apply Hl1].
      destruct r2 as [x|ds].
      { injection H as <- <-. split_and!; [by eapply looks_trans|done|]. intros gn i -> Hall.
        apply (Hc2 _ _ eq_refl). intros g Hg. destruct (Hall g) as [Hkg Hcg]; [by right|].
        destruct (proj2 Hl1 g Hkg) as [? Heq]. by rewrite Heq. }
      injection H as <- <-. split_and!; [by eapply looks_trans| |].
      + intros x _ g [->|Hg]%elem_of_cons.
        * apply Hl2. by eapply Hk1.
        * by eapply Hk2.
      + intros gn i -> Hall. destruct (Hall f) as [Hkf Hcf]; [by left|].
        destruct (Hc1 _ _ eq_refl Hkf Hcf) as (d' & [= -> -> ->]).
        f_equal. cut (inr (A:=exn) ds = inr []); [congruence|].
        apply (Hc2 _ _ eq_refl). intros g Hg. destruct (Hall g) as [Hkg Hcg]; [by right|].
        destruct (proj2 Hl1 g Hkg) as [? Heq]. by rewrite Heq.
  Qed.

  Lemma check_external_loop_looks e gn i fs c r c' :
    files_ok e c -> check_external_loop md5 core0 e (gn, i) fs c = (r, c') ->
    looks e c c' /\
    ((forall f, f ∈ fs -> known e c f /\ cf c f gn i = digest_at e f) -> r = inr []).
  Proof.
    revert c r c'. induction fs as [|f fs IH]; intros c r c' Hok H; simpl in H.
    - injection H as <- <-. split; [apply looks_refl|done].
    - unfold bind, try_os in H.
      destruct (check_call_file md5 core0 e (Some (gn, i)) f c) as [r1 c1] eqn:E1.
      pose proof (check_call_file_spec veq md5 _ _ _ _ _ _ Hok E1) as [_ Hx].
      pose proof (check_call_file_looks _ _ _ _ _ _ Hok E1) as (Hl1 & Hk1 & Hc1).
      assert (exists o, (match r1 with inl OSErr => (inr None, c1) | inl ((KeyErr|IndexErr|IntegrityErr|RecursionErr) as e0) => (inl e0, c1) | inr a => (inr (Some a), c1) end) = (inr (A:=exn) o, c1) /\
         (forall b fid d, r1 = inr (b, fid, d) -> o = Some (b, fid, d))) as (o & Ho & Hor).
      { destruct r1 as [x|a]; [destruct Hx as [-> _]|]; eexists; (split; [done|]); congruence. }
      rewrite Ho in H.
      destruct (check_external_loop md5 core0 e (gn, i) fs c1) as [r2 c2] eqn:E2.
      apply IH in E2 as (Hl2 & Hc2); [|by apply Hl1].
      assert ((forall f0, f0 ∈ f :: fs -> known e c f0 /\ cf c f0 gn i = digest_at e f0) ->
              r2 = inr [] /\ exists d, o = Some (false, f, d)) as Hall.
      { intros Hall. split.
        - apply Hc2. intros g Hg. destruct (Hall g) as [Hkg Hcg]; [by right|].
          destruct (proj2 Hl1 g Hkg) as [? Heq]. by rewrite Heq.
        - destruct (Hall f) as [Hkf Hcf]; [by left|].
          destruct (Hc1 _ _ eq_refl Hkf Hcf) as (d & ->). exists d. by apply Hor. }
      destruct r2 as [x|ds]; injection H as <- <-; (split; [by eapply looks_trans|]).
      + intros H. by destruct (Hall H).
      + intros H. destruct (Hall H) as [[= ->] (d & ->)]. done.
  Qed.

  (** Looking at the sources of a call. *)
  Lemma prepare_looks e fn b srcs c p c' :
    files_ok e c -> prepare md5 core0 e fn b srcs c = (inr p, c') ->
    shrink md5 e c c' /\
    (forall f, f ∈ srcs -> known e c' f) /\
    (forall gn i, pr_call_id p = Some (gn, i) -> forall f, f ∈ srcs ->
       (exists d, (f, f, d) ∈ pr_files p) \/ cf c' f gn i = digest_at e f).
  Proof.
    intros Hok. unfold prepare, bind.
    destruct (check_function core0 (e_limit e) e fn c) as [r1 c1] eqn:E1.
    pose proof (check_function_pure _ _ _ _ _ _ _ E1) as ->.
    destruct r1 as [x|[fd fid]]; [done|].
    assert (forall r2 c2, (if fd then ret (true, None, None) else
         match fid with
         | Some fid0 => find_call core0 fid0 b
         | None => ret (true, None, None)
         end) c = (r2, c2) -> c2 = c) as Hfc.
    { intros r2 c2. destruct fd; [by intros [= <- <-]|].
      destruct fid; cbn; [unfold c_find_call|]; by intros [= <- <-]. }
    revert Hfc. generalize (if fd then ret (true, None, None) else
         match fid with
         | Some fid0 => find_call core0 fid0 b
         | None => ret (true, None, None)
         end). intros fc Hfc.
    destruct (fc c) as [r2 c2] eqn:E2. rewrite (Hfc _ _ eq_refl) in *. clear Hfc.
    destruct r2 as [x|[[cd cid] old]]; [done|].
    destruct (check_call_files md5 core0 e cid srcs c) as [[x|files] c3] eqn:E3; [done|].
    pose proof (check_call_files_looks _ _ _ _ _ _ Hok E3) as (Hl3 & Hk3 & _).
    (* non-dirty files: the recorded digest is the current one *)
    assert (forall fs c r c', files_ok e c -> check_call_files md5 core0 e cid fs c = (inr r, c') ->
        forall gn i, cid = Some (gn, i) -> forall f, f ∈ fs ->
       (exists d, (f, f, d) ∈ r) \/ cf c' f gn i = digest_at e f) as Hnd.
    { clear. induction fs as [|f fs IH]; intros c r c' Hok H gn i Hcid g Hg.
      - by apply elem_of_nil in Hg.
      - simpl in H. unfold bind in H.
        destruct (check_call_file md5 core0 e cid f c) as [r1 c1] eqn:E1.
        pose proof (check_call_file_looks _ _ _ _ _ _ Hok E1) as (Hl1 & Hk1 & _).
        pose proof (check_call_file_spec veq md5 _ _ _ _ _ _ Hok E1) as [_ H1].
        destruct r1 as [x|[[bb fid] d]]; [done|]. destruct H1 as (-> & Hd & _ & Hc).
        destruct (check_call_files md5 core0 e cid fs c1) as [r2 c2] eqn:E2.
        destruct r2 as [x|ds]; [done|]. injection H as <- <-.
        pose proof (check_call_files_looks _ _ _ _ _ _ (sh_files _ _ _ _ (proj1 Hl1) Hok) E2) as (Hl2 & _ & _).
        apply elem_of_cons in Hg as [->|Hg].
        + destruct bb; [left; exists d; by left|right].
          destruct (proj2 Hl2 f (Hk1 _ eq_refl)) as [_ ->].
          rewrite Hd. by apply Hc.
        + destruct (IH _ _ _ (sh_files _ _ _ _ (proj1 Hl1) Hok) E2 _ _ Hcid g Hg) as [[d' Hd']|?]; [left|by right].
          exists d'. destruct bb; [by right|done]. }
    specialize (Hnd _ _ _ _ Hok E3).
    destruct cid as [[gn i]|].
    - unfold check_external_files, bind. cbn.
      destruct (check_external_loop md5 core0 e (gn, i) _ c3) as [r4 c4] eqn:E4.
      apply check_external_loop_looks in E4 as [Hl4 _]; [|by apply Hl3].
      destruct r4; [done|]. intros [= <- <-]. simpl.
      split_and!.
      + eapply shrink_trans; [apply Hl3|apply Hl4].
      + intros f Hf. apply Hl4. by eapply Hk3.
      + intros ? ? [= <- <-] f Hf. destruct (Hnd _ _ eq_refl f Hf) as [?|Heq]; [by left|right].
        rewrite <- Heq. apply Hl4. by eapply Hk3.
    - cbn. intros [= <- <-]. simpl. split_and!; [apply Hl3| |done].
      intros f Hf. by eapply Hk3.
  Qed.

  Lemma prepare_looks_all e fn b srcs c r c' :
    files_ok e c -> prepare md5 core0 e fn b srcs c = (r, c') -> looks e c c'.
  Proof.
    intros Hok. unfold prepare, bind.
    destruct (check_function core0 (e_limit e) e fn c) as [r1 c1] eqn:E1.
    pose proof (check_function_pure _ _ _ _ _ _ _ E1) as ->.
    destruct r1 as [x|[fd fid]]; [intros [= <- <-]; apply looks_refl|].
    assert (forall r2 c2, (if fd then ret (true, None, None) else
         match fid with
         | Some fid0 => find_call core0 fid0 b
         | None => ret (true, None, None)
         end) c = (r2, c2) -> c2 = c) as Hfc.
    { intros r2 c2. destruct fd; [by intros [= <- <-]|].
      destruct fid; cbn; [unfold c_find_call|]; by intros [= <- <-]. }
    revert Hfc. generalize (if fd then ret (true, None, None) else
         match fid with
         | Some fid0 => find_call core0 fid0 b
         | None => ret (true, None, None)
         end). intros fc Hfc.
    destruct (fc c) as [r2 c2] eqn:E2. rewrite (Hfc _ _ eq_refl) in *. clear Hfc.
    destruct r2 as [x|[[cd cid] old]]; [intros [= <- <-]; apply looks_refl|].
    destruct (check_call_files md5 core0 e cid srcs c) as [r3 c3] eqn:E3.
    pose proof (check_call_files_looks _ _ _ _ _ _ Hok E3) as (Hl3 & _ & _).
    destruct r3 as [x|files]; [by intros [= <- <-]|].
    destruct cid as [[gn i]|]; [|by intros [= <- <-]].
    unfold check_external_files, bind. cbn.
    destruct (check_external_loop md5 core0 e (gn, i) _ c3) as [r4 c4] eqn:E4.
    apply check_external_loop_looks in E4 as [Hl4 _]; [|by apply Hl3].
    destruct r4; intros [= <- <-]; by eapply looks_trans.
  Qed.

  (** A state in which the call [rq] is up to date. *)
  Record up_to_date (e : env) (c : cdb) (fn : name) (b : V) (srcs xs xd : list name) (i : nat) (r : R)
    : Prop := UpToDate {
    ud_fun : check_function core0 (e_limit e) e fn c = (inr (false, Some fn), c);
    ud_call : exists ds, c_calls c !! fn = Some ds /\ search_call veq b 0 ds = Some (i, r);
    ud_xsrcs : xfind (c_xsrcs c) (fn, i) = xs;
    ud_xdsts : xfind (c_xdsts c) (fn, i) = xd;
    ud_files : forall f, f ∈ srcs \/ f ∈ xs -> known e c f /\ cf c f fn i = digest_at e f
  }.

  Lemma up_to_date_prepare e c fn b srcs xs xd i r :
    files_ok e c -> up_to_date e c fn b srcs xs xd i r ->
    exists c', prepare md5 core0 e fn b srcs c =
      (inr (Prepared false (Some fn) false (Some (fn, i)) (Some r) [] xs xd []), c') /\
      same c c'.
  Proof.
    intros Hok [Hf (ds & Hds & Hsr) Hxs Hxd Hfiles].
    pose proof (keeps_prepare veq md5 e fn b srcs c) as Hk. revert Hk.
    unfold prepare, bind. rewrite Hf. cbn. unfold c_find_call. rewrite Hds, Hsr.
    destruct (check_call_files md5 core0 e (Some (fn, i)) srcs c) as [r3 c3] eqn:E3.
    pose proof (check_call_files_looks _ _ _ _ _ _ Hok E3) as (Hl3 & _ & Hc3).
    rewrite (Hc3 _ _ eq_refl) by auto.
    assert (xfind (c_xsrcs c3) (fn, i) = xs) as Hxs3.
    { by rewrite (sh_xsrcs _ _ _ _ (proj1 Hl3)). }
    assert (xfind (c_xdsts c3) (fn, i) = xd) as Hxd3.
    { by rewrite (sh_xdsts _ _ _ _ (proj1 Hl3)). }
    unfold check_external_files, bind. cbn. rewrite Hxs3, Hxd3.
    destruct (check_external_loop md5 core0 e (fn, i) xs c3) as [r4 c4] eqn:E4.
    apply check_external_loop_looks in E4 as [Hl4 Hc4]; [|by apply Hl3].
    rewrite Hc4.
    - cbn. intros Hk. eauto.
    - intros f Hin. destruct (Hfiles f) as [Hkf Hcf]; [by right|].
      destruct (proj2 Hl3 f Hkf) as [? Heq]. by rewrite Heq.
  Qed.

  Lemma up_to_date_hit (s : sys) t (rq : request V R) xs xd i r :
    files_ok (s_env s) (mem s) ->
    up_to_date (s_env s) (mem s) (rq_fun rq) (rq_bound rq) (rq_srcs rq) xs xd i r ->
    (forall f, f ∈ rq_dsts rq ++ xd ++ rq_ret rq r -> is_Some (e_fs (s_env s) !! f)) ->
    snd (step md5 BK s (OBegin t rq)) = RHit r (rq_srcs rq ++ xs) (rq_dsts rq ++ xd ++ rq_ret rq r) /\
    c_calls (mem (fst (step md5 BK s (OBegin t rq)))) = c_calls (mem s).
  Proof.
    intros Hok Hud Hex. simpl. unfold begin_call.
    pose proof (ud_fun _ _ _ _ _ _ _ _ _ Hud) as Hcf.
    apply check_function_spec in Hcf as (d & -> & _).
    destruct (up_to_date_prepare _ _ _ _ _ _ _ _ _ Hok Hud) as (c' & Hp & Hsm).
    rewrite (lifts_prepare veq md5 _ _ _ _ (s_db s)). unfold on_mem. rewrite Hp. cbn.
    assert (forallb (exists_file (s_env s)) (rq_ret rq r ++ rq_dsts rq ++ xd) = true) as ->.
    { apply forallb_forall. intros f Hf%elem_of_list_In. unfold exists_file.
      destruct (Hex f) as [? ->]; [|done]. rewrite !elem_of_app in *. tauto. }
    simpl. split; [done|]. apply Hsm.
  Qed.

  (** check_function depends only on the function table and the function digests. *)
  Lemma check_function_ext n e e' c c' fn r :
    e_fun e' = e_fun e -> c_functions c' = c_functions c ->
    check_function core0 n e fn c = (r, c) -> check_function core0 n e' fn c' = (r, c').
  Proof.
    intros He Hc. revert fn r. induction n as [|n IH]; intros fn r H; simpl in *.
    - unfold raise in *. congruence.
    - rewrite He. destruct (e_fun e !! fn) as [d|]; [|unfold raise in *; congruence].
      unfold bind in *. cbn in *. rewrite Hc.
      destruct (c_functions c !! fn) as [[od deps]|]; cbn in *; [|unfold ret in *; congruence].
      destruct (String.eqb d od); cbn in *; [|unfold ret in *; congruence].
      revert H.
      set (chk := (fix check_deps (ds : list name) : M _ bool := _)).
      set (chk' := (fix check_deps (ds : list name) : M _ bool := _)).
      assert (forall ds, exists r, chk ds c = (r, c) /\ chk' ds c' = (r, c')) as Hl.
      { induction ds as [|dep ds IHd].
        - exists (inr false). done.
        - simpl. unfold bind. destruct (check_function core0 n e dep c) as [r1 c1] eqn:E1.
          pose proof (check_function_pure _ _ _ _ _ _ _ E1) as ->.
          rewrite (IH _ _ E1). destruct r1 as [x|[[] fid]]; simpl; eauto. }
      destruct (Hl (filter (λ x, x ≠ fn) deps)) as (r1 & -> & ->).
      destruct r1; unfold ret; congruence.
  Qed.
  Lemma search_insert b r (ds : list (V * R)) i r0 k :
    veq b b = true -> search_call veq b k ds = Some (i, r0) ->
    exists j, i = k + j /\ j < length ds /\ search_call veq b k (<[j := (b, r)]> ds) = Some (i, r).
  Proof.
    intros Hb. revert k. induction ds as [|[ob r1] ds IH]; intros k H; simpl in H; [done|].
    destruct (veq b ob) eqn:E.
    - injection H as <- <-. exists 0. simpl. rewrite Hb. split_and!; [lia|lia|done].
    - apply IH in H as (j & -> & Hj & Hs). exists (S j). simpl. rewrite E. split_and!; [lia|lia|done].
  Qed.

  Lemma search_app b r (ds : list (V * R)) k :
    veq b b = true -> search_call veq b k ds = None ->
    search_call veq b k (ds ++ [(b, r)]) = Some (k + length ds, r).
  Proof.
    intros Hb. revert k. induction ds as [|[ob r1] ds IH]; intros k H; simpl in *.
    - by rewrite Hb, Nat.add_0_r.
    - destruct (veq b ob); [done|]. rewrite IH by done. by rewrite Nat.add_succ_r.
  Qed.

  (** What prepare found in the call table. *)
  Lemma prepare_found e fn b srcs c p c' :
    prepare md5 core0 e fn b srcs c = (inr p, c') ->
    0 < e_limit e /\
    (pr_fun_dirty p = false ->
       check_function core0 (e_limit e) e fn c = (inr (false, Some fn), c) /\
       match pr_call_id p with
       | Some (gn, i) => gn = fn /\ exists ds r0, c_calls c !! fn = Some ds /\ search_call veq b 0 ds = Some (i, r0)
       | None => forall ds, c_calls c !! fn = Some ds -> search_call veq b 0 ds = None
       end).
  Proof.
    unfold prepare, bind.
    destruct (check_function core0 (e_limit e) e fn c) as [r1 c1] eqn:E1.
    pose proof (check_function_pure _ _ _ _ _ _ _ E1) as ->.
    destruct r1 as [x|[fd fid]]; [done|].
    pose proof (check_function_spec _ _ _ _ _ _ _ _ E1) as (d & Hd & Hnone & Hsome & Hclean).
    assert (0 < e_limit e) as Hlim.
    { destruct (e_limit e); [|lia]. simpl in E1. done. }
    assert (forall (cd : bool) (cid : option (name * nat)) (old : option R) c2,
      (if fd then ret (true, None, None) else
         match fid with
         | Some fid0 => find_call core0 fid0 b
         | None => ret (true, None, None)
         end) c = (inr (cd, cid, old), c2) ->
       fd = false -> fid = Some fn /\
       match cid with
       | Some (gn, i) => gn = fn /\ exists ds r0, c_calls c !! fn = Some ds /\ search_call veq b 0 ds = Some (i, r0)
       | None => forall ds, c_calls c !! fn = Some ds -> search_call veq b 0 ds = None
       end) as Hfc.
    { intros cd cid old c2 H ->.
      destruct fid as [fid0|]; [|by destruct Hnone].
      specialize (Hsome fid0 eq_refl) as ->. cbn in H. unfold c_find_call in H. split; [done|].
      destruct (c_calls c !! fn) as [ds|]; [|by injection H as <- <- <- <-].
      destruct (search_call veq b 0 ds) as [[i r]|] eqn:Es; injection H as <- <- <- <-.
      - split; [done|]. eauto.
      - congruence. }
    revert Hfc. generalize (if fd then ret (true, None, None) else
         match fid with
         | Some fid0 => find_call core0 fid0 b
         | None => ret (true, None, None)
         end). intros fc Hfc.
    destruct (fc c) as [r2 c2] eqn:E2.
    destruct r2 as [x|[[cd cid] old]]; [done|].
    specialize (Hfc _ _ _ _ eq_refl).
    destruct (check_call_files md5 core0 e cid srcs c2) as [[x|files] c3]; [done|].
    match goal with |- match ?m with _ => _ end = _ -> _ => destruct m as [[x|[[xs xd] xf]] c4] end; [done|].
    intros [= <- <-]. simpl. split; [done|]. intros ->. destruct (Hfc eq_refl) as [-> ?]. done.
  Qed.

  Lemma c_add_files_looks e fs c ds c' :
    files_ok e c -> c_add_files (R:=R) veq md5 e fs c = (ds, c') ->
    looks e c c' /\ (forall x, ds = inr x -> forall f, f ∈ fs -> known e c' f).
  Proof.
    revert c ds c'. induction fs as [|f fs IH]; intros c ds c' Hok H; simpl in H.
    - injection H as <- <-. split; [apply looks_refl|]. by intros ? _ ? ?%elem_of_nil.
    - unfold bind in H. destruct (add_file md5 core0 e f c) as [ra ca] eqn:Ea.
      pose proof (add_file_looks _ _ _ _ _ Hok Ea) as (Hl & Hk & _).
      destruct ra as [x|[[b fid] d]]; [by injection H as <- <-|].
      destruct (c_add_files veq md5 e fs ca) as [r2 c2] eqn:E2.
      apply IH in E2 as [Hl2 Hk2]; [|by apply Hl].
      destruct r2 as [x|ds2]; injection H as <- <-; (split; [by eapply looks_trans|]); [done|].
      intros ? _ g [->|Hg]%elem_of_cons; [|by eapply Hk2].
      apply Hl2. by eapply Hk.
  Qed.

  Lemma known_files e c c' f : c_files c' = c_files c -> known e c f -> known e c' f.
  Proof. intros H (m & d & ? & ?). exists m, d. by rewrite H. Qed.

  Lemma save_call_files_mono fn i (ds : list (name * name * digest)) (c c' : cdb) f u :
    save_call_files core0 (fn, i) ds c = (inr u, c') ->
    is_Some (cf c f fn i) -> is_Some (cf c' f fn i).
  Proof.
    revert c. induction ds as [|[[g x] d] ds IH]; intros c; simpl.
    - by intros [= <- <-].
    - unfold bind; cbn. intros H Hs. eapply IH; [exact H|]. simpl.
      rewrite callfile_put. destruct (decide _); eauto.
  Qed.

  Lemma cache0_complete lg e (fr : frame) deps r c c' :
    veq (rq_bound (fr_req fr)) (rq_bound (fr_req fr)) = true ->
    files_ok e c -> db_inv_ex md5 None lg c -> frame_inv md5 e c fr ->
    (forall f, f ∈ rq_srcs (fr_req fr) -> known e c f) ->
    (forall gn i, pr_call_id (fr_prep fr) = Some (gn, i) -> forall f, f ∈ rq_srcs (fr_req fr) ->
       (exists d, (f, f, d) ∈ pr_files (fr_prep fr)) \/ cf c f gn i = digest_at e f) ->
    (pr_fun_dirty (fr_prep fr) = true -> forall c1 : cdb,
       c_functions c1 = <[rq_fun (fr_req fr) := (fr_digest fr, deps)]> (c_functions c) ->
       check_function core0 (e_limit e) e (rq_fun (fr_req fr)) c1 = (inr (false, Some (rq_fun (fr_req fr))), c1)) ->
    (pr_fun_dirty (fr_prep fr) = false ->
       check_function core0 (e_limit e) e (rq_fun (fr_req fr)) c = (inr (false, Some (rq_fun (fr_req fr))), c) /\
       match pr_call_id (fr_prep fr) with
       | Some (gn, i) => gn = rq_fun (fr_req fr) /\ exists ds r0, c_calls c !! gn = Some ds /\
            search_call veq (rq_bound (fr_req fr)) 0 ds = Some (i, r0)
       | None => forall ds, c_calls c !! rq_fun (fr_req fr) = Some ds ->
            search_call veq (rq_bound (fr_req fr)) 0 ds = None
       end) ->
    (pr_fun_id (fr_prep fr) = None -> c_functions c !! rq_fun (fr_req fr) = None) ->
    cache0 veq md5 e (pr_fun_dirty (fr_prep fr)) (pr_fun_id (fr_prep fr)) (rq_fun (fr_req fr))
      (fr_digest fr) deps (pr_call_id (fr_prep fr)) (rq_bound (fr_req fr)) r
      (pr_files (fr_prep fr)) (fr_xsrcs fr) (fr_xdsts fr) c = (inr tt, c') ->
    exists i, up_to_date e c' (rq_fun (fr_req fr)) (rq_bound (fr_req fr)) (rq_srcs (fr_req fr))
                (fr_xsrcs fr) (fr_xdsts fr) i r.
  Proof.
    intros Hvb Hfs Hdb Hfr Hkn Hcfs Hdeps Hfound Hnofid. unfold cache0. unfold bind at 1.
    set (fn := rq_fun (fr_req fr)) in *. set (b := rq_bound (fr_req fr)) in *.
    match goal with |- match ?m c with _ => _ end = _ -> _ => set (stage1 := m) end.
    assert (exists c1, stage1 c = (inr (Some fn), c1) /\ files_ok e c1 /\ c_files c1 = c_files c /\
              check_function core0 (e_limit e) e fn c1 = (inr (false, Some fn), c1) /\
              match pr_call_id (fr_prep fr) with
              | Some (gn, i) => gn = fn /\ c_callfiles c1 = c_callfiles c /\ exists ds r0, c_calls c1 !! gn = Some ds /\
                  search_call veq b 0 ds = Some (i, r0)
              | None => forall ds, c_calls c1 !! fn = Some ds -> search_call veq b 0 ds = None
              end)
      as (c1 & Hs1 & Hok1 & Hfi1 & Hcl1 & Hca1).
    { unfold stage1. destruct (pr_fun_dirty (fr_prep fr)) eqn:Efd.
      - specialize (Hdeps eq_refl).
        assert (pr_call_id (fr_prep fr) = None) as ->.
        { destruct (pr_call_id (fr_prep fr)) as [[gn i]|] eqn:Ecid; [|done].
          destruct (fi_cid _ _ _ _ Hfr _ _ Ecid) as [_ ?]. congruence. }
        unfold bind. destruct (pr_fun_id (fr_prep fr)) as [x|] eqn:Eid; cbn;
          eexists; (split; [reflexivity|]); simpl; split_and!; try done.
        + apply Hdeps. simpl. apply insert_delete_insert.
        + intros ds. by rewrite lookup_delete.
        + by apply Hdeps.
        + intros ds Hds. destruct ds as [|[b' r'] ds]; [done|].
          destruct (di_entry _ _ _ _ Hdb _ _ 0 b' r' Hds) as (ru & _ & []); [done|done|].
          destruct en_digest as [dp Hdp]. rewrite Hnofid in Hdp by done. done.
      - destruct (Hfound eq_refl) as [Hc1 Hc2]. exists c.
        destruct (fi_clean _ _ _ _ Hfr Efd) as [-> _].
        split_and!; [done|done|done|done|].
        destruct (pr_call_id (fr_prep fr)) as [[gn i]|]; [|done].
        destruct Hc2 as [-> ?]. done. }
    rewrite Hs1. clear stage1 Hs1. unfold bind at 1.
    assert (exists i c2, save_call core0 (pr_call_id (fr_prep fr)) fn b r c1 = (inr (fn, i), c2) /\
              c_functions c2 = c_functions c1 /\ c_files c2 = c_files c1 /\
              c_callfiles c2 = c_callfiles c1 /\
              (forall gn j, pr_call_id (fr_prep fr) = Some (gn, j) -> gn = fn /\ j = i) /\
              exists ds, c_calls c2 !! fn = Some ds /\ search_call veq b 0 ds = Some (i, r))
      as (i & c2 & -> & Hfu2 & Hfi2 & Hcf2 & Hci & ds2 & Hds2 & Hse2).
    { cbn. unfold c_save_call. destruct (pr_call_id (fr_prep fr)) as [[gn i]|].
      - destruct Hca1 as (-> & _ & ds & r0 & Hds & Hse). rewrite Hds.
        destruct (search_insert b r ds i r0 0 Hvb Hse) as (j & -> & Hj & Hs'). simpl in Hs' |- *.
        rewrite decide_True by done. exists j. eexists. split; [reflexivity|].
        split_and!; try done.
        + by intros ? ? [= <- <-].
        + exists (<[j:=(b, r)]> ds). simpl. by rewrite lookup_insert.
      - destruct (c_calls c1 !! fn) as [ds|] eqn:Eds.
        + eexists _, _. split; [reflexivity|]. split_and!; try done.
          exists (ds ++ [(b, r)]). simpl. rewrite lookup_insert. split; [done|].
          by apply search_app, Hca1.
        + eexists _, _. split; [reflexivity|]. split_and!; try done.
          exists [(b, r)]. simpl. rewrite lookup_insert. split; [done|]. by rewrite Hvb. }
    unfold bind at 1.
    destruct (save_call_files_spec veq md5 fn i (pr_files (fr_prep fr)) c2)
      as (c3 & Hs3 & Hfu3 & Hca3 & Hfi3 & Hxs3 & Hxd3 & Hcf3 & Hcf3').
    rewrite Hs3.
    assert (forall f, f ∈ rq_srcs (fr_req fr) -> cf c3 f fn i = digest_at e f) as Hsrc3.
    { intros f Hf.
      assert (forall d, (f, f, d) ∈ pr_files (fr_prep fr) -> cf c3 f fn i = digest_at e f) as Hin.
      { intros d Hd. destruct (Hcf3' _ _ _ Hd) as [d' Hd']. rewrite Hd'.
        destruct (Hcf3 _ _ _ _ Hd') as [(_ & _ & x & Hx)|[_ Hno]].
        - destruct (fi_files _ _ _ _ Hfr _ _ _ Hx) as (-> & _ & Hdx).
          by rewrite <- (fi_stable _ _ _ _ Hfr).
        - by destruct (Hno (conj eq_refl eq_refl) f d). }
      destruct (pr_call_id (fr_prep fr)) as [[gn j]|] eqn:Ecid.
      - destruct (Hci _ _ eq_refl) as [-> ->]. destruct Hca1 as (_ & Hcf1 & _).
        destruct (Hcfs _ _ eq_refl f Hf) as [[d Hd]|Heq]; [by eapply Hin|].
        destruct (Hkn f Hf) as (m & dg & _ & Hdg).
        destruct (cf c3 f fn i) as [d'|] eqn:Ed'.
        + destruct (Hcf3 _ _ _ _ Ed') as [(_ & _ & x & Hx)|[H' _]].
          * destruct (fi_files _ _ _ _ Hfr _ _ _ Hx) as (-> & _ & Hdx).
            rewrite <- (fi_stable _ _ _ _ Hfr) by done. by rewrite Hdx.
          * rewrite <- Heq, <- H'. by rewrite Hcf2, Hcf1.
        + exfalso. eapply (save_call_files_mono _ _ _ _ _ f) in Hs3.
          * rewrite Ed' in Hs3. by destruct Hs3.
          * rewrite Hcf2, Hcf1, Heq, Hdg. eauto.
      - destruct (fi_all _ _ _ _ Hfr Ecid f Hf) as [d Hd]. by eapply Hin. }
    unfold c_save_external, modify. unfold bind at 1.
    set (c4 := Cdb _ _ _ _ _ _).
    assert (files_ok e c4) as Hok4.
    { intros f m d ct. unfold c4; simpl. rewrite Hfi3, Hfi2. apply Hok1. }
    unfold bind at 1.
    destruct (c_add_files veq md5 e (fr_xsrcs fr) c4) as [[x|xds] c5] eqn:E5; [done|].
    pose proof (c_add_files_spec veq md5 _ _ _ _ _ Hok4 E5) as [_ [Hxds Hxall]].
    apply c_add_files_looks in E5 as [Hl5 Hk5]; [|done].
    destruct (save_call_files_spec veq md5 fn i xds c5)
      as (c6 & Hs6 & Hfu6 & Hca6 & Hfi6 & Hxs6 & Hxd6 & Hcf6 & Hcf6').
    rewrite Hs6. intros [= <-]. exists i.
    pose proof (proj1 Hl5) as Hsh5.
    split.
    - eapply check_function_ext; [reflexivity| |exact Hcl1].
      rewrite Hfu6, (sh_functions _ _ _ _ Hsh5). unfold c4; simpl. congruence.
    - exists ds2. split; [|done]. rewrite Hca6, (sh_calls _ _ _ _ Hsh5). unfold c4; simpl. congruence.
    - rewrite Hxs6, (sh_xsrcs _ _ _ _ Hsh5). unfold c4; simpl. by rewrite xfind_xput, decide_True.
    - rewrite Hxd6, (sh_xdsts _ _ _ _ Hsh5). unfold c4; simpl. by rewrite xfind_xput, decide_True.
    - intros f Hf.
      assert (forall d, (f, f, d) ∈ xds -> cf c6 f fn i = digest_at e f) as Hin.
      { intros d Hd. destruct (Hcf6' _ _ _ Hd) as [d' Hd']. rewrite Hd'.
        destruct (Hcf6 _ _ _ _ Hd') as [(_ & _ & x & Hx)|[_ Hno]].
        - symmetry. by eapply Hxds.
        - by destruct (Hno (conj eq_refl eq_refl) f d). }
      split.
      + destruct Hf as [Hf|Hf].
        * eapply (known_files _ c5); [done|]. apply Hl5.
          eapply known_files; [|by apply Hkn]. unfold c4; simpl. congruence.
        * eapply (known_files _ c5); [done|]. by eapply Hk5.
      + destruct (decide (f ∈ fr_xsrcs fr)) as [Hx|Hnx].
        * destruct (Hxall f Hx) as [d Hd]. by eapply Hin.
        * destruct Hf as [Hf|Hf]; [|done].
          assert (cf c5 f fn i = digest_at e f) as H5.
          { assert (known e c4 f) as Hk4.
            { eapply known_files; [|by apply Hkn]. unfold c4; simpl. congruence. }
            destruct (proj2 Hl5 f Hk4) as [_ ->]. unfold c4; simpl. by apply Hsrc3. }
          destruct (cf c6 f fn i) as [d'|] eqn:Ed'.
          -- destruct (Hcf6 _ _ _ _ Ed') as [(_ & _ & x & Hx)|[H' _]].
             ++ symmetry. by eapply Hxds.
             ++ by rewrite <- H5.
          -- exfalso. destruct (Hkn f Hf) as (m & dg & _ & Hdg).
             eapply (save_call_files_mono _ _ _ _ _ f) in Hs6.
             ++ rewrite Ed' in Hs6. by destruct Hs6.
             ++ rewrite H5, Hdg. eauto.
  Qed.
End Complete.
