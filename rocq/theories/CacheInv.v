(** The invariant behind the soundness of cache hits (cache / pickle engine). *)
From stdpp Require Import base list strings gmap.
From Coq Require Import ZArith Lia.
From Verif Require Import PyMonad DbModel DbSpec CacheBackend CacheLift CacheFacts.

Section Inv.
  Context {V R : Type} (veq : V -> V -> bool) (md5 : content -> digest).
  Notation core0 := (cache_core0 (R := R) veq).
  Notation cdb := (cdb V R).
  Notation frame := (frame V R name (name * nat) name).
  Notation run := (run V R).
  Notation sys := (sys V R (pdb V R) name (name * nat) name).
  Notation cf c := (callfile (c_callfiles c)).
  Notation digest_at := (digest_at md5).
  Notation files_ok := (files_ok (V := V) (R := R) md5).
  Notation shrink := (shrink (V := V) (R := R) md5).

  Record entry_of (c : cdb) (fn : name) (i : nat) (b : V) (r : R) (ru : run) : Prop := EntryOf {
    en_fun : rq_fun (ru_req ru) = fn;
    en_bound : rq_bound (ru_req ru) = b;
    en_result : ru_result ru = r;
    en_digest : exists deps, c_functions c !! fn = Some (ru_digest ru, deps);
    en_xsrcs : xfind (c_xsrcs c) (fn, i) = ru_xsrcs ru;
    en_xdsts : xfind (c_xdsts c) (fn, i) = ru_xdsts ru;
    en_srcs : forall f d, cf c f fn i = Some d -> f ∈ rq_srcs (ru_req ru) ->
                digest_at (ru_begin ru) f = Some d;
    en_ext : forall f d, cf c f fn i = Some d -> f ∈ ru_xsrcs ru -> ru_recorded ru = true ->
                digest_at (ru_end ru) f = Some d
  }.

  (** All entries except possibly one are justified by runs in [lg]. *)
  Record db_inv_ex (ex : option (name * nat)) (lg : run -> Prop) (c : cdb) : Prop := DbInv {
    di_idx : forall f fn i d, cf c f fn i = Some d ->
               exists ds, c_calls c !! fn = Some ds /\ i < length ds;
    di_entry : forall fn ds i b r, c_calls c !! fn = Some ds -> ds !! i = Some (b, r) ->
               ex <> Some (fn, i) -> exists ru, lg ru /\ entry_of c fn i b r ru
  }.
  Notation db_inv := (db_inv_ex None).

  Record frame_inv (e : env) (c : cdb) (fr : frame) : Prop := FrameInv {
    fi_digest : e_fun e !! rq_fun (fr_req fr) = Some (fr_digest fr);
    fi_stable : forall f, f ∈ rq_srcs (fr_req fr) -> digest_at (fr_begin fr) f = digest_at e f;
    fi_files : forall fid f d, (fid, f, d) ∈ pr_files (fr_prep fr) ->
      fid = f /\ f ∈ rq_srcs (fr_req fr) /\ digest_at (fr_begin fr) f = Some d;
    fi_all : pr_call_id (fr_prep fr) = None ->
      forall f, f ∈ rq_srcs (fr_req fr) -> exists d, (f, f, d) ∈ pr_files (fr_prep fr);
    fi_fid : forall x, pr_fun_id (fr_prep fr) = Some x -> x = rq_fun (fr_req fr);
    fi_clean : pr_fun_dirty (fr_prep fr) = false ->
      pr_fun_id (fr_prep fr) = Some (rq_fun (fr_req fr)) /\
      exists deps, c_functions c !! rq_fun (fr_req fr) = Some (fr_digest fr, deps);
    fi_nofid : pr_fun_id (fr_prep fr) = None ->
      forall d deps, c_functions c !! rq_fun (fr_req fr) = Some (d, deps) -> d = fr_digest fr;
    fi_cid : forall gn i, pr_call_id (fr_prep fr) = Some (gn, i) ->
      gn = rq_fun (fr_req fr) /\ pr_fun_dirty (fr_prep fr) = false;
    fi_same : forall gn i, pr_call_id (fr_prep fr) = Some (gn, i) ->
      forall f, f ∈ rq_srcs (fr_req fr) ->
      (exists d, (f, f, d) ∈ pr_files (fr_prep fr)) \/
      (forall d, cf c f gn i = Some d -> digest_at e f = Some d)
  }.

  (** Changes of the dictionaries that are harmless for running calls. *)
  Definition agrees (e : env) (c c' : cdb) : Prop :=
    (forall fn, c_functions c' !! fn = c_functions c !! fn \/
       exists d deps, e_fun e !! fn = Some d /\ c_functions c' !! fn = Some (d, deps)) /\
    (forall f fn i d, cf c' f fn i = Some d -> cf c f fn i = Some d \/ digest_at e f = Some d).

  Lemma agrees_refl e c : agrees e c c.
  Proof. split; auto. Qed.

  Lemma agrees_trans e a b c : agrees e a b -> agrees e b c -> agrees e a c.
  Proof.
    intros [A1 A2] [B1 B2]. split.
    - intros fn. destruct (B1 fn) as [->|?]; [apply A1|auto].
    - intros f fn i d H. destruct (B2 _ _ _ _ H); [|auto]. eauto.
  Qed.

  Lemma shrink_agrees e e' c c' : shrink e' c c' -> agrees e c c'.
  Proof. intros []; split; [intros fn; left; congruence|auto]. Qed.

  Lemma frame_inv_agrees e c c' fr : agrees e c c' -> frame_inv e c fr -> frame_inv e c' fr.
  Proof.
    intros [A1 A2] []. split; auto.
    - intros H. destruct (fi_clean0 H) as [? [deps Hd]]. split; [done|].
      destruct (A1 (rq_fun (fr_req fr))) as [->|(d & deps' & He & ->)]; [eauto|].
      rewrite fi_digest0 in He. injection He as <-. eauto.
    - intros H d deps Hd.
      destruct (A1 (rq_fun (fr_req fr))) as [Heq|(d' & deps' & He & Hd')].
      + rewrite Heq in Hd. eauto.
      + rewrite Hd' in Hd. rewrite fi_digest0 in He. congruence.
    - intros gn i H f Hf. destruct (fi_same0 gn i H f Hf) as [?|Hs]; [by left|right].
      intros d Hd. destruct (A2 _ _ _ _ Hd) as [Hc|?]; auto.
  Qed.

  Lemma entry_of_shrink e c c' fn i b r ru :
    shrink e c c' -> entry_of c fn i b r ru -> entry_of c' fn i b r ru.
  Proof.
    intros [] []; split; try congruence.
    - by rewrite sh_functions.
    - intros; apply en_srcs0; auto.
    - intros; apply en_ext0; auto.
  Qed.

  Lemma db_inv_shrink e ex lg c c' : shrink e c c' -> db_inv_ex ex lg c -> db_inv_ex ex lg c'.
  Proof.
    intros Hsh [Hi He]. split.
    - intros f fn i d H. rewrite (sh_calls _ _ _ _ Hsh). eapply Hi, Hsh, H.
    - intros fn ds i b r H1 H2 H3. rewrite (sh_calls _ _ _ _ Hsh) in H1.
      destruct (He _ _ _ _ _ H1 H2 H3) as (ru & ? & ?). exists ru. split; [done|].
      by eapply entry_of_shrink.
  Qed.

  Lemma db_inv_mono ex (lg lg' : run -> Prop) c :
    (forall ru, lg ru -> lg' ru) -> db_inv_ex ex lg c -> db_inv_ex ex lg' c.
  Proof.
    intros Hsub [Hi He]. split; auto.
    intros fn ds i b r H1 H2 H3. destruct (He _ _ _ _ _ H1 H2 H3) as (ru' & ? & ?).
    exists ru'. split; [by apply Hsub|done].
  Qed.

  Lemma db_inv_empty lg : db_inv lg cdb_empty.
  Proof.
    split.
    - intros f fn i d. unfold callfile. simpl. by rewrite lookup_empty.
    - intros fn ds i b r. simpl. by rewrite lookup_empty.
  Qed.

  (** Deleting a function. *)
  Lemma delete_function_inv lg fn c b c' :
    delete_function core0 fn c = (inr b, c') -> db_inv lg c ->
    db_inv lg c' /\ c_functions c' !! fn = None /\ c_calls c' !! fn = None.
  Proof.
    cbn. unfold c_delete_function. intros [= <- <-] [Hi He].
    split_and!; simpl; [|by rewrite lookup_delete..].
    split; simpl.
    - intros f gn i d. rewrite callfile_purge. destruct (decide (fn = gn)) as [|Hn]; [done|].
      intros H. destruct (Hi _ _ _ _ H) as (ds & ? & ?).
      exists ds. by rewrite lookup_delete_ne.
    - intros gn ds i b r H1 H2 _.
      destruct (decide (fn = gn)) as [->|Hn]; [by rewrite lookup_delete in H1|].
      rewrite lookup_delete_ne in H1 by done.
      destruct (He _ _ _ _ _ H1 H2) as (ru & Hin & []); [done|].
      exists ru. split; [done|]. split; simpl; auto.
      + by rewrite lookup_delete_ne.
      + rewrite <- en_xsrcs0. unfold xfind; simpl. by rewrite lookup_delete_ne.
      + rewrite <- en_xdsts0. unfold xfind; simpl. by rewrite lookup_delete_ne.
      + intros f d. rewrite callfile_purge, decide_False by done. auto.
      + intros f d. rewrite callfile_purge, decide_False by done. auto.
  Qed.

  (** The function part of Backend.cache. *)
  Lemma save_function_inv lg e fn fd deps c :
    db_inv lg c -> e_fun e !! fn = Some fd ->
    (forall d deps, c_functions c !! fn = Some (d, deps) -> d = fd) ->
    exists c', save_function core0 None fn fd deps c = (inr fn, c') /\
      db_inv lg c' /\ agrees e c c' /\ c_functions c' !! fn = Some (fd, deps) /\
      c_calls c' = c_calls c /\ c_files c' = c_files c.
  Proof.
    intros [Hi He] Hfd Hold. eexists. cbn. split; [reflexivity|].
    split_and!; simpl; [|split; simpl; [|by auto]| |done|done].
    - split; simpl; auto. intros gn ds i b r H1 H2 H3.
      destruct (He _ _ _ _ _ H1 H2 H3) as (ru & Hin & []). exists ru. split; [done|].
      split; simpl; auto.
      destruct (decide (fn = gn)) as [->|Hn].
      + rewrite lookup_insert. destruct en_digest0 as [dp Hd].
        rewrite (Hold _ _ Hd). eauto.
      + by rewrite lookup_insert_ne.
    - intros gn. destruct (decide (fn = gn)) as [->|Hn].
      + right. rewrite lookup_insert. eauto.
      + left. by rewrite lookup_insert_ne.
    - by rewrite lookup_insert.
  Qed.

  Lemma save_call_files_spec fn i ds c :
    exists c', save_call_files core0 (fn, i) ds c = (inr tt, c') /\
      c_functions c' = c_functions c /\ c_calls c' = c_calls c /\ c_files c' = c_files c /\
      c_xsrcs c' = c_xsrcs c /\ c_xdsts c' = c_xdsts c /\
      (forall g gn j d, cf c' g gn j = Some d ->
         (gn = fn /\ j = i /\ exists x, (g, x, d) ∈ ds) \/
         (cf c g gn j = Some d /\ (gn = fn /\ j = i -> forall x d', (g, x, d') ∉ ds))) /\
      (forall g x d, (g, x, d) ∈ ds -> is_Some (cf c' g fn i)).
  Proof.
    revert c. induction ds as [|[[g0 x0] d0] ds IH]; intros c; simpl.
    - exists c. split_and!; try done. intros. right. split; [done|]. intros _ ? ?. apply not_elem_of_nil.
      intros ? ? ? ?%elem_of_nil. done.
    - unfold bind. cbn.
      set (c1 := Cdb _ _ _ _ _ _).
      destruct (IH c1) as (c' & Hs & H1 & H2 & H3 & H4 & H5 & H6 & H7).
      exists c'. split; [exact Hs|]. split_and!; try done.
      + intros g gn j d H. destruct (H6 _ _ _ _ H) as [(-> & -> & x & Hx)|[Hc Hno]].
        * left. split_and!; try done. exists x. by right.
        * unfold c1 in Hc. simpl in Hc. rewrite callfile_put in Hc.
          destruct (decide (g0 = g /\ fn = gn /\ i = j)) as [(-> & <- & <-)|Hne].
          -- left. injection Hc as <-. split_and!; try done. exists x0. by left.
          -- right. split; [done|]. intros [-> ->] x d' [[= -> -> ->]|Hin]%elem_of_cons; [naive_solver|].
             by eapply Hno.
      + intros g x d [[= -> -> ->]|Hin]%elem_of_cons; [|eauto].
        destruct (cf c' g0 fn i) as [d|] eqn:E; [eauto|].
        exfalso.
        assert (forall ds c c' u, save_call_files core0 (fn, i) ds c = (inr u, c') ->
                  is_Some (cf c g0 fn i) -> is_Some (cf c' g0 fn i)) as Hmono.
        { clear. induction ds as [|[[g x] d] ds IH]; intros c c' u; simpl.
          - by intros [= <- <-].
          - unfold bind; cbn. intros H Hs. eapply IH; [exact H|]. simpl.
            rewrite callfile_put. destruct (decide _); eauto. }
        eapply Hmono in Hs; [rewrite E in Hs; by destruct Hs|].
        simpl. rewrite callfile_put, decide_True by done. eauto.
  Qed.

  (** Registering the external dependencies. *)
  Lemma c_add_files_spec e fs c r c' :
    files_ok e c -> c_add_files veq md5 e fs c = (r, c') ->
    shrink e c c' /\
    match r with
    | inl x => x = OSErr
    | inr ds => (forall g x d, (g, x, d) ∈ ds -> digest_at e g = Some d) /\
                (forall f, f ∈ fs -> exists d, (f, f, d) ∈ ds)
    end.
  Proof.
    revert c r c'. induction fs as [|f fs IH]; intros c r c' Hok H; simpl in H.
    - injection H as <- <-. split; [apply shrink_refl|]. split; set_solver.
    - unfold bind in H. pose proof (add_file_spec veq md5 e f c Hok) as Hs.
      destruct (add_file md5 core0 e f c) as [ra ca] eqn:Ea.
      pose proof (add_file_shrink _ _ _ _ _ _ _ Hok Ea) as Hsh.
      unfold digest_at in *.
      destruct (e_fs e !! f) as [[m ct]|] eqn:Ef.
      + destruct Hs as (b & Hs & _). injection Hs as -> Hca.
        destruct (c_add_files veq md5 e fs ca) as [r2 c2] eqn:E2.
        apply IH in E2 as [Hsh2 H2]; [|by apply Hsh].
        destruct r2 as [x|ds].
        * injection H as <- <-. split; [by eapply shrink_trans|done].
        * injection H as <- <-. split; [by eapply shrink_trans|].
          destruct H2 as [A B]. split.
          -- intros g x d [[= -> -> ->]|Hin]%elem_of_cons; [|eauto]. by rewrite Ef.
          -- intros g [->|Hg]%elem_of_cons.
             ++ eexists. by left.
             ++ destruct (B g Hg) as [d ?]. exists d. by right.
      + injection Hs as -> ->. injection H as <- <-. split; [apply shrink_refl|done].
  Qed.

  Lemma xfind_xput x cid l cid' :
    xfind (xput x cid l) cid' = if decide (cid = cid') then l else xfind x cid'.
  Proof.
    destruct cid as [a i], cid' as [b j]. unfold xfind, xput; simpl.
    destruct (decide (a = b)) as [->|Hn].
    - rewrite lookup_insert. destruct (decide (i = j)) as [->|Hi].
      + by rewrite lookup_insert, decide_True.
      + rewrite lookup_insert_ne by done. rewrite decide_False by congruence.
        destruct (x !! b); simpl; [done|by rewrite lookup_empty].
    - rewrite lookup_insert_ne by done. by rewrite decide_False by congruence.
  Qed.

  (** What save_call does to the call table. *)
  Lemma save_call_inv lg e fr c bound r :
    db_inv lg c -> frame_inv e c fr ->
    (pr_fun_dirty (fr_prep fr) = true -> pr_call_id (fr_prep fr) = None) ->
    match save_call core0 (pr_call_id (fr_prep fr)) (rq_fun (fr_req fr)) bound r c with
    | (inl x, c') => c' = c
    | (inr (gn, i), c') =>
        gn = rq_fun (fr_req fr) /\
        c_functions c' = c_functions c /\ c_callfiles c' = c_callfiles c /\
        c_files c' = c_files c /\ c_xsrcs c' = c_xsrcs c /\ c_xdsts c' = c_xdsts c /\
        db_inv_ex (Some (gn, i)) lg c' /\
        (exists ds, c_calls c' !! gn = Some ds /\ ds !! i = Some (bound, r)) /\
        (forall f d, cf c f gn i = Some d -> f ∈ rq_srcs (fr_req fr) ->
           (exists d, (f, f, d) ∈ pr_files (fr_prep fr)) \/ digest_at e f = Some d)
    end.
  Proof.
    intros [Hi He] Hfr Hd. cbn. unfold c_save_call.
    set (fn := rq_fun (fr_req fr)).
    destruct (c_calls c !! fn) as [ds|] eqn:Ec.
    - destruct (pr_call_id (fr_prep fr)) as [[gn i]|] eqn:Ecid.
      + destruct (fi_cid _ _ _ Hfr _ _ Ecid) as [-> _]. fold fn.
        destruct (decide (i < length ds)) as [Hlt|]; [|done]. simpl.
        split_and!; try done.
        * split; simpl.
          -- intros f gn j d H. destruct (Hi _ _ _ _ H) as (ds' & H1 & H2).
             destruct (decide (fn = gn)) as [->|Hn].
             ++ rewrite lookup_insert. eexists. split; [done|].
                rewrite insert_length. congruence.
             ++ rewrite lookup_insert_ne by done. eauto.
          -- intros gn ds' j b r' H1 H2 H3.
             destruct (decide (fn = gn)) as [->|Hn].
             ++ rewrite lookup_insert in H1. injection H1 as <-.
                destruct (decide (i = j)) as [->|Hij]; [done|].
                rewrite list_lookup_insert_ne in H2 by done.
                destruct (He _ _ _ _ _ Ec H2) as (ru & Hin & []); [done|].
                exists ru. split; [done|]. split; auto.
             ++ rewrite lookup_insert_ne in H1 by done.
                destruct (He _ _ _ _ _ H1 H2) as (ru & Hin & []); [done|].
                exists ru. split; [done|]. split; auto.
        * rewrite lookup_insert. eexists. split; [done|].
          by rewrite list_lookup_insert.
        * intros f d Hcf Hsrc.
          destruct (fi_same _ _ _ Hfr _ _ Ecid f Hsrc) as [?|Hs]; [by left|right; auto].
      + simpl. split_and!; try done.
        * split; simpl.
          -- intros f gn j d H. destruct (Hi _ _ _ _ H) as (ds' & H1 & H2).
             destruct (decide (fn = gn)) as [->|Hn].
             ++ rewrite lookup_insert. eexists. split; [done|].
                rewrite app_length. assert (ds' = ds) by congruence. subst. lia.
             ++ rewrite lookup_insert_ne by done. eauto.
          -- intros gn ds' j b r' H1 H2 H3.
             destruct (decide (fn = gn)) as [->|Hn].
             ++ rewrite lookup_insert in H1. injection H1 as <-.
                apply lookup_app_Some in H2 as [H2|[Hge H2]].
                ** destruct (He _ _ _ _ _ Ec H2) as (ru & Hin & []); [done|].
                   exists ru. split; [done|]. split; auto.
                ** apply list_lookup_singleton_Some in H2 as [H2 _].
                   assert (j = length ds) as -> by lia. done.
             ++ rewrite lookup_insert_ne in H1 by done.
                destruct (He _ _ _ _ _ H1 H2) as (ru & Hin & []); [done|].
                exists ru. split; [done|]. split; auto.
        * rewrite lookup_insert. eexists. split; [done|].
          rewrite lookup_app_r by lia. by rewrite Nat.sub_diag.
        * intros f d Hcf Hsrc. left. by apply (fi_all _ _ _ Hfr).
    - simpl. split_and!; try done.
      + split; simpl.
        * intros f gn j d H. destruct (Hi _ _ _ _ H) as (ds' & H1 & H2).
          rewrite lookup_insert_ne by congruence. eauto.
        * intros gn ds' j b r' H1 H2 H3.
          destruct (decide (fn = gn)) as [->|Hn].
          -- rewrite lookup_insert in H1. injection H1 as <-.
             apply list_lookup_singleton_Some in H2 as [-> _]. done.
          -- rewrite lookup_insert_ne in H1 by done.
             destruct (He _ _ _ _ _ H1 H2) as (ru & Hin & []); [done|].
             exists ru. split; [done|]. split; auto.
      + rewrite lookup_insert. eexists. split; [done|]. done.
      + intros f d Hcf Hsrc. destruct (Hi _ _ _ _ Hcf) as (ds' & H1 & _). congruence.
  Qed.

  Definition is_ok {A} (r : exn + A) : bool := match r with inr _ => true | inl _ => false end.

  Lemma cache0_entry lg e fr deps r c res c' :
    files_ok e c -> db_inv lg c -> frame_inv e c fr ->
    (pr_fun_dirty (fr_prep fr) = true -> pr_call_id (fr_prep fr) = None) ->
    cache0 veq md5 e (pr_fun_dirty (fr_prep fr)) (pr_fun_id (fr_prep fr)) (rq_fun (fr_req fr))
      (fr_digest fr) deps (pr_call_id (fr_prep fr)) (rq_bound (fr_req fr)) r
      (pr_files (fr_prep fr)) (fr_xsrcs fr) (fr_xdsts fr) c = (res, c') ->
    agrees e c c' /\
    ((exists x, res = inl x) /\ db_inv lg c' \/
     exists ds i, c_calls c' !! rq_fun (fr_req fr) = Some ds /\ ds !! i = Some (rq_bound (fr_req fr), r) /\
       entry_of c' (rq_fun (fr_req fr)) i (rq_bound (fr_req fr)) r
         (Run (fr_req fr) (fr_digest fr) r (fr_begin fr) e (fr_xsrcs fr) (fr_xdsts fr) (is_ok res)) /\
       db_inv_ex (Some (rq_fun (fr_req fr), i)) lg c').
  Proof.
    intros Hfs Hdb Hfr Hdc. unfold cache0. unfold bind at 1.
    set (fn := rq_fun (fr_req fr)).
    match goal with |- match ?m c with _ => _ end = _ -> _ => set (stage1 := m) end.
    assert (exists c1, stage1 c = (inr (Some fn), c1) /\ c_files c1 = c_files c /\ db_inv lg c1 /\ agrees e c c1 /\
              exists dp, c_functions c1 !! fn = Some (fr_digest fr, dp))
      as (c1 & Hs1 & Hfi1 & Hdb1 & Hag1 & Hfun1).
    { unfold stage1. destruct (pr_fun_dirty (fr_prep fr)) eqn:Efd.
      - unfold bind. destruct (pr_fun_id (fr_prep fr)) as [x|] eqn:Eid.
        + destruct (delete_function core0 fn c) as [[?|b] cd] eqn:Edel; [done|].
          pose proof (delete_function_inv lg _ _ _ _ Edel Hdb) as (Hdbd & Hnone & _).
          destruct (save_function_inv lg e fn (fr_digest fr) deps cd Hdbd (fi_digest _ _ _ Hfr))
            as (c1 & -> & Hdb1 & Hag & Hfun & Hcalls & Hfiles).
          { intros ? ?. by rewrite Hnone. }
          cbn in Edel. injection Edel as <- <-.
          exists c1. split_and!; [done|done|done| |eauto].
          destruct Hag as [Hag1 Hag2]. split.
          * intros gn. destruct (decide (fn = gn)) as [<-|Hn].
            -- right. rewrite Hfun. do 2 eexists. split; [apply (fi_digest _ _ _ Hfr)|done].
            -- destruct (Hag1 gn) as [->|?]; [|auto]. left. simpl. by rewrite lookup_delete_ne.
          * intros f gn i d H. destruct (Hag2 _ _ _ _ H) as [H'|]; [|auto].
            simpl in H'. rewrite callfile_purge in H'.
            destruct (decide (fn = gn)); [done|auto].
        + destruct (save_function_inv lg e fn (fr_digest fr) deps c Hdb (fi_digest _ _ _ Hfr))
            as (c1 & Hs & Hdb1 & Hag & Hfun & Hcalls & Hfiles).
          { intros d dp. by apply (fi_nofid _ _ _ Hfr). }
          exists c1. simpl. change (inr (A:=exn) tt) with (inr (A:=exn) tt). cbn in Hs |- *.
          injection Hs as <-. split_and!; [done|done|done|done|eauto].
      - exists c. destruct (fi_clean _ _ _ Hfr Efd) as [-> [dp Hdp]].
        split_and!; [done|done|done|apply agrees_refl|eauto]. }
    rewrite Hs1. clear stage1 Hs1.
    pose proof (frame_inv_agrees _ _ _ _ Hag1 Hfr) as Hfr1.
    unfold bind at 1.
    pose proof (save_call_inv lg e fr c1 (rq_bound (fr_req fr)) r Hdb1 Hfr1 Hdc) as Hsc.
    fold fn in Hsc.
    destruct (save_call core0 (pr_call_id (fr_prep fr)) fn (rq_bound (fr_req fr)) r c1)
      as [[x|[gn i]] c2].
    { intros [= <- <-]. subst c2. split; [done|]. left. eauto. }
    destruct Hsc as (-> & Hfu2 & Hcf2 & Hfi2 & Hxs2 & Hxd2 & Hdb2 & (ds & Hds & Hdsi) & Hleft).
    unfold bind at 1.
    destruct (save_call_files_spec fn i (pr_files (fr_prep fr)) c2)
      as (c3 & -> & Hfu3 & Hca3 & Hfi3 & Hxs3 & Hxd3 & Hcf3 & _).
    (* declared sources after saving their digests *)
    assert (forall f d, cf c3 f fn i = Some d -> f ∈ rq_srcs (fr_req fr) ->
              digest_at e f = Some d) as Hsrc3.
    { intros f d H Hf. destruct (Hcf3 _ _ _ _ H) as [(_ & _ & x & Hx)|[H' Hno]].
      - destruct (fi_files _ _ _ Hfr _ _ _ Hx) as (-> & Hf' & Hd).
        by rewrite <- (fi_stable _ _ _ Hfr).
      - rewrite Hcf2 in H'. destruct (Hleft _ _ H' Hf) as [[d' Hd']|?]; [|done].
        exfalso. by eapply Hno. }
    assert (agrees e c1 c3) as Hag3.
    { split.
      - intros g. left. congruence.
      - intros f g j d H. destruct (Hcf3 _ _ _ _ H) as [(-> & -> & x & Hx)|[H' Hno]].
        + right. destruct (fi_files _ _ _ Hfr _ _ _ Hx) as (-> & Hf' & Hd).
          by rewrite <- (fi_stable _ _ _ Hfr).
        + left. by rewrite <- Hcf2. }
    unfold c_save_external, modify. unfold bind at 1.
    set (c4 := Cdb _ _ _ _ _ _).
    assert (files_ok e c4) as Hok4.
    { intros f m d ct. unfold c4; simpl. rewrite Hfi3, Hfi2, Hfi1. apply Hfs. }
    unfold bind at 1.
    destruct (c_add_files veq md5 e (fr_xsrcs fr) c4) as [r5 c5] eqn:E5.
    pose proof (c_add_files_spec _ _ _ _ _ Hok4 E5) as [Hsh5 H5].
    assert (agrees e c3 c4) as Hag4 by (split; [intros; by left|by auto]).
    assert (agrees e c c5) as Hag5.
    { eapply agrees_trans; [exact Hag1|]. eapply agrees_trans; [exact Hag3|].
      eapply agrees_trans; [exact Hag4|]. by eapply shrink_agrees. }
    (* the invariant for all entries except the new one, at c4 and c5 *)
    assert (db_inv_ex (Some (fn, i)) lg c4) as Hdb4.
    { destruct Hdb2 as [Hi2 He2]. split; unfold c4; simpl.
      - intros f gn j d H. rewrite Hca3.
        destruct (Hcf3 _ _ _ _ H) as [(-> & -> & x & Hx)|[H' Hno]].
        + exists ds. split; [done|]. by apply lookup_lt_Some in Hdsi.
        + by eapply Hi2.
      - intros gn ds' j b r' H1 H2 H3. rewrite Hca3 in H1.
        destruct (He2 _ _ _ _ _ H1 H2 H3) as (ru & Hin & []). exists ru. split; [done|].
        assert (~ (gn = fn /\ j = i)) as Hne by (intros [-> ->]; by apply H3).
        split; simpl; auto.
        + by rewrite Hfu3.
        + rewrite xfind_xput, decide_False by (intros [= <- <-]; by apply Hne). by rewrite Hxs3.
        + rewrite xfind_xput, decide_False by (intros [= <- <-]; by apply Hne). by rewrite Hxd3.
        + intros f d H. destruct (Hcf3 _ _ _ _ H) as [(-> & -> & _)|[H' _]]; [by destruct Hne|rewrite <- ?Hcf2 in *; eauto].
        + intros f d H. destruct (Hcf3 _ _ _ _ H) as [(-> & -> & _)|[H' _]]; [by destruct Hne|rewrite <- ?Hcf2 in *; eauto]. }
    pose proof (db_inv_shrink _ _ _ _ _ Hsh5 Hdb4) as Hdb5.
    assert (forall ok, entry_of c5 fn i (rq_bound (fr_req fr)) r
              (Run (fr_req fr) (fr_digest fr) r (fr_begin fr) e (fr_xsrcs fr) (fr_xdsts fr) ok)
              \/ ok = true) as Hentry5.
    { intros [|]; [by right|left]. eapply entry_of_shrink; [exact Hsh5|].
      split; simpl; try done.
      - rewrite Hfu3, Hfu2. done.
      - by rewrite xfind_xput, decide_True.
      - by rewrite xfind_xput, decide_True.
      - intros f d H Hf. rewrite (fi_stable _ _ _ Hfr) by done. by apply Hsrc3. }
    assert (c_calls c5 !! fn = Some ds) as Hds5.
    { rewrite (sh_calls _ _ _ _ Hsh5). unfold c4; simpl. by rewrite Hca3. }
    destruct r5 as [x|xds].
    - intros [= <- <-]. split; [done|]. right. exists ds, i. fold fn. split_and!; try done.
      by destruct (Hentry5 false).
    - destruct H5 as [Hxd Hxall].
      destruct (save_call_files_spec fn i xds c5)
        as (c6 & -> & Hfu6 & Hca6 & Hfi6 & Hxs6 & Hxd6 & Hcf6 & Hcf6').
      intros [= <- <-]. split.
      { eapply agrees_trans; [exact Hag5|]. split.
        - intros g. left. congruence.
        - intros f g j d H. destruct (Hcf6 _ _ _ _ H) as [(_ & _ & x & Hx)|[H' _]]; [|by left].
          right. by eapply Hxd. }
      destruct Hdb5 as [Hi5 He5]. right. exists ds, i. fold fn. split; [by rewrite Hca6|]. split; [done|]. split.
      + destruct (Hentry5 false) as [[]|]; [|done]. simpl in *.
        split; simpl; try done; try congruence.
        * by rewrite Hfu6.
        * intros f d H Hf. destruct (Hcf6 _ _ _ _ H) as [(_ & _ & x & Hx)|[H' _]]; [|auto].
          rewrite (fi_stable _ _ _ Hfr) by done. by eapply Hxd.
        * intros f d H Hf _. destruct (Hcf6 _ _ _ _ H) as [(_ & _ & x & Hx)|[H' Hno]].
          -- by eapply Hxd.
          -- destruct (Hxall f Hf) as [d' Hd']. exfalso. by eapply Hno.
      + split.
        * intros f gn j d H. rewrite Hca6.
          destruct (Hcf6 _ _ _ _ H) as [(-> & -> & _)|[H' _]]; [|by eapply Hi5].
          exists ds. split; [done|by apply lookup_lt_Some in Hdsi].
        * intros gn ds' j b r' H1 H2 H3. rewrite Hca6 in H1.
          destruct (He5 _ _ _ _ _ H1 H2 H3) as (ru & Hin & []).
          exists ru. split; [done|].
          assert (~ (gn = fn /\ j = i)) as Hne' by (intros [-> ->]; done).
          split; simpl; try done; try congruence.
          -- by rewrite Hfu6.
          -- intros f d H. destruct (Hcf6 _ _ _ _ H) as [(-> & -> & _)|[H' _]]; [by destruct Hne'|rewrite <- ?Hcf2 in *; eauto].
          -- intros f d H. destruct (Hcf6 _ _ _ _ H) as [(-> & -> & _)|[H' _]]; [by destruct Hne'|rewrite <- ?Hcf2 in *; eauto].
  Qed.

  (** The entry that was just written rests on the run that ended, the others on the runs they rested on. *)
  Lemma cache0_inv (lg lg' : run -> Prop) e fr deps r c res c' :
    files_ok e c -> db_inv lg c -> frame_inv e c fr ->
    (pr_fun_dirty (fr_prep fr) = true -> pr_call_id (fr_prep fr) = None) ->
    cache0 veq md5 e (pr_fun_dirty (fr_prep fr)) (pr_fun_id (fr_prep fr)) (rq_fun (fr_req fr))
      (fr_digest fr) deps (pr_call_id (fr_prep fr)) (rq_bound (fr_req fr)) r
      (pr_files (fr_prep fr)) (fr_xsrcs fr) (fr_xdsts fr) c = (res, c') ->
    (forall ru, lg ru -> lg' ru) ->
    lg' (Run (fr_req fr) (fr_digest fr) r (fr_begin fr) e (fr_xsrcs fr) (fr_xdsts fr) (is_ok res)) ->
    agrees e c c' /\ db_inv lg' c'.
  Proof.
    intros Hfs Hdb Hfr Hdc Hc Hsub Hnew.
    destruct (cache0_entry _ _ _ _ _ _ _ _ Hfs Hdb Hfr Hdc Hc) as [Hag [[_ H]|(ds & i & Hds & Hi & Hen & [Hidx He])]];
      (split; [done|]); [by eapply db_inv_mono|].
    split; [done|]. intros gn ds' j b r' H1 H2 _.
    destruct (decide ((gn, j) = (rq_fun (fr_req fr), i))) as [[= -> ->]|Hne].
    - rewrite Hds in H1. injection H1 as <-. rewrite Hi in H2. injection H2 as <- <-. eauto.
    - destruct (He _ _ _ _ _ H1 H2) as (ru & ? & ?); [by intros [= <- <-]|]. eauto.
  Qed.
End Inv.
