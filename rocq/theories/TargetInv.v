(** Stored results come from the last equal run, and there is one of them for equal arguments. *)
From stdpp Require Import base list strings gmap sorting.
From Coq Require Import ZArith Lia.
From Verif Require Import PyMonad DbModel DbSpec DbClaims CacheBackend CacheLift CacheFacts CacheInv CacheProv DbHistory
  CacheStep CacheDeps CacheTrust CodeSpec TargetSpec.

Section Inv.
  Context {V R : Type} (veq : V -> V -> bool) (md5 : content -> digest).
  Context (veq_refl : forall x, veq x x = true) (veq_sym : forall x y, veq x y = true -> veq y x = true)
    (veq_trans : forall x y z, veq x y = true -> veq y z = true -> veq x z = true).
  Notation BK := (cache_backend (V := V) (R := R) veq md5).
  Notation core0 := (cache_core0 (R := R) veq).
  Notation cdb := (cdb V R).
  Notation frame := (frame V R name (name * nat) name).
  Notation run := (run V R).
  Notation sys := (sys V R (pdb V R) name (name * nat) name).
  Notation op := (op V R).
  Notation occ := (occ V R).
  Notation step := (step md5 BK).
  Notation runs := (runs md5 BK).
  Notation mem s := (p_mem (s_db s)).
  Notation disk s := (p_disk (s_db s)).
  Notation db_inv := (db_inv_ex (V := V) (R := R) md5 None).
  Notation equal_call := (equal_call (R := R) veq).

  (** *** The list of stored calls after Backend.cache *)
  Lemma c_save_call_ds cid fn b r (c : cdb) cid' c' :
    (forall gn i, cid = Some (gn, i) -> gn = fn) ->
    c_save_call cid fn b r c = (inr cid', c') ->
    c_calls c' !! fn = Some (match c_calls c !! fn, cid with
                             | Some ds, Some (_, i) => <[i := (b, r)]> ds
                             | Some ds, None => ds ++ [(b, r)]
                             | None, _ => [(b, r)]
                             end).
  Proof.
    unfold c_save_call. intros Hg. destruct (c_calls c !! fn) as [ds|] eqn:E.
    - destruct cid as [[g i]|].
      + destruct (decide (i < length ds)); [|done]. intros [= <- <-]. simpl. by rewrite lookup_insert.
      + intros [= <- <-]. simpl. by rewrite lookup_insert.
    - intros [= <- <-]. simpl. by rewrite lookup_insert.
  Qed.

  Lemma cache0_ds e fd fid fn dg deps cid b r files xs xd (c : cdb) c' :
    (forall x, fid = Some x -> x = fn) -> (fd = false -> fid = Some fn) ->
    (forall gn i, cid = Some (gn, i) -> gn = fn) -> (fd = true -> cid = None) ->
    (fd = true -> fid = None -> forall ds, c_calls c !! fn = Some ds -> ds = []) ->
    cache0 (R:=R) veq md5 e fd fid fn dg deps cid b r files xs xd c = (inr tt, c') ->
    c_calls c' !! fn = Some (if fd then [(b, r)] else
                             match c_calls c !! fn, cid with
                             | Some ds, Some (_, i) => <[i := (b, r)]> ds
                             | Some ds, None => ds ++ [(b, r)]
                             | None, _ => [(b, r)]
                             end).
  Proof.
    intros Hfid Hclean Hcid Hdc Hnone. unfold cache0. unfold bind at 1.
    match goal with |- match ?m c with _ => _ end = _ -> _ => set (stage1 := m) end.
    assert (exists c1, stage1 c = (inr (Some fn), c1) /\
      (if fd then forall ds, c_calls c1 !! fn = Some ds -> ds = [] else c_calls c1 = c_calls c)) as (c1 & Hs1 & Hfn).
    { unfold stage1, bind. destruct fd; [|exists c; by rewrite (Hclean eq_refl)].
      destruct fid as [x|]; cbn; eexists; (split; [reflexivity|]); simpl.
      - intros ds. by rewrite lookup_delete.
      - by apply Hnone. }
    rewrite Hs1. clear stage1 Hs1. unfold bind. cbn.
    destruct (c_save_call cid fn b r c1) as [[x|cid'] c2] eqn:Esc; [done|].
    apply c_save_call_ds in Esc; [|done].
    pose proof (keeps_save_call_files veq cid' files c2) as Hk3.
    destruct (save_call_files core0 cid' files c2) as [[x|u] c3]; [done|]. simpl in Hk3.
    unfold c_save_external, modify, bind.
    set (c4 := Cdb _ _ _ _ _ _).
    pose proof (keeps_add_files veq md5 e xs c4) as Hk5.
    destruct (c_add_files veq md5 e xs c4) as [[x|ds5] c5]; [done|]. simpl in Hk5.
    pose proof (keeps_save_call_files veq cid' ds5 c5) as Hk6.
    destruct (save_call_files core0 cid' ds5 c5) as [[x|u'] c6]; [done|]. simpl in Hk6.
    intros [= ? <-]. rewrite (sm_calls _ _ Hk6), (sm_calls _ _ Hk5). unfold c4; simpl. rewrite (sm_calls _ _ Hk3), Esc.
    destruct fd; [|by rewrite Hfn].
    rewrite (Hdc eq_refl). destruct (c_calls c1 !! fn) as [ds|]; [|done]. by rewrite (Hfn ds eq_refl).
  Qed.

  (** No two stored calls of a function have equal arguments. *)
  Definition uniq (c : cdb) : Prop := forall fn ds i j b b' r r',
    c_calls c !! fn = Some ds -> ds !! i = Some (b, r) -> ds !! j = Some (b', r') -> veq b b' = true -> i = j.

  (** What a running call knows about the stored calls of its function. *)
  Definition knows (c : cdb) (fr : frame) : Prop :=
    let p := fr_prep fr in
    let rq := fr_req fr in
    (pr_fun_dirty p = true -> pr_fun_id p = None -> forall ds, c_calls c !! rq_fun rq = Some ds -> ds = []) /\
    (pr_fun_dirty p = false ->
      match pr_call_id p with
      | None => forall ds b' r, c_calls c !! rq_fun rq = Some ds -> (b', r) ∈ ds -> veq (rq_bound rq) b' = false
      | Some (_, i) => exists ds b' r, c_calls c !! rq_fun rq = Some ds /\ ds !! i = Some (b', r) /\ veq (rq_bound rq) b' = true
      end).

  Lemma uniq_end e fr deps r (c : cdb) c' :
    frame_inv md5 e c fr -> uniq c -> knows c fr ->
    cache0 veq md5 e (pr_fun_dirty (fr_prep fr)) (pr_fun_id (fr_prep fr)) (rq_fun (fr_req fr))
      (fr_digest fr) deps (pr_call_id (fr_prep fr)) (rq_bound (fr_req fr)) r
      (pr_files (fr_prep fr)) (fr_xsrcs fr) (fr_xdsts fr) c = (inr tt, c') -> uniq c'.
  Proof.
    intros Hf Hu [Hk1 Hk2] Hc. pose proof Hc as Hc2. apply cache0_calls in Hc2 as [Hoth _]; [|apply Hf].
    apply cache0_ds in Hc; try done.
    2:{ apply Hf. } 2:{ intros H. by destruct (fi_clean _ _ _ _ Hf H). }
    2:{ intros gn i H. by destruct (fi_cid _ _ _ _ Hf _ _ H). }
    2:{ intros H. destruct (pr_call_id _) as [[gn i]|] eqn:E; [|done]. destruct (fi_cid _ _ _ _ Hf _ _ E). congruence. }
    intros fn ds i j b b' r1 r2 Hds Hi Hj Hv.
    destruct (decide (fn = rq_fun (fr_req fr))) as [->|Hn].
    2:{ destruct (Hoth fn Hn) as [Heq _]. rewrite Heq in Hds. by eapply Hu. }
    rewrite Hc in Hds. injection Hds as <-.
    destruct (pr_fun_dirty (fr_prep fr)).
    { apply list_lookup_singleton_Some in Hi as [-> _]. by apply list_lookup_singleton_Some in Hj as [-> _]. }
    specialize (Hk2 eq_refl).
    destruct (c_calls c !! rq_fun (fr_req fr)) as [ds|] eqn:E.
    2:{ apply list_lookup_singleton_Some in Hi as [-> _]. by apply list_lookup_singleton_Some in Hj as [-> _]. }
    destruct (pr_call_id (fr_prep fr)) as [[gn k]|].
    - destruct Hk2 as (ds' & bk & rk & [= <-] & Hk & Hvk).
      pose proof (lookup_lt_Some _ _ _ Hk) as Hlt.
      destruct (decide (k = i)) as [<-|Hki], (decide (k = j)) as [<-|Hkj]; [done|..].
      + rewrite list_lookup_insert in Hi by done. injection Hi as <- <-.
        rewrite list_lookup_insert_ne in Hj by done. eapply (Hu _ ds k j bk b'); eauto.
      + rewrite list_lookup_insert in Hj by done. injection Hj as <- <-.
        rewrite list_lookup_insert_ne in Hi by done. eapply (Hu _ ds i k b bk); eauto.
      + rewrite list_lookup_insert_ne in Hi, Hj by done. by eapply Hu.
    - specialize (Hk2 ds).
      apply lookup_app_Some in Hi as [Hi|[Hgi Hi]], Hj as [Hj|[Hgj Hj]].
      + by eapply Hu.
      + apply list_lookup_singleton_Some in Hj as [_ [= <- <-]]. apply veq_sym in Hv.
        rewrite (Hk2 _ _ eq_refl (elem_of_list_lookup_2 _ _ _ Hi)) in Hv. done.
      + apply list_lookup_singleton_Some in Hi as [_ [= <- <-]].
        rewrite (Hk2 _ _ eq_refl (elem_of_list_lookup_2 _ _ _ Hj)) in Hv. done.
      + apply list_lookup_singleton_Some in Hi as [Hi _]. apply list_lookup_singleton_Some in Hj as [Hj _]. lia.
  Qed.

  (** *** Histories *)
  Context (t : nat) (s0 : sys) (rank : name -> nat).
  Notation inside := (inside (R := R) veq t).
  Notation steady := (steady md5 BK t s0 rank).
  Notation saved := (saved md5 BK t s0).

  Definition at_end (os : list op) (ru : run) : Prop :=
    exists a b c, os = a ++ OBegin t (ru_req ru) :: b ++ OEnd t (ru_result ru) :: c /\
      runs_during md5 BK s0 t (ru_req ru) a b /\
      ru_begin ru = s_env (runs s0 a) /\
      ru_end ru = s_env (runs s0 (a ++ OBegin t (ru_req ru) :: b)) /\
      e_fun (ru_begin ru) !! rq_fun (ru_req ru) = Some (ru_digest ru) /\
      (forall f, f ∈ ru_xsrcs ru <-> registered md5 BK s0 (fun xs _ => xs) t (ru_req ru) a b f) /\
      (forall f, f ∈ ru_xdsts ru <-> registered md5 BK s0 (fun _ xd => xd) t (ru_req ru) a b f) /\
      ru_recorded ru = true /\
      forall c1 c2, c = c1 ++ c2 ->
        ~ inside (runs s0 (a ++ OBegin t (ru_req ru) :: b ++ OEnd t (ru_result ru) :: c1)) (ru_req ru).
  Definition good (os : list op) (ru : run) : Prop := inside (runs s0 os) (ru_req ru) \/ at_end os ru.

  Lemma inside_dec (s : sys) rq : inside s rq \/ ~ inside s rq.
  Proof.
    unfold TargetSpec.inside. induction (thread s t) as [|fr frs [(fr' & Hin & He)|IH]].
    - right. by intros (fr & ?%elem_of_nil & _).
    - left. exists fr'. split; [by right|done].
    - destruct (decide (rq_fun (fr_req fr) = rq_fun rq)) as [Hf|Hf].
      + destruct (veq (rq_bound rq) (rq_bound (fr_req fr))) eqn:E.
        * left. exists fr. split; [by left|done].
        * right. intros (fr' & [->|Hin]%elem_of_cons & [He1 He2]); [congruence|]. apply IH. by exists fr'.
      + right. intros (fr' & [->|Hin]%elem_of_cons & [He1 He2]); [done|]. apply IH. by exists fr'.
  Qed.

  Lemma at_end_snoc os o ru : at_end os ru -> ~ inside (runs s0 (os ++ [o])) (ru_req ru) -> at_end (os ++ [o]) ru.
  Proof.
    intros (a & b & c & -> & H1 & H2 & H3 & H4 & H5 & H6 & H7 & H8) Hno.
    exists a, b, (c ++ [o]). split; [repeat (rewrite <- ?app_assoc; simpl); done|]. split_and!; try done.
    intros c1 c2 Hc. destruct (snoc_split _ _ _ _ Hc) as [[-> ->]|(c3 & -> & Hc3)].
    - repeat (rewrite <- ?app_assoc in Hno; simpl in Hno). done.
    - by eapply H8.
  Qed.

  Lemma good_snoc os o ru :
    (inside (runs s0 os) (ru_req ru) -> inside (runs s0 (os ++ [o])) (ru_req ru)) ->
    good os ru -> good (os ++ [o]) ru.
  Proof.
    intros Hmono [H|H]; [left; auto|].
    destruct (inside_dec (runs s0 (os ++ [o])) (ru_req ru)) as [?|Hno]; [by left|right]. by apply at_end_snoc.
  Qed.

  Lemma inside_frames (s s' : sys) rq :
    (forall fr, fr ∈ thread s t -> exists fr', fr' ∈ thread s' t /\ fr_req fr' = fr_req fr) ->
    inside s rq -> inside s' rq.
  Proof. intros H (fr & Hin & He). destruct (H fr Hin) as (fr' & ? & Hq). exists fr'. by rewrite Hq. Qed.

  (** Functions further down the stack have higher ranks. *)
  Definition sorted (s : sys) : Prop :=
    StronglySorted (fun f g => rank f < rank g) ((fun fr : frame => rq_fun (fr_req fr)) <$> thread s t).

  Record tinv (os : list op) : Prop := Tinv {
    ti_mem : db_inv (good os) (mem (runs s0 os));
    ti_uniq : uniq (mem (runs s0 os));
    ti_udisk : uniq (disk (runs s0 os));
    ti_knows : forall fr, fr ∈ thread (runs s0 os) t -> knows (mem (runs s0 os)) fr;
    ti_sorted : sorted (runs s0 os);
    ti_disk : saved os -> db_inv (at_end os) (disk (runs s0 os))
  }.

  Lemma saved_snoc os o : o <> OSave -> saved (os ++ [o]) -> saved os /\ thread (runs s0 (os ++ [o])) t = [].
  Proof.
    intros Ho H. split.
    - intros a c -> Ht. specialize (H a (c ++ [o])). rewrite app_assoc in H. specialize (H eq_refl Ht).
      apply elem_of_app in H as [?|H]; [done|]. by apply elem_of_list_singleton in H.
    - destruct (thread _ t) eqn:E; [done|]. specialize (H (os ++ [o]) []). rewrite app_nil_r, E in H.
      by specialize (H eq_refl ltac:(done)) as ?%elem_of_nil.
  Qed.

  Lemma not_inside_idle (s : sys) rq : thread s t = [] -> ~ inside s rq.
  Proof. intros H (fr & Hin & _). rewrite H in Hin. by apply elem_of_nil in Hin. Qed.

  Lemma disk_step os o :
    o <> OSave -> disk (runs s0 (os ++ [o])) = disk (runs s0 os) ->
    (saved os -> db_inv (at_end os) (disk (runs s0 os))) ->
    saved (os ++ [o]) -> db_inv (at_end (os ++ [o])) (disk (runs s0 (os ++ [o]))).
  Proof.
    intros Ho -> H Hs. apply saved_snoc in Hs as [Hs Ht]; [|done].
    eapply db_inv_mono; [|by apply H]. intros ru Hru. by apply at_end_snoc, not_inside_idle.
  Qed.

  (** Operations that change neither the stored calls nor who is running. *)
  Lemma tinv_quiet os o :
    tinv os -> o <> OSave -> disk (runs s0 (os ++ [o])) = disk (runs s0 os) ->
    (exists e, shrink md5 e (mem (runs s0 os)) (mem (runs s0 (os ++ [o])))) ->
    Forall2 (fun fr fr' => fr_req fr' = fr_req fr /\ fr_prep fr' = fr_prep fr) (thread (runs s0 os) t) (thread (runs s0 (os ++ [o])) t) ->
    tinv (os ++ [o]).
  Proof.
    intros [H1 H2 H3 H4 H5 H6] Ho Hd [e Hsh] Hfr. constructor.
    - eapply db_inv_shrink; [exact Hsh|]. eapply db_inv_mono; [|exact H1]. intros ru. apply good_snoc, inside_frames.
      intros fr Hin. apply elem_of_list_lookup in Hin as [i Hi].
      destruct (Forall2_lookup_l _ _ _ _ _ Hfr Hi) as (fr' & Hi' & Hq & _). exists fr'. split; [|done].
      by eapply elem_of_list_lookup_2.
    - intros fn ds i j b b' r r'. rewrite (sh_calls _ _ _ _ Hsh). apply H2.
    - by rewrite Hd.
    - intros fr' Hin. apply elem_of_list_lookup in Hin as [i Hi].
      destruct (Forall2_lookup_r _ _ _ _ _ Hfr Hi) as (fr & Hi' & Hq & Hp).
      unfold knows. rewrite Hq, Hp, (sh_calls _ _ _ _ Hsh). apply (H4 fr). by eapply elem_of_list_lookup_2.
    - unfold sorted in *. enough ((λ fr : frame, rq_fun (fr_req fr)) <$> thread (runs s0 (os ++ [o])) t =
         (λ fr : frame, rq_fun (fr_req fr)) <$> thread (runs s0 os) t) as -> by done.
      clear -Hfr. induction Hfr as [|fr fr' l l' [Hq _] Hfr IH]; [done|]. rewrite !fmap_cons, Hq. f_equal. exact IH.
    - by apply disk_step.
  Qed.

  Lemma steady_prefix os os' : steady (os ++ os') -> steady os.
  Proof.
    intros [H1 H2 H3 H4 H5]. constructor.
    - by apply Forall_app in H1 as [? _].
    - intros a t' rq b fr frs -> Ht. eapply (H2 a t' rq (b ++ os')); [|done]. by rewrite <- app_assoc.
    - intros a o c ->. apply (H3 a o (c ++ os')). by rewrite <- app_assoc.
    - intros a o c ->. apply (H4 a o (c ++ os')). by rewrite <- app_assoc.
    - intros a funs c ->. apply (H5 a funs (c ++ os')). by rewrite <- app_assoc.
  Qed.

  Lemma begin_shape (s : sys) rq :
    files_ok md5 (s_env s) (mem s) ->
    let s' := fst (step s (OBegin t rq)) in
    disk s' = disk s /\ shrink md5 (s_env s) (mem s) (mem s') /\
    (thread s' t = thread s t \/
     exists d p, thread s' t = Frame rq d p [] [] (s_env s) :: thread s t /\
       prep_ok veq md5 (s_env s) (rq_fun rq) (rq_bound rq) (rq_srcs rq) (mem s) p).
  Proof.
    intros Hok. simpl. unfold begin_call. destruct (e_fun (s_env s) !! rq_fun rq) as [d|] eqn:Ed.
    2:{ split_and!; [done|apply shrink_refl|by left]. }
    destruct (prepare md5 _ _ _ _ _ _) as [res db] eqn:Ep.
    pose proof (begin_prepare _ _ _ _ _ _ Hok Ep) as (Hdk & Hsh & Hpo).
    destruct res as [x|p]; [split_and!; [done|done|by left]|].
    assert (forall cs, let s' := Sys (s_env s) db cs (<[t := Frame rq d p [] [] (s_env s) :: thread s t]> (s_threads s)) (s_log s) in
      disk s' = disk s /\ shrink md5 (s_env s) (mem s) (mem s') /\
      (thread s' t = thread s t \/
       exists d p, thread s' t = Frame rq d p [] [] (s_env s) :: thread s t /\
         prep_ok veq md5 (s_env s) (rq_fun rq) (rq_bound rq) (rq_srcs rq) (mem s) p)) as Hrun.
    { intros cs s'. split_and!; [done|done|]. right. exists d, p. split; [|by apply Hpo].
      unfold s'. rewrite thread_insert. by rewrite decide_True. }
    destruct (pr_fun_dirty p), (pr_call_dirty p), (pr_files p), (pr_xfiles p), (pr_old_result p); try apply Hrun.
    destruct (forallb _ _); [split_and!; [done|done|by left]|apply Hrun].
  Qed.

  Lemma end_shape (s : sys) r fr frs :
    thread s t = fr :: frs -> fails md5 BK s (OEnd t r) = false ->
    let s' := fst (step s (OEnd t r)) in
    exists deps c', cache0 veq md5 (s_env s) (pr_fun_dirty (fr_prep fr)) (pr_fun_id (fr_prep fr)) (rq_fun (fr_req fr))
      (fr_digest fr) deps (pr_call_id (fr_prep fr)) (rq_bound (fr_req fr)) r
      (pr_files (fr_prep fr)) (fr_xsrcs fr) (fr_xdsts fr) (mem s) = (inr tt, c') /\
      mem s' = c' /\ disk s' = disk s /\ thread s' t = frs.
  Proof.
    intros Ht. unfold fails. simpl. unfold end_call. rewrite Ht. destruct (s_callstack s) as [|deps cs]; [done|].
    rewrite (lifts_cache veq md5 _ _ _ _ _ _ _ _ _ _ _ _ (s_db s)). unfold on_mem.
    destruct (cache0 _ _ _ _ _ _ _ _ _ _ _ _ _ _ (mem s)) as [[x|[]] c'] eqn:Ec; [done|]. intros _. cbn [fst].
    exists deps, c'. split_and!; try done. rewrite thread_insert. by rewrite decide_True.
  Qed.

  Lemma new_run os r fr frs ok :
    s_threads s0 = ∅ -> thread (runs s0 os) t = fr :: frs -> ok = true ->
    ~ inside (runs s0 (os ++ [OEnd t r])) (fr_req fr) ->
    at_end (os ++ [OEnd t r])
      (Run (fr_req fr) (fr_digest fr) r (fr_begin fr) (s_env (runs s0 os)) (fr_xsrcs fr) (fr_xdsts fr) ok).
  Proof.
    intros H0 Ht -> Hno.
    pose proof (frames_began md5 BK s0 os H0 t [] fr frs Ht) as (a & b & Hos & Hrun & Hn & Hb & Hfd & Hxs & Hxd).
    exists a, b, []. cbn [ru_req ru_result ru_begin ru_end ru_digest ru_xsrcs ru_xdsts ru_recorded].
    split_and!; try done.
    - rewrite Hos at 1. by rewrite <- app_assoc.
    - split; [done|]. rewrite <- Hos. unfold depth at 1. by rewrite Ht.
    - by rewrite <- Hos.
    - intros c1 c2 Hc. symmetry in Hc. apply app_eq_nil in Hc as [-> _]. rewrite Hos, <- app_assoc in Hno. done.
  Qed.

  Lemma sorted_below (s : sys) fr frs :
    sorted s -> thread s t = fr :: frs -> forall fr', fr' ∈ frs -> rank (rq_fun (fr_req fr)) < rank (rq_fun (fr_req fr')).
  Proof.
    unfold sorted. intros Hs Ht fr' Hin. rewrite Ht, fmap_cons in Hs. apply StronglySorted_inv in Hs as [_ Hs].
    rewrite Forall_forall in Hs. apply Hs. apply elem_of_list_fmap. by exists fr'.
  Qed.

  Lemma tinv_step os o :
    s_threads s0 = ∅ -> CacheStep.inv md5 (runs s0 os) -> files_ok md5 (s_env (runs s0 os)) (mem (runs s0 os)) ->
    steady (os ++ [o]) -> tinv os -> tinv (os ++ [o]).
  Proof.
    intros H0 Hinv Hok Hst I. pose proof I as [I1 I2 I3 I4 I5 I6].
    pose proof (runs_snoc md5 BK s0 os o) as Hsn.
    assert (on_thread t o) as Hot.
    { pose proof (sd_thread _ _ _ _ _ _ Hst) as H. rewrite Forall_app in H. by destruct H as [_ [? _]%Forall_cons]. }
    pose proof (step_frames md5 BK (runs s0 os) o t) as Hfr. rewrite <- Hsn in Hfr. unfold frames_step in Hfr.
    pose proof (sd_fails _ _ _ _ _ _ Hst os o []) as Hfails.
    pose proof (sd_saves _ _ _ _ _ _ Hst os o []) as Hsaves.
    set (s := runs s0 os) in *.
    assert (Forall2 (fun fr fr' : frame => fr_req fr' = fr_req fr /\ fr_prep fr' = fr_prep fr) (thread s t) (thread s t)) as Hrefl.
    { clear. induction (thread s t); by constructor. }
    destruct o as [t' rq|t' xs xd g|t' r|t'|f ct m|f|dt| |funs|f|f]; cbn in Hot.
    - (* OBegin *)
      subst t'. pose proof (begin_shape s rq Hok) as (Hd & Hsh & Hth). rewrite <- Hsn in Hd, Hsh, Hth.
      destruct Hth as [Hth|(d & p & Hth & Hpo)].
      { eapply tinv_quiet; try done; [by eexists|]. fold s. by rewrite Hth. }
      assert (forall fr, fr ∈ thread s t -> rank (rq_fun rq) < rank (rq_fun (fr_req fr))) as Hrk.
      { intros fr Hin. destruct (thread s t) as [|fr0 frs] eqn:Et; [by apply elem_of_nil in Hin|].
        pose proof (sd_rank _ _ _ _ _ _ Hst os t rq [] fr0 frs eq_refl Et) as H.
        apply elem_of_cons in Hin as [->|Hin]; [done|]. pose proof (sorted_below _ _ _ I5 Et _ Hin). lia. }
      constructor.
      + eapply db_inv_shrink; [exact Hsh|]. eapply db_inv_mono; [|exact I1]. intros ru. apply good_snoc, inside_frames.
        fold s. intros fr Hin. exists fr. split; [|done]. rewrite Hth. by right.
      + intros fn ds i j b b' r r'. rewrite (sh_calls _ _ _ _ Hsh). apply I2.
      + by rewrite Hd.
      + rewrite Hth. intros fr [->|Hin]%elem_of_cons.
        2:{ destruct (I4 _ Hin) as [A B]. split; by rewrite (sh_calls _ _ _ _ Hsh). }
        unfold knows. rewrite (sh_calls _ _ _ _ Hsh). cbn [fr_req fr_prep]. split.
        * intros _ Hid ds Hds. apply (po_nofid _ _ _ _ _ _ _ _ Hpo) in Hid.
          destruct ds as [|[b r] ds]; [done|].
          destruct (di_entry _ _ _ _ I1 (rq_fun rq) _ 0 b r Hds eq_refl) as (ru & _ & Hen); [done|].
          destruct (en_digest _ _ _ _ _ _ _ Hen) as [dp Hdp]. fold s in Hdp. congruence.
        * intros Hdt. destruct (pr_call_id p) as [[gn i]|] eqn:Ec.
          -- destruct (po_cid _ _ _ _ _ _ _ _ Hpo _ Ec) as (j & ds & b' & r & [= -> ->] & _ & ? & ? & ? & _). by exists ds, b', r.
          -- by apply (po_none _ _ _ _ _ _ _ _ Hpo).
      + unfold sorted. rewrite Hth, fmap_cons. constructor; [exact I5|]. apply Forall_forall.
        intros g Hg. apply elem_of_list_fmap in Hg as (fr & -> & Hin). by apply Hrk.
      + by apply disk_step.
    - (* OAddExt *)
      subst t'. rewrite decide_True in Hfr by done.
      eapply tinv_quiet; try done; fold s.
      + rewrite Hsn. done.
      + rewrite Hsn. exists (s_env s). apply shrink_refl.
      + destruct (thread s t) as [|fr frs]; rewrite Hfr; [constructor|]. constructor; [done|].
        inversion Hrefl; subst. destruct g; [done|]. clear -frs.
        induction frs as [|fr frs IH]; constructor; [done|exact IH].
    - (* OEnd *)
      subst t'. rewrite decide_True in Hfr by done.
      destruct (thread s t) as [|fr frs] eqn:Et.
      { eapply tinv_quiet; try done; fold s.
        - rewrite Hsn. simpl. unfold end_call. by rewrite Et.
        - rewrite Hsn. simpl. unfold end_call. rewrite Et. exists (s_env s). apply shrink_refl.
        - rewrite Et, Hfr. constructor. }
      simpl in Hfr.
      destruct (fails md5 BK s (OEnd t r)) eqn:Efl.
      { by destruct (Hfails eq_refl eq_refl) as [[rq ?] _]. }
      destruct (end_shape s r fr frs Et Efl) as (deps & c' & Hc & Hm & Hd & _). rewrite <- Hsn in Hm, Hd.
      assert (fr ∈ thread s t) as Hin0 by (rewrite Et; by left).
      pose proof (in_frames _ _ Hinv t fr Hin0) as Hf.
      assert (knows (mem s) fr) as Hk by (apply I4; by left).
      assert (pr_fun_dirty (fr_prep fr) = true -> pr_call_id (fr_prep fr) = None) as Hdc.
      { intros H. destruct (pr_call_id _) as [[gn i]|] eqn:E; [|done]. destruct (fi_cid _ _ _ _ Hf _ _ E). congruence. }
      pose proof (uniq_end _ _ _ _ _ _ Hf I2 Hk Hc) as Hu.
      pose proof (sorted_below _ _ _ I5 Et) as Hrk.
      assert (~ inside (runs s0 (os ++ [OEnd t r])) (fr_req fr)) as Hno.
      { intros (fr' & Hin & [Hf1 _]). rewrite Hfr in Hin. apply Hrk in Hin. rewrite Hf1 in Hin. lia. }
      pose proof Hc as Hc1. apply cache0_calls in Hc1 as [Hoth _]; [|apply Hf].
      destruct (cache0_entry veq md5 (good os) _ _ _ _ _ _ _ Hok I1 Hf Hdc Hc)
        as [_ [[[x ?] _]|(ds & i & Hds & Hi & Hen & [Hidx He])]]; [done|].
      constructor; rewrite ?Hm; try done.
      + split; [done|]. intros gn ds' j b r' H1 H2 _.
        destruct (decide ((gn, j) = (rq_fun (fr_req fr), i))) as [[= -> ->]|Hne].
        * rewrite Hds in H1. injection H1 as <-. rewrite Hi in H2. injection H2 as <- <-.
          eexists. split; [|exact Hen]. right. by eapply new_run.
        * destruct (He _ _ _ _ _ H1 H2) as (ru & Hgood & Hru); [by intros [= <- <-]|].
          exists ru. split; [|done]. revert Hgood. apply good_snoc. fold s.
          intros (fr' & Hin & He1 & He2). rewrite Et in Hin.
          apply elem_of_cons in Hin as [->|Hin]; [|exists fr'; by rewrite Hfr].
          exfalso. rewrite (en_fun _ _ _ _ _ _ _ Hru) in He1. rewrite (en_bound _ _ _ _ _ _ _ Hru) in He2.
          subst gn. rewrite Hds in H1. injection H1 as <-.
          apply Hne. f_equal. by eapply Hu.
      + by rewrite Hd.
      + intros fr' Hin. rewrite Hfr in Hin. pose proof (Hrk _ Hin) as Hlt.
        assert (rq_fun (fr_req fr') <> rq_fun (fr_req fr)) as Hn by (intros Heq; rewrite Heq in Hlt; lia).
        destruct (I4 fr') as [A B]; [by right|]. destruct (Hoth _ Hn) as [Heq _]. split; by rewrite Heq.
      + unfold sorted. rewrite Hfr. unfold sorted in I5. rewrite Et, fmap_cons in I5. by apply StronglySorted_inv in I5 as [? _].
      + by apply disk_step.
    - (* ORaise *)
      subst t'. rewrite decide_True in Hfr by done.
      destruct (Hfails eq_refl eq_refl) as [[rq ?] _]. done.
    - eapply tinv_quiet; try done; fold s; rewrite ?Hsn; [done|exists (s_env s); apply shrink_refl|done].
    - eapply tinv_quiet; try done; fold s; rewrite ?Hsn; [done|exists (s_env s); apply shrink_refl|done].
    - eapply tinv_quiet; try done; fold s; rewrite ?Hsn; [done|exists (s_env s); apply shrink_refl|done].
    - (* OSave *)
      specialize (Hsaves eq_refl). cbn in Hsaves. fold s in Hsaves. rewrite Hsaves in Hfr.
      assert (db_inv (at_end (os ++ [OSave])) (mem s)) as Hall.
      { eapply db_inv_mono; [|exact I1]. intros ru [Hi|Ha]; [by apply not_inside_idle in Hi|].
        by apply at_end_snoc, not_inside_idle. }
      constructor; rewrite ?Hsn; simpl; try done.
      + eapply db_inv_mono; [|exact Hall]. intros ru ?. by right.
    - (* ORestart *)
      assert (saved os) as Hsv by (eapply (sd_ends _ _ _ _ _ _ Hst os funs []); done).
      assert (db_inv (at_end (os ++ [ORestart funs])) (disk s)) as Hall.
      { eapply db_inv_mono; [|by apply I6]. intros ru Ha. by apply at_end_snoc, not_inside_idle. }
      constructor; try rewrite Hfr.
      + rewrite Hsn. eapply db_inv_mono; [|exact Hall]. intros ru ?. by right.
      + by rewrite Hsn.
      + by rewrite Hsn.
      + intros fr ?%elem_of_nil. done.
      + unfold sorted. rewrite Hfr. constructor.
      + by rewrite Hsn.
    - (* ODelFun *)
      specialize (Hsaves eq_refl). cbn in Hsaves. fold s in Hsaves. rewrite Hsaves in Hfr.
      destruct (delete_function core0 f (mem s)) as [res c] eqn:E.
      pose proof E as E2. cbn in E2. injection E2 as <- Hc.
      assert (mem (runs s0 (os ++ [ODelFun f])) = c /\ disk (runs s0 (os ++ [ODelFun f])) = disk s) as [Hm Hd].
      { rewrite Hsn. simpl. by rewrite <- Hc. }
      constructor; rewrite ?Hm, ?Hd, ?Hfr; try done.
      + eapply delete_function_inv in E as [? _]; [|exact I1]. eapply db_inv_mono; [|done].
        intros ru. apply good_snoc. intros Hi. by apply not_inside_idle in Hi.
      + intros fn ds i j b b' r r'. rewrite <- Hc. simpl. intros Hds. apply lookup_delete_Some in Hds as [_ Hds]. by eapply I2.
      + intros fr ?%elem_of_nil. done.
      + unfold sorted. rewrite Hfr. constructor.
      + rewrite <- Hd. by apply disk_step.
    - (* ODelFile *)
      eapply tinv_quiet; try done; fold s; rewrite ?Hsn; simpl; try done.
      exists (s_env s). apply (delete_file_shrink md5 (s_env s) f).
  Qed.

  Lemma tinv_all os : fresh pdb_empty s0 -> trusted veq md5 s0 os -> steady os -> tinv os.
  Proof.
    intros Hf Htr. pose proof Hf as (Hdb & _ & Hth & _). induction os as [|o os IH] using rev_ind; intros Hst.
    - constructor; simpl; try (rewrite Hdb; simpl).
      + apply db_inv_empty.
      + intros fn ds i j b b' r r'. simpl. by rewrite lookup_empty.
      + intros fn ds i j b b' r r'. simpl. by rewrite lookup_empty.
      + intros fr. unfold thread. rewrite Hth, lookup_empty. by intros ?%elem_of_nil.
      + unfold sorted, thread. rewrite Hth, lookup_empty. constructor.
      + intros _. apply db_inv_empty.
    - apply (trusted_app veq md5) in Htr as [Htr _]. apply tinv_step; try done.
      + apply (inv_runs veq); [by apply inv_fresh|done].
      + by apply (trusted_end veq md5).
      + apply IH; [done|]. by eapply steady_prefix.
  Qed.

  (** A file nobody touches stays. *)
  Lemma fs_kept (s : sys) (c : list op) f :
    (forall ct m, OWrite f ct m ∉ c) -> is_Some (e_fs (s_env (runs s c)) !! f) ->
    e_fs (s_env (runs s c)) !! f = e_fs (s_env s) !! f.
  Proof.
    revert s. induction c as [|o c IH]; intros s Hw Hs; [done|]. simpl in *.
    assert (forall ct m, OWrite f ct m ∉ c) as Hw' by (intros ct m H; eapply Hw; by right).
    rewrite (IH _ Hw' Hs). rewrite (IH _ Hw' Hs) in Hs.
    pose proof (step_fs veq md5 s o) as Hfs. destruct o as [| | | |g ct m|g| | | | |]; try (by rewrite Hfs).
    - rewrite Hfs. destruct (decide (g = f)) as [->|]; [|by rewrite lookup_insert_ne]. destruct (Hw ct m). by left.
    - rewrite Hfs in Hs |- *. destruct (decide (g = f)) as [->|]; [|by rewrite lookup_delete_ne].
      rewrite lookup_delete in Hs. by destruct Hs as [? [=]].
  Qed.

  Theorem hit_stands os rq r srcs dsts :
    fresh pdb_empty s0 -> trusted veq md5 s0 os -> steady (os ++ [OBegin t rq]) ->
    let s := runs s0 os in
    snd (step s (OBegin t rq)) = RHit r srcs dsts ->
    exists oc, last_run veq md5 BK t s0 os oc /\ oc_result oc = r /\
      stands_for veq md5 BK t s0 (s_env s) rq oc /\
      (forall f, f ∈ srcs <-> f ∈ rq_srcs rq \/
         registered md5 BK s0 (fun xs _ => xs) t (oc_req oc) (oc_before oc) (oc_during oc) f) /\
      (forall f, f ∈ dsts <-> f ∈ rq_dsts rq \/ f ∈ rq_ret rq r \/
         registered md5 BK s0 (fun _ xd => xd) t (oc_req oc) (oc_before oc) (oc_during oc) f) /\
      forall f, f ∈ dsts -> is_Some (e_fs (s_env s) !! f) /\
        (only_written_by veq md5 BK t s0 os rq f -> e_fs (s_env s) !! f = e_fs (oc_end md5 BK t s0 oc) !! f).
  Proof.
    intros Hf Htr Hst s Hhit. pose proof (tinv_all os Hf Htr (steady_prefix _ _ Hst)) as I.
    pose proof (trusted_end veq md5 _ _ Htr) as Hok. fold s in Hok.
    destruct (hit_entry veq md5 _ s t rq r srcs dsts (ti_mem _ I) Hok Hhit)
      as (ru & Hgood & Hfn & Hv & Hr & Hdg & -> & -> & Hsrc & Hext & Hdst).
    destruct Hgood as [(fr & Hin & He1 & _)|Hend].
    { exfalso. clear -I Hin He1 Hfn Hst.
      destruct (thread (runs s0 os) t) as [|fr0 frs] eqn:Et; [by apply elem_of_nil in Hin|].
      pose proof (sd_rank _ _ _ _ _ _ Hst os t rq [] fr0 frs eq_refl Et) as H.
      apply elem_of_cons in Hin as [->|Hin]; [rewrite He1, Hfn in H; lia|].
      pose proof (sorted_below _ _ _ (ti_sorted _ I) Et _ Hin). rewrite He1, Hfn in *. lia. }
    destruct Hend as (a & b & c & Hos & Hrd & Hb & He & Hd & Hxs & Hxd & Hrec & Hlast).
    exists (Occ a (ru_req ru) b (ru_result ru)). unfold oc_end, oc_upto.
    cbn [oc_before oc_req oc_during oc_result]. split_and!; try done.
    - exists c. unfold oc_upto. cbn [oc_before oc_req oc_during oc_result].
      split; [rewrite Hos at 1; by rewrite <- app_assoc|]. split; [done|].
      intros c1 c2 Hc. rewrite <- app_assoc. by eapply Hlast.
    - constructor; unfold oc_end, oc_upto, oc_code, oc_fun; cbn [oc_before oc_req oc_during oc_result].
      + done.
      + fold s. rewrite Hdg. split; [done|]. by rewrite <- Hb, <- Hd.
      + intros f H1 H2. rewrite <- Hb. by apply Hsrc.
      + intros f H1 H2. rewrite <- He. apply Hext; [by apply Hxs|done|done].
    - intros f. rewrite elem_of_app, Hxs. done.
    - intros f. rewrite !elem_of_app, Hxd. tauto.
    - intros f Hin. split; [by apply Hdst|]. intros Honly.
      pose proof (Hdst f Hin) as Hex.
      assert (runs s0 os = runs (runs s0 (a ++ OBegin t (ru_req ru) :: b)) (OEnd t (ru_result ru) :: c)) as Hsplit.
      { rewrite <- runs_app, <- app_assoc. by rewrite Hos at 1. }
      unfold s in *. rewrite Hsplit in Hex |- *. apply fs_kept; [|done].
      intros ct m [?|Hw]%elem_of_cons; [done|].
      apply elem_of_list_split in Hw as (c1 & c2 & Hc).
      apply (Hlast c1 (OWrite f ct m :: c2) Hc).
      destruct (Honly (a ++ OBegin t (ru_req ru) :: b ++ OEnd t (ru_result ru) :: c1) ct m c2) as (fr & Hfr & He1 & He2).
      { rewrite Hos, Hc. repeat (rewrite <- ?app_assoc; simpl). done. }
      exists fr. split; [done|]. split; [congruence|]. eauto.
  Qed.
End Inv.
