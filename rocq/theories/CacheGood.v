(** When functions call only functions of lower rank and exceptions are not
    caught, every function a running call has called is up to date. *)
From stdpp Require Import base list strings gmap.
From Coq Require Import ZArith Lia.
From Verif Require Import PyMonad DbModel DbSpec DbClaims CacheBackend CacheLift CacheFacts CacheProv
  CacheInv DbHistory CacheStep CacheDeps CacheComplete CacheNoop.

Section Good.
  Context {V R : Type} (veq : V -> V -> bool) (md5 : content -> digest).
  Notation BK := (cache_backend (V := V) (R := R) veq md5).
  Notation core0 := (cache_core0 (R := R) veq).
  Notation cdb := (cdb V R).
  Notation frame := (frame V R name (name * nat) name).
  Notation sys := (sys V R (pdb V R) name (name * nat) name).
  Notation op := (op V R).
  Notation step := (step md5 BK).
  Notation runs := (runs md5 BK).
  Notation mem s := (p_mem (s_db s)).
  Notation disk s := (p_disk (s_db s)).
  Notation rows := (gmap name (digest * list name)).

  Context (rank : name -> nat).

  Definition lower (c : cdb) : Prop :=
    forall h d L g, c_functions c !! h = Some (d, L) -> g ∈ L -> rank g < rank h.

  (** The row of [g], and the rows of everything it depends on, are current and are
      not about to be written ([D]). *)
  Inductive good (fs : rows) (ef : gmap name digest) (D : name -> Prop) (g : name) : Prop :=
    Good d deps : fs !! g = Some (d, deps) -> ef !! g = Some d -> ~ D g ->
      (forall k, k ∈ deps -> k <> g -> good fs ef D k) -> good fs ef D g.

  Lemma good_change (P : name -> Prop) (fs fs' : rows) ef ef' (D D' : name -> Prop) g :
    (forall k, good fs ef D k -> P k -> fs' !! k = fs !! k /\ ef' !! k = ef !! k /\ ~ D' k) ->
    (forall h d L k, P h -> fs !! h = Some (d, L) -> k ∈ L -> P k) ->
    good fs ef D g -> P g -> good fs' ef' D' g.
  Proof.
    intros H1 H2 Hg. induction Hg as [g d deps Hrow Hef HD Hdeps IH]. intros HP.
    destruct (H1 g) as (E1 & E2 & E3); [by econstructor|done|].
    eapply Good; [by rewrite E1|by rewrite E2|done|].
    intros k Hk Hn. apply IH; [done|done|]. by eapply H2.
  Qed.

  Lemma good_check n e (c : cdb) (D : name -> Prop) g :
    lower c -> good (c_functions c) (e_fun e) D g -> rank g < n ->
    check_function core0 n e g c = (inr (false, Some g), c).
  Proof.
    intros Hl. revert g. induction n as [|n IH]; intros g Hg Hn; [lia|].
    destruct Hg as [d deps Hrow Hef HD Hdeps]. simpl.
    destruct (e_fun e !! g) as [d0|]; [injection Hef as ->|done].
    unfold bind at 1. cbn. rewrite Hrow. cbn. rewrite String.eqb_refl. cbn.
    assert (forall k, k ∈ filter (fun x => x <> g) deps -> check_function core0 n e k c = (inr (false, Some k), c)) as Hds.
    { intros k [Hk Hin]%elem_of_list_filter. apply IH; [by apply Hdeps|]. specialize (Hl _ _ _ _ Hrow Hin). lia. }
    revert Hds. generalize (filter (fun x => x <> g) deps). intros ds Hds.
    set (chk := (fix check_deps (ds : list name) : M _ bool := _)).
    assert (chk ds c = (inr false, c)) as Hchk.
    { induction ds as [|k ds IHd]; [done|]. cbn. unfold bind. rewrite Hds by by left. cbn.
      apply IHd. intros k' Hk'. apply Hds. by right. }
    unfold bind. by rewrite Hchk.
  Qed.

  Lemma check_good n e (c : cdb) (D : name -> Prop) g fid c' :
    lower c -> (forall k, D k -> rank g < rank k) ->
    check_function core0 n e g c = (inr (false, fid), c') -> good (c_functions c) (e_fun e) D g.
  Proof.
    intros Hl. revert g fid c'. induction n as [|n IH]; intros g fid c' HD H; [done|].
    pose proof (check_function_spec _ _ _ _ _ _ _ _ H) as (d & Hd & _ & _ & Hclean).
    destruct (Hclean eq_refl) as [deps Hrow]. simpl in H.
    destruct (e_fun e !! g) as [d0|] eqn:Ed; [|done]. injection Hd as ->.
    unfold bind at 1 in H. cbn in H. rewrite Hrow in H. cbn in H. rewrite String.eqb_refl in H. cbn in H.
    assert (forall k, k ∈ deps -> k <> g -> k ∈ filter (fun x => x <> g) deps) as Hin
      by (intros; by apply elem_of_list_filter).
    eapply Good; [done|done| |].
    { intros HDg. specialize (HD _ HDg). lia. }
    intros k Hk Hn. specialize (Hin k Hk Hn). revert H Hin. generalize (filter (fun x => x <> g) deps). intros ds.
    set (chk := (fix check_deps (ds : list name) : M _ bool := _)).
    assert (forall ds c1, chk ds c = (inr false, c1) -> k ∈ ds ->
      exists fid c2, check_function core0 n e k c = (inr (false, fid), c2)) as Hall.
    { clear ds. induction ds as [|dep ds IHd]; intros c1 Hc Hin; [by apply elem_of_nil in Hin|].
      cbn in Hc. unfold bind in Hc.
      destruct (check_function core0 n e dep c) as [[x|[b i]] c2] eqn:E; [done|]. cbn in Hc.
      destruct b; [done|].
      pose proof (check_function_pure _ _ _ _ _ _ _ E) as ->.
      apply elem_of_cons in Hin as [->|Hin]; [eauto|by eapply IHd]. }
    unfold bind. intros H Hin. destruct (chk ds c) as [[x|b] c1] eqn:E; [done|]. cbn in H.
    injection H as -> _ _. destruct (Hall _ _ E Hin) as (fid' & c2 & E2).
    eapply IH; [|exact E2]. intros k' Hk'. specialize (HD _ Hk'). specialize (Hl _ _ _ _ Hrow Hk). lia.
  Qed.

  (** *** The call stack *)

  (** What matters about a running call: its function, and whether its row will be written. *)
  Definition view (fr : frame) : name * bool := (rq_fun (fr_req fr), pr_fun_dirty (fr_prep fr)).
  Definition writes (vs : list (name * bool)) (g : name) : Prop := (g, true) ∈ vs.

  Fixpoint stack_ok (fs : rows) (ef : gmap name digest) (D : name -> Prop) (above : option name)
      (vs : list (name * bool)) (es : list (list name)) : Prop :=
    match vs, es with
    | [], [] => True
    | (h, d) :: vs', deps :: es' =>
        (forall g, g ∈ deps -> rank g < rank h /\ (good fs ef D g \/ above = Some g)) /\
        (d = false -> good fs ef D h) /\
        (match vs' with [] => True | (h', _) :: _ => rank h < rank h' end) /\
        stack_ok fs ef D (Some h) vs' es'
    | _, _ => False
    end.

  Lemma stack_change (fs fs' : rows) ef ef' (D D' : name -> Prop) above above' vs es :
    (forall g, good fs ef D g -> good fs' ef' D' g) ->
    (forall g, above = Some g -> good fs' ef' D' g \/ above' = Some g) ->
    stack_ok fs ef D above vs es -> stack_ok fs' ef' D' above' vs es.
  Proof.
    intros Hg. revert above above' es. induction vs as [|[h d] vs IH]; intros above above' [|deps es] Ha; simpl; try done.
    intros (H1 & H2 & H3 & H4). split_and!; [|auto|done|].
    - intros g Hin. destruct (H1 g Hin) as [? [?|?]]; split; auto.
    - eapply IH; [|exact H4]. intros g ->. by right.
  Qed.

  Lemma stack_ranks fs ef D above h d vs es :
    stack_ok fs ef D above ((h, d) :: vs) es -> forall v, v ∈ vs -> rank h < rank (fst v).
  Proof.
    revert above h d es. induction vs as [|[h' d'] vs IH]; intros above h d es Hs v Hv; [by apply elem_of_nil in Hv|].
    destruct es as [|deps es]; [done|]. destruct Hs as (_ & _ & H3 & H4).
    apply elem_of_cons in Hv as [->|Hv]; [done|]. specialize (IH _ _ _ _ H4 _ Hv). lia.
  Qed.

  Variable t0 : nat.
  Notation views s := (view <$> thread s t0).

  Record binv (s : sys) : Prop := Binv {
    bi_others : forall t, t <> t0 -> thread s t = [];
    bi_mem : lower (mem s);
    bi_disk : lower (disk s)
  }.
  Definition ginv (s : sys) : Prop :=
    exists es junk, s_callstack s = es ++ junk /\
      stack_ok (c_functions (mem s)) (e_fun (s_env s)) (writes (views s)) None (views s) es.

  Lemma ginv_empty s : depth s t0 = 0 -> ginv s.
  Proof.
    unfold depth. destruct (thread s t0) eqn:E; [|done]. intros _. exists [], (s_callstack s).
    rewrite E. done.
  Qed.

  Lemma binv_fresh s : fresh pdb_empty s -> binv s /\ ginv s.
  Proof.
    intros (Hdb & Hcs & Hth & _).
    assert (forall t, thread s t = []) as Hnil by (intros t; unfold thread; by rewrite Hth, lookup_empty).
    split; [split|].
    - auto.
    - rewrite Hdb. intros h d L g. simpl. by rewrite lookup_empty.
    - rewrite Hdb. intros h d L g. simpl. by rewrite lookup_empty.
    - apply ginv_empty. unfold depth. by rewrite Hnil.
  Qed.

  (** What an operation must satisfy. *)
  Record fine (s : sys) (o : op) : Prop := Fine {
    fo_thread : on_thread t0 o;
    fo_wb : well_behaved s o;
    fo_below : forall t rq fr frs, o = OBegin t rq -> thread s t = fr :: frs ->
      rank (rq_fun rq) < rank (rq_fun (fr_req fr));
    fo_limit : forall t rq, o = OBegin t rq -> rank (rq_fun rq) < e_limit (s_env s)
  }.

  Lemma others_step (s : sys) o :
    (forall t, t <> t0 -> thread s t = []) -> on_thread t0 o ->
    forall t, t <> t0 -> thread (fst (step s o)) t = [].
  Proof.
    intros Ho Hon t Hn. pose proof (step_frames md5 BK s o t) as Hfr. unfold frames_step in Hfr.
    destruct o as [t' rq|t' xs xd g|t' r|t'|f ct m|f|dt| |funs|f|f]; simpl in Hon; try subst t';
      try (rewrite decide_False in Hfr by done); rewrite Hfr; auto.
  Qed.

  Lemma views_step (s : sys) o :
    on_thread t0 o ->
    match o with
    | OBegin _ rq =>
        (snd (step s o) = RRun /\ exists d p c,
           e_fun (s_env s) !! rq_fun rq = Some d /\
           prepare md5 core0 (s_env s) (rq_fun rq) (rq_bound rq) (rq_srcs rq) (mem s) = (inr p, c) /\
           views (fst (step s o)) = (rq_fun rq, pr_fun_dirty p) :: views s) \/
        (snd (step s o) <> RRun /\ views (fst (step s o)) = views s)
    | OEnd _ _ | ORaise _ => views (fst (step s o)) = tail (views s)
    | ORestart _ => views (fst (step s o)) = []
    | _ => views (fst (step s o)) = views s
    end.
  Proof.
    intros Hon. pose proof (step_frames md5 BK s o t0) as Hfr. unfold frames_step in Hfr.
    destruct o as [t' rq|t' xs xd g|t' r|t'|f ct m|f|dt| |funs|f|f]; simpl in Hon; try subst t';
      try (rewrite decide_True in Hfr by done); try (by rewrite Hfr).
    - destruct Hfr as [(Hrun & _)|[Hno Hth]]; [left|right; by rewrite Hth].
      split; [done|]. destruct (begin_run veq md5 s t0 rq Hrun) as (d & p & c & Hd & Hp & Hs).
      exists d, p, c. split_and!; [done|done|]. rewrite Hs, thread_insert, decide_True by done. done.
    - destruct (thread s t0) as [|fr frs]; rewrite Hfr; [done|]. simpl. f_equal.
      destruct g; [done|]. by rewrite <- list_fmap_compose.
    - rewrite Hfr. by destruct (thread s t0).
    - rewrite Hfr. by destruct (thread s t0).
  Qed.
  Lemma binv_other (s : sys) o :
    binv s -> on_thread t0 o -> match o with OBegin _ _ | OEnd _ _ => False | _ => True end -> binv (fst (step s o)).
  Proof.
    intros [Ho Hm Hd] Hon Hno.
    pose proof (step_functions veq md5 s o) as Hfun. cbv zeta in Hfun.
    pose proof (step_disk veq md5 s o) as Hdk.
    split; [by apply others_step| |].
    - intros h d L g. specialize (Hfun h).
      destruct o as [t' rq|t' xs xd g'|t' r|t'|f ct m|f|dt| |funs|f|f]; try done; rewrite Hfun; try apply Hm; try apply Hd.
      destruct (decide _); [done|]. apply Hm.
    - rewrite Hdk. by destruct o.
  Qed.

  (** A function that was found clean, or will be written. *)
  Lemma prepare_dirty (s : sys) (rq : request V R) p c :
    prepare md5 core0 (s_env s) (rq_fun rq) (rq_bound rq) (rq_srcs rq) (mem s) = (inr p, c) ->
    exists fid, check_function core0 (e_limit (s_env s)) (s_env s) (rq_fun rq) (mem s) = (inr (pr_fun_dirty p, fid), mem s).
  Proof.
    unfold prepare, bind. intros Ep0.
    destruct (check_function core0 (e_limit (s_env s)) (s_env s) (rq_fun rq) (mem s)) as [[x|[fd fid]] c1] eqn:E1;
      [done|].
    pose proof (check_function_pure _ _ _ _ _ _ _ E1) as ->. exists fid. f_equal. f_equal. f_equal.
    repeat (match type of Ep0 with context [match ?x with _ => _ end] => destruct x end; try done);
      injection Ep0 as <- _; done.
  Qed.

  Lemma hit_prepare (s : sys) t (rq : request V R) :
    snd (step s (OBegin t rq)) <> RRun -> fails md5 BK s (OBegin t rq) = false ->
    exists p c, prepare md5 core0 (s_env s) (rq_fun rq) (rq_bound rq) (rq_srcs rq) (mem s) = (inr p, c) /\
      pr_fun_dirty p = false.
  Proof.
    unfold fails. simpl. unfold begin_call. destruct (e_fun (s_env s) !! rq_fun rq) as [d|] eqn:Ed; [|done].
    simpl. rewrite (lifts_prepare veq md5 _ _ _ _ (s_db s)). unfold on_mem.
    destruct (prepare md5 core0 _ _ _ _ (mem s)) as [[x|p] c] eqn:Ep; [done|].
    intros Hno _. exists p, c. split; [done|].
    by destruct (pr_fun_dirty p).
  Qed.

  Lemma good_mono (fs : rows) ef (D D' : name -> Prop) g :
    (forall k, D' k -> D k) -> good fs ef D g -> good fs ef D' g.
  Proof.
    intros H Hg. eapply (good_change (fun _ => True)); [|done|exact Hg|done].
    intros k [d deps _ _ HD _] _. split_and!; auto.
  Qed.

  Lemma stack_note fs ef D above g h d vs es junk :
    stack_ok fs ef D above ((h, d) :: vs) es -> rank g < rank h -> good fs ef D g \/ above = Some g ->
    exists es', note_callee g (es ++ junk) = es' ++ junk /\ stack_ok fs ef D above ((h, d) :: vs) es'.
  Proof.
    destruct es as [|deps es]; [done|]. intros (H1 & H2 & H3 & H4) Hr Hg. exists ((deps ++ [g]) :: es).
    split; [done|]. split_and!; try done. intros k [Hk|Hk%elem_of_list_singleton]%elem_of_app; [auto|]. by subst.
  Qed.

  (** A call that begins. *)
  Lemma ginv_begin (s : sys) rq :
    binv s -> ginv s -> fine s (OBegin t0 rq) -> fails md5 BK s (OBegin t0 rq) = false ->
    ginv (fst (step s (OBegin t0 rq))).
  Proof.
    intros [Ho Hm Hd] (es & junk & Hcs & Hst) [_ _ Hb Hl] Hf.
    specialize (Hb t0 rq). specialize (Hl t0 rq eq_refl).
    pose proof (step_callstack veq md5 s (OBegin t0 rq)) as Hcs'. cbv beta iota in Hcs'.
    assert (c_functions (mem (fst (step s (OBegin t0 rq)))) = c_functions (mem s)) as Hfu.
    { apply map_eq. intros h. exact (step_functions veq md5 s (OBegin t0 rq) h). }
    pose proof (step_efun veq md5 s (OBegin t0 rq)) as Hef. cbv beta iota in Hef.
    pose proof (views_step s (OBegin t0 rq) eq_refl) as Hv. cbv beta iota in Hv.
    unfold ginv. rewrite Hfu, Hef, Hcs'.
    assert (forall k, writes (views s) k -> rank (rq_fun rq) < rank k) as HD.
    { intros k Hk. unfold writes in Hk. destruct (thread s t0) as [|fr frs] eqn:Et; [by apply elem_of_nil in Hk|].
      specialize (Hb fr frs eq_refl eq_refl). simpl in Hk, Hst.
      apply elem_of_cons in Hk as [Hk|Hk]; [injection Hk as -> _; done|].
      pose proof (stack_ranks _ _ _ _ _ _ _ _ Hst _ Hk) as Hr. simpl in Hr. lia. }
    (* the callee is noted in the entry of its caller *)
    assert (forall D vs', vs' = views s -> good (c_functions (mem s)) (e_fun (s_env s)) D (rq_fun rq) ->
      stack_ok (c_functions (mem s)) (e_fun (s_env s)) D None vs' es ->
      exists es' junk', note_callee (rq_fun rq) (s_callstack s) = es' ++ junk' /\
        stack_ok (c_functions (mem s)) (e_fun (s_env s)) D None vs' es') as Hnote.
    { intros D vs' -> Hg Hs. rewrite Hcs. destruct (thread s t0) as [|fr frs] eqn:Et.
      - destruct es; [|done]. exists [], (note_callee (rq_fun rq) junk). done.
      - destruct (stack_note _ _ _ _ (rq_fun rq) _ _ _ _ junk Hs) as (es' & E & Hs'); [by apply (Hb fr frs)|by left|].
        exists es', junk. done. }
    assert (forall (vs : list (name * bool)) D, vs = views s ->
      stack_ok (c_functions (mem s)) (e_fun (s_env s)) D (Some (rq_fun rq)) vs es ->
      exists es' junk', note_callee (rq_fun rq) (s_callstack s) = es' ++ junk' /\
        stack_ok (c_functions (mem s)) (e_fun (s_env s)) D (Some (rq_fun rq)) vs es') as Hnote'.
    { intros vs D -> Hs. rewrite Hcs. destruct (thread s t0) as [|fr frs] eqn:Et.
      - destruct es; [|done]. exists [], (note_callee (rq_fun rq) junk). done.
      - destruct (stack_note _ _ _ _ (rq_fun rq) _ _ _ _ junk Hs) as (es' & E & Hs'); [by apply (Hb fr frs)|by right|].
        exists es', junk. done. }
    assert (match views s with [] => True | (h', _) :: _ => rank (rq_fun rq) < rank h' end) as Hhead.
    { destruct (thread s t0) as [|fr frs] eqn:Et; [done|]. by apply (Hb fr frs). }
    destruct Hv as [(Hrun & d & p & c & Hdg & Hp & Hv)|[Hno Hv]].
    - rewrite Hrun, Hv. destruct (prepare_dirty _ _ _ _ Hp) as [fid Hck].
      destruct (pr_fun_dirty p) eqn:Edirty.
      + (* its row will be written *)
        set (D' := writes ((rq_fun rq, true) :: views s)).
        assert (~ good (c_functions (mem s)) (e_fun (s_env s)) (writes (views s)) (rq_fun rq)) as Hng.
        { intros Hg. pose proof (good_check _ _ _ _ _ Hm Hg Hl) as H. congruence. }
        assert (forall g, good (c_functions (mem s)) (e_fun (s_env s)) (writes (views s)) g ->
          good (c_functions (mem s)) (e_fun (s_env s)) D' g) as Hgg.
        { intros g Hg. eapply (good_change (fun _ => True)); [|done|exact Hg|done].
          intros k Hk _. split_and!; [done|done|]. unfold D', writes. intros [[= ->]|Hin]%elem_of_cons; [done|].
          by destruct Hk. }
        destruct (Hnote' (views s) D' eq_refl) as (es' & junk' & E & Hs').
        { eapply stack_change; [exact Hgg| |exact Hst]. done. }
        exists ([] :: es'), junk'. rewrite E. split; [done|]. split_and!; [|done|done|exact Hs'].
        by intros g Hg%elem_of_nil.
      + assert (good (c_functions (mem s)) (e_fun (s_env s)) (writes (views s)) (rq_fun rq)) as Hg.
        { eapply check_good; [done|exact HD|exact Hck]. }
        set (D' := writes ((rq_fun rq, false) :: views s)).
        assert (forall g, good (c_functions (mem s)) (e_fun (s_env s)) (writes (views s)) g ->
          good (c_functions (mem s)) (e_fun (s_env s)) D' g) as Hgg.
        { intros g. apply good_mono. unfold D', writes. intros k [[=]|Hin]%elem_of_cons. done. }
        destruct (Hnote' (views s) D' eq_refl) as (es' & junk' & E & Hs').
        { eapply stack_change; [exact Hgg| |exact Hst]. done. }
        exists ([] :: es'), junk'. rewrite E. split; [done|]. split_and!; [|auto|done|exact Hs'].
        by intros g Hg'%elem_of_nil.
    - rewrite Hv. destruct (hit_prepare s t0 rq Hno Hf) as (p & c & Hp & Hcl).
      destruct (prepare_dirty _ _ _ _ Hp) as [fid Hck]. rewrite Hcl in Hck.
      destruct (Hnote (writes (views s)) (views s) eq_refl) as (es' & junk' & E & Hs'); [|done|].
      { eapply check_good; [done|exact HD|exact Hck]. }
      exists es', junk'. split; [|done]. rewrite <- E.
      by destruct (snd (step s (OBegin t0 rq))).
  Qed.

  (** A call that returns: afterwards its function is up to date. *)
  Lemma ginv_end (s : sys) r fr frs :
    inv md5 s -> binv s -> ginv s -> thread s t0 = fr :: frs ->
    (exists deps cs, s_callstack s = deps :: cs /\
       good (if pr_fun_dirty (fr_prep fr) then <[rq_fun (fr_req fr) := (fr_digest fr, deps)]> (c_functions (mem s))
             else c_functions (mem s)) (e_fun (s_env s)) (writes (view <$> frs)) (rq_fun (fr_req fr))) /\
    ginv (fst (step s (OEnd t0 r))) /\ binv (fst (step s (OEnd t0 r))).
  Proof.
    intros Hinv [Ho Hm Hd] (es & junk & Hcs & Hst) Et.
    assert (frame_inv md5 (s_env s) (mem s) fr) as Hfr by (apply (in_frames _ _ Hinv t0); rewrite Et; by left).
    rewrite Et in Hst. cbn [fmap list_fmap] in Hst.
    assert (view fr = (rq_fun (fr_req fr), pr_fun_dirty (fr_prep fr))) as Hvw by done.
    rewrite Hvw in Hst. destruct es as [|deps es]; [done|].
    pose proof (stack_ranks _ _ _ _ _ _ _ _ Hst) as Hrk.
    destruct Hst as (H1 & H2 & H3 & H4). fold (view <$> frs) in *.
    pose proof (step_functions veq md5 s (OEnd t0 r)) as Hfun. cbv beta iota zeta in Hfun. rewrite Et, Hcs in Hfun. simpl app in Hfun. cbv iota in Hfun.
    set (fs' := if pr_fun_dirty (fr_prep fr) then <[rq_fun (fr_req fr) := (fr_digest fr, deps)]> (c_functions (mem s))
             else c_functions (mem s)) in *.
    assert (c_functions (mem (fst (step s (OEnd t0 r)))) = fs') as Hfs.
    { apply map_eq. intros h. specialize (Hfun h). unfold fs'.
      destruct (decide _) as [[Hx <-]|Hx]; rewrite Hfun.
      - rewrite Hx. by rewrite lookup_insert.
      - destruct (pr_fun_dirty _); [|done]. rewrite lookup_insert_ne; [done|]. intros Heq. by apply Hx. }
    set (D := writes ((rq_fun (fr_req fr), pr_fun_dirty (fr_prep fr)) :: (view <$> frs))) in *.
    assert (forall g, good (c_functions (mem s)) (e_fun (s_env s)) D g ->
      good fs' (e_fun (s_env s)) (writes (view <$> frs)) g) as Hgg.
    { intros g Hg. eapply (good_change (fun _ => True)); [|done|exact Hg|done].
      intros k [d L Hrow _ HD _] _. split_and!; [|done|].
      - unfold fs'. destruct (pr_fun_dirty (fr_prep fr)) eqn:E; [|done]. rewrite lookup_insert_ne; [done|].
        intros <-. apply HD. unfold D, writes. by left.
      - intros Hk. apply HD. unfold D, writes. by right. }
    assert (good fs' (e_fun (s_env s)) (writes (view <$> frs)) (rq_fun (fr_req fr))) as Hown.
    { destruct (pr_fun_dirty (fr_prep fr)) eqn:E.
      - eapply Good.
        + unfold fs'. by rewrite lookup_insert.
        + apply Hfr.
        + intros Hw. specialize (Hrk _ Hw). simpl in Hrk. lia.
        + intros k Hk _. destruct (H1 k Hk) as [_ [Hg|?]]; [|done]. by apply Hgg.
      - apply Hgg. by apply H2. }
    split; [by exists deps, (es ++ junk)|].
    assert (views (fst (step s (OEnd t0 r))) = view <$> frs) as Hv.
    { pose proof (views_step s (OEnd t0 r) eq_refl) as Hv. cbv beta iota in Hv. by rewrite Hv, Et. }
    split.
    - exists es, junk. rewrite Hfs, Hv.
      pose proof (step_efun veq md5 s (OEnd t0 r)) as Hef. cbv beta iota in Hef. rewrite Hef.
      pose proof (step_callstack veq md5 s (OEnd t0 r)) as Hcs'. cbv beta iota in Hcs'. rewrite Et, Hcs in Hcs'.
      split; [exact Hcs'|]. eapply stack_change; [exact Hgg| |exact H4]. intros g [= <-]. by left.
    - split; [by apply others_step| |].
      + intros h d L g. rewrite Hfs. unfold fs'. destruct (pr_fun_dirty (fr_prep fr)); [|apply Hm].
        destruct (decide (rq_fun (fr_req fr) = h)) as [<-|Hn].
        * rewrite lookup_insert. intros [= <- <-] Hg. by apply H1.
        * rewrite lookup_insert_ne by done. apply Hm.
      + pose proof (step_disk veq md5 s (OEnd t0 r)) as Hdk. cbv beta iota in Hdk. by rewrite Hdk.
  Qed.
End Good.
