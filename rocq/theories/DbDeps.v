(** A change of a cached function called by another one is detected, when the
    calls nested in the recorded run are properly bracketed. *)
From stdpp Require Import base list strings gmap.
From Coq Require Import ZArith Lia.
From Verif Require Import PyMonad DbModel DbSpec DbClaims CacheBackend CacheLift CacheFacts CacheProv DbHistory CacheDeps.

Section Deps.
  Context {V R : Type} (veq : V -> V -> bool) (md5 : content -> digest).
  Notation BK := (cache_backend (V := V) (R := R) veq md5).
  Notation core0 := (cache_core0 (R := R) veq).
  Notation cdb := (cdb V R).
  Notation frame := (frame V R name (name * nat) name).
  Notation sys := (sys V R (pdb V R) name (name * nat) name).
  Notation op := (op V R).
  Notation step := (step md5 BK).
  Notation runs := (runs md5 BK).
  Notation mem s := (p_mem (s_db s)).
  Notation disk s := (p_disk (s_db s)).

  (** What a clean function says about the functions it is recorded to depend on. *)
  Lemma clean_dep n e fn (c : cdb) fid c' d deps g :
    check_function core0 n e fn c = (inr (false, fid), c') ->
    c_functions c !! fn = Some (d, deps) -> g ∈ deps -> g <> fn ->
    exists d' deps', e_fun e !! g = Some d' /\ c_functions c !! g = Some (d', deps').
  Proof.
    intros H Hrow Hg Hne. destruct n as [|n]; [done|]. simpl in H.
    destruct (e_fun e !! fn) as [d0|]; [|done].
    unfold bind in H. cbn in H. rewrite Hrow in H. cbn in H.
    destruct (String.eqb d0 d); cbn in H; [|done].
    assert (g ∈ filter (fun x => x <> fn) deps) as Hin by (by apply elem_of_list_filter).
    clear Hrow Hg. revert H Hin. generalize (filter (fun x => x <> fn) deps). intros ds.
    set (chk := (fix check_deps (ds : list name) : M _ bool := _)).
    assert (forall ds c1, chk ds c = (inr false, c1) -> g ∈ ds ->
      exists d' deps', e_fun e !! g = Some d' /\ c_functions c !! g = Some (d', deps')) as Hall.
    { clear ds. induction ds as [|dep ds IH]; intros c1 Hc Hin; [by apply elem_of_nil in Hin|].
      cbn in Hc. unfold bind in Hc.
      destruct (check_function core0 n e dep c) as [[x|[b i]] c2] eqn:E; [done|]. cbn in Hc.
      destruct b; [done|].
      pose proof (check_function_pure _ _ _ _ _ _ _ E) as ->.
      apply elem_of_cons in Hin as [->|Hin]; [|by eapply IH].
      destruct (check_function_spec _ _ _ _ _ _ _ _ E) as (d' & Hd & _ & _ & Hclean).
      destruct (Hclean eq_refl) as [deps' ?]. eauto. }
    intros H Hin. destruct (chk ds c) as [[x|b] c1] eqn:E; [done|]. cbn in H.
    injection H as -> _ _. by eapply Hall.
  Qed.

  Lemma hits_clean (s : sys) t rq :
    hits md5 BK s t rq ->
    exists fid c', check_function core0 (e_limit (s_env s)) (s_env s) (rq_fun rq) (mem s) = (inr (false, fid), c').
  Proof.
    intros (r & srcs & dsts & H). simpl in H. unfold begin_call in H.
    destruct (e_fun (s_env s) !! rq_fun rq) as [d|] eqn:Ed; [|done].
    destruct (prepare md5 _ _ _ _ _ _) as [res db] eqn:Ep.
    destruct res as [x|p]; [done|].
    destruct (pr_fun_dirty p) eqn:Edirty; [done|]. clear H.
    simpl in Ep. rewrite (lifts_prepare veq md5 _ _ _ _ (s_db s)) in Ep. unfold on_mem in Ep.
    destruct (prepare md5 core0 _ _ _ _ (mem s)) as [res c] eqn:Ep0. injection Ep as -> _.
    unfold prepare, bind in Ep0.
    destruct (check_function core0 (e_limit (s_env s)) (s_env s) (rq_fun rq) (mem s)) as [[x|[fd fid]] c1] eqn:E1;
      [done|].
    exists fid, c1. f_equal. f_equal. f_equal.
    repeat (match type of Ep0 with context [match ?x with _ => _ end] => destruct x end; try done);
      injection Ep0 as <- _; done.
  Qed.

  Variable s0 : sys.
  Hypothesis Hfresh : fresh pdb_empty s0.

  Lemma s0_threads : s_threads s0 = ∅.
  Proof. by destruct Hfresh as (_ & _ & ? & _). Qed.

  Lemma frame_called os t fr :
    fr ∈ thread (runs s0 os) t -> OBegin t (fr_req fr) ∈ os.
  Proof.
    intros (l1 & l2 & Ht)%elem_of_list_split.
    destruct (frames_began md5 BK s0 os s0_threads t l1 fr l2 Ht) as (a & b & -> & _).
    apply elem_of_app. right. by left.
  Qed.

  (** Functions never called have no row. *)
  Lemma uncalled os fn : not_called fn os ->
    c_functions (mem (runs s0 os)) !! fn = None /\ c_functions (disk (runs s0 os)) !! fn = None.
  Proof.
    induction os as [|o os IH] using rev_ind; intros Hn.
    { simpl. destruct Hfresh as (-> & _). done. }
    assert (not_called fn os) as Hn' by (intros t rq H; apply (Hn t); apply elem_of_app; by left).
    destruct (IH Hn') as [Hm Hd]. rewrite runs_snoc.
    pose proof (step_functions veq md5 (runs s0 os) o fn) as Hf. cbv zeta in Hf.
    split.
    - destruct o as [t rq|t xs xd g|t r|t|f ct m|f|dt| |funs|f|f]; try (by rewrite Hf).
      + destruct (thread (runs s0 os) t) as [|fr frs] eqn:Et; [by rewrite Hf|].
        destruct (s_callstack _); [by rewrite Hf|].
        destruct (decide _) as [[_ Hfn]|]; [|by rewrite Hf].
        exfalso. apply (Hn' t (fr_req fr)); [|done]. apply (frame_called os). rewrite Et. by left.
      + rewrite Hf. by destruct (decide _).
    - rewrite step_disk. by destruct o.
  Qed.

  (** Running calls belong to the functions of the present process. *)
  Lemma frames_current os t fr : fr ∈ thread (runs s0 os) t ->
    e_fun (s_env (runs s0 os)) !! rq_fun (fr_req fr) = Some (fr_digest fr).
  Proof.
    revert fr. induction os as [|o os IH] using rev_ind; intros fr.
    { simpl. unfold thread. rewrite s0_threads, lookup_empty. by intros ?%elem_of_nil. }
    rewrite runs_snoc, step_efun.
    pose proof (step_frames md5 BK (runs s0 os) o t) as Hst. unfold frames_step in Hst.
    destruct o as [t' rq|t' xs xd g|t' r|t'|f ct m|f|dt| |funs|f|f]; try (rewrite Hst; by apply IH).
    - destruct (decide (t' = t)) as [->|]; [|rewrite Hst; by apply IH].
      destruct Hst as [(_ & d & p & Hd & ->)|[_ ->]]; [|by apply IH].
      intros [->|Hin]%elem_of_cons; [done|by apply IH].
    - destruct (decide (t' = t)) as [->|]; [|rewrite Hst; by apply IH].
      destruct (thread (runs s0 os) t) as [|fr0 frs] eqn:Et; [rewrite Hst; by intros ?%elem_of_nil|].
      rewrite Hst. intros [->|Hin]%elem_of_cons.
      + apply (IH fr0). by left.
      + destruct g; [apply IH; by right|].
        apply elem_of_list_fmap in Hin as (fr' & -> & Hin). apply (IH fr'). by right.
    - destruct (decide (t' = t)) as [->|]; [|rewrite Hst; by apply IH].
      rewrite Hst. intros Hin. apply IH. destruct (thread (runs s0 os) t); [done|by right].
    - destruct (decide (t' = t)) as [->|]; [|rewrite Hst; by apply IH].
      rewrite Hst. intros Hin. apply IH. destruct (thread (runs s0 os) t); [done|by right].
    - rewrite Hst. by intros ?%elem_of_nil.
  Qed.

  (** One run of [rq] by thread [t], with body [b]. *)
  Variables (t : nat) (rq : request V R) (a b : list op).
  Hypothesis Hrun : still_running md5 BK s0 t rq a b.
  Hypothesis Hthread : Forall (on_thread t) b.
  Hypothesis Hraise : Forall no_raise b.
  Hypothesis Hfirst : not_called (rq_fun rq) (a ++ b).
  Notation fn := (rq_fun rq).
  Notation at_ b' := (runs s0 (a ++ OBegin t rq :: b')).
  Notation n0 := (depth (runs s0 a) t).

  Lemma at_snoc b' o : at_ (b' ++ [o]) = fst (step (at_ b') o).
  Proof.
    change (a ++ OBegin t rq :: b' ++ [o]) with (a ++ (OBegin t rq :: b') ++ [o]).
    by rewrite app_assoc, runs_snoc.
  Qed.

  Lemma at_nil : at_ [] = fst (step (runs s0 a) (OBegin t rq)).
  Proof. apply runs_snoc. Qed.

  Lemma at_deep b1 b2 : b = b1 ++ b2 -> n0 < depth (at_ b1) t.
  Proof. apply Hrun. Qed.

  Lemma no_restart funs : ORestart funs ∈ b -> False.
  Proof.
    intros (b1 & b2 & ->)%elem_of_list_split.
    pose proof (proj2 Hrun (b1 ++ [ORestart funs]) b2) as H. rewrite <- app_assoc in H.
    specialize (H eq_refl). rewrite at_snoc in H. unfold depth at 2, thread in H. simpl in H.
    rewrite lookup_empty in H. simpl in H. lia.
  Qed.

  Lemma at_efun b1 b2 : b = b1 ++ b2 -> e_fun (s_env (at_ b1)) = e_fun (s_env (runs s0 a)).
  Proof.
    revert b2. induction b1 as [|o b1 IH] using rev_ind; intros b2 Hb.
    { rewrite at_nil, step_efun. done. }
    rewrite at_snoc, step_efun. rewrite <- app_assoc in Hb.
    destruct o; try (by eapply IH).
    exfalso. eapply no_restart. rewrite Hb. apply elem_of_app. right. by left.
  Qed.

  (** The function has no row until the run is over. *)
  Lemma at_row b1 b2 : b = b1 ++ b2 ->
    c_functions (mem (at_ b1)) !! fn = None /\ c_functions (disk (at_ b1)) !! fn = None.
  Proof.
    revert b2. induction b1 as [|o b1 IH] using rev_ind; intros b2 Hb.
    { rewrite at_nil. destruct (uncalled a fn) as [Hm Hd].
      { intros t1 rq1 H. apply (Hfirst t1). apply elem_of_app. by left. }
      pose proof (step_functions veq md5 (runs s0 a) (OBegin t rq) fn) as Hf. cbv zeta in Hf.
      rewrite step_disk. by rewrite Hf. }
    rewrite at_snoc. pose proof Hb as Hb'. rewrite <- app_assoc in Hb.
    destruct (IH _ Hb) as [Hm Hd].
    pose proof (step_functions veq md5 (at_ b1) o fn) as Hf. cbv zeta in Hf.
    assert (on_thread t o) as Hon.
    { eapply Forall_forall; [exact Hthread|]. rewrite Hb. apply elem_of_app. right. by left. }
    split.
    - destruct o as [t' rq'|t' xs xd g|t' r|t'|f ct m|f|dt| |funs|f|f]; try (by rewrite Hf).
      + simpl in Hon. subst t'.
        destruct (thread (at_ b1) t) as [|fr frs] eqn:Et; [by rewrite Hf|].
        destruct (s_callstack _); [by rewrite Hf|].
        destruct (decide _) as [[_ Hfn]|]; [|by rewrite Hf].
        exfalso.
        (* the frame of this call must have begun at the end of [a] *)
        destruct (frames_began md5 BK s0 _ s0_threads t [] fr frs Et) as (a' & c' & Heq & _ & Hlen & _).
        assert (a' = a) as ->.
        { apply app_eq_inv in Heq as [(k & Ha & Hk)|(k & Ha & Hk)].
          - destruct k as [|x k]; [by rewrite app_nil_r in Ha|].
            injection Hk as <- Hk. exfalso.
            apply (Hfirst t (fr_req fr)); [|done]. apply elem_of_app.
            left. rewrite Ha. apply elem_of_app. right. by left.
          - destruct k as [|x k]; [by rewrite app_nil_r in Ha|].
            injection Hk as <- Hk. exfalso.
            apply (Hfirst t (fr_req fr)); [|done]. apply elem_of_app.
            right. rewrite Hb, Hk. apply elem_of_app. left. apply elem_of_app. right. by left. }
        pose proof (at_deep _ _ Hb') as Hdeep.
        pose proof (step_frames md5 BK (at_ b1) (OEnd t r) t) as Hst. unfold frames_step in Hst.
        rewrite decide_True in Hst by done. rewrite at_snoc in Hdeep.
        unfold depth at 2 in Hdeep. rewrite Hst, Et in Hdeep. simpl in Hdeep. lia.
      + rewrite Hf. by destruct (decide _).
    - rewrite step_disk. by destruct o.
  Qed.

  (** The call stack of the database mirrors the calls running inside this one. *)
  Lemma bracket b1 b2 : b = b1 ++ b2 ->
    exists X L cs Y fr Z,
      s_callstack (at_ b1) = X ++ L :: cs /\ thread (at_ b1) t = Y ++ fr :: Z /\
      length X = length Y /\ length Z = n0 /\
      fr_req fr = rq /\ pr_fun_dirty (fr_prep fr) = true /\
      (forall g, calls_during md5 BK s0 t rq a b1 g -> g ∈ L).
  Proof.
    revert b2. induction b1 as [|o b1 IH] using rev_ind; intros b2 Hb.
    { rewrite at_nil, step_callstack. destruct Hrun as [Hr _]. rewrite Hr.
      destruct (begin_row veq md5 (runs s0 a) t rq) as (d & Hd & [(deps & Hrow)|(p & _ & Hp & Hth)]).
      { intros x. by rewrite Hr. }
      { destruct (uncalled a fn) as [Hm _]; [|by rewrite Hm in Hrow].
        intros t1 rq1 H. apply (Hfirst t1). apply elem_of_app. by left. }
      exists [], [], (note_callee fn (s_callstack (runs s0 a))), [], (Frame rq d p [] [] (s_env (runs s0 a))),
        (thread (runs s0 a) t).
      split_and!; try done. intros g (b1 & rq' & b2' & H & _). by destruct b1. }
    rewrite at_snoc. pose proof Hb as Hb'. rewrite <- app_assoc in Hb.
    destruct (IH _ Hb) as (X & L & cs & Y & fr & Z & Hcs & Hth & HXY & HZ & Hrq & Hdirty & Hcalls).
    assert (o ∈ b) as Hob by (rewrite Hb; apply elem_of_app; right; by left).
    assert (on_thread t o) as Hon by (by eapply Forall_forall).
    assert (no_raise o) as Hno by (by eapply Forall_forall).
    assert (depth (at_ b1) t = Datatypes.S (length Y + n0)) as Hdep.
    { unfold depth at 1. rewrite Hth, app_length. simpl. lia. }
    assert (forall g, (forall rq', o <> OBegin t rq') ->
              calls_during md5 BK s0 t rq a (b1 ++ [o]) g -> calls_during md5 BK s0 t rq a b1 g) as Hkeep.
    { intros g Hnb (c1 & rq' & c2 & H & Hg & Hlev).
      destruct (snoc_split _ _ _ _ H) as [[? _]|(c2' & H2 & Hb1)]; [done|].
      destruct c2' as [|y c2']; [injection H2 as <- _; by edestruct Hnb|].
      injection H2 as <- ->. exists c1, rq', c2'. done. }
    pose proof (step_callstack veq md5 (at_ b1) o) as Hcs'.
    pose proof (step_frames md5 BK (at_ b1) o t) as Hst. unfold frames_step in Hst.
    destruct o as [t' rq'|t' xs xd g|t' r|t'|f ct m|f|dt| |funs|f|f]; simpl in Hon; try subst t'; try done;
      try (rewrite Hcs', Hst; exists X, L, cs, Y, fr, Z; split_and!; auto; intros; apply Hcalls, Hkeep; done).
    - (* a nested call *)
      assert (exists X' L', note_callee (rq_fun rq') (s_callstack (at_ b1)) = X' ++ L' :: cs /\
        length X' = length X /\
        (forall g, calls_during md5 BK s0 t rq a (b1 ++ [OBegin t rq']) g -> g ∈ L')) as (X' & L' & Hn & HX' & HL').
      { rewrite Hcs. destruct X as [|x X]; simpl.
        - exists [], (L ++ [rq_fun rq']). split_and!; try done.
          intros g (c1 & rq1 & c2 & H & Hg & Hlev).
          destruct (snoc_split _ _ _ _ H) as [[? _]|(c2' & H2 & Hb1)]; [done|].
          apply elem_of_app. destruct c2' as [|y c2'].
          + injection H2 as -> _. right. subst g. by left.
          + injection H2 as <- ->. left. apply Hcalls. exists c1, rq1, c2'. done.
        - exists ((x ++ [rq_fun rq']) :: X), L. split_and!; try done.
          intros g (c1 & rq1 & c2 & H & Hg & Hlev).
          destruct (snoc_split _ _ _ _ H) as [[? _]|(c2' & H2 & Hb1)]; [done|].
          destruct c2' as [|y c2'].
          + exfalso. injection H2 as -> _. rewrite app_nil_r in Hb1. subst c1.
            rewrite Hdep in Hlev. simpl in HXY. lia.
          + injection H2 as <- ->. apply Hcalls. exists c1, rq1, c2'. done. }
      rewrite decide_True in Hst by done.
      destruct Hst as [(Hr & d & p & Hd & Hst)|[Hr Hst]]; rewrite Hst, Hcs', Hn.
      + rewrite Hr. exists ([] :: X'), L', cs, (Frame rq' d p [] [] (s_env (at_ b1)) :: Y), fr, Z.
        rewrite Hth. split_and!; try done. simpl. lia.
      + exists X', L', cs, Y, fr, Z. split_and!; try done; [by destruct (snd _)|lia].
    - (* external dependencies *)
      rewrite decide_True in Hst by done. rewrite Hcs'.
      destruct Y as [|y Y]; rewrite Hth in Hst; cbn [app] in Hst; rewrite Hst.
      + exists X, L, cs, [], (frame_add xs xd fr), (if g then Z else frame_add xs xd <$> Z).
        split_and!; try done; [by destruct g; rewrite ?fmap_length|]. intros; apply Hcalls, Hkeep; done.
      + destruct g.
        * exists X, L, cs, (frame_add xs xd y :: Y), fr, Z.
          split_and!; try done. intros; apply Hcalls, Hkeep; done.
        * exists X, L, cs, (frame_add xs xd y :: (frame_add xs xd <$> Y)), (frame_add xs xd fr),
            (frame_add xs xd <$> Z).
          split_and!; try done.
          -- by rewrite fmap_app.
          -- simpl. by rewrite fmap_length.
          -- by rewrite fmap_length.
          -- intros; apply Hcalls, Hkeep; done.
    - (* a nested call returns *)
      rewrite decide_True in Hst by done.
      pose proof (at_deep _ _ Hb') as Hdeep. rewrite at_snoc in Hdeep.
      unfold depth at 2 in Hdeep. rewrite Hst, Hth in Hdeep.
      destruct Y as [|y Y]; simpl in Hdeep; [lia|].
      rewrite Hth in Hst, Hcs'. cbn [app tail] in Hst, Hcs'. rewrite Hst, Hcs', Hcs.
      destruct X as [|x X]; [done|]. exists X, L, cs, Y, fr, Z. simpl in *.
      split_and!; try done; [lia|]. intros; apply Hcalls, Hkeep; done.
    - exfalso. by eapply no_restart.
  Qed.

  (** Some call of [g] made during [b1] did not fail at once. *)
  Definition called_well (b1 : list op) (g : name) : Prop :=
    exists c1 rq' c2, b1 = c1 ++ OBegin t rq' :: c2 /\ rq_fun rq' = g /\
      forall x, snd (step (at_ c1) (OBegin t rq')) <> RErr x.

  (** The row of [g] is absent or has digest [d]. *)
  Definition row_ok (c : cdb) (g : name) (d : digest) : Prop :=
    forall d' deps, c_functions c !! g = Some (d', deps) -> d' = d.

  Lemma called_row b1 b2 g : b = b1 ++ b2 -> called_well b1 g ->
    exists d, e_fun (s_env (runs s0 a)) !! g = Some d /\
      (row_ok (mem (at_ b1)) g d \/
       exists Y fr Z, thread (at_ b1) t = Y ++ fr :: Z /\ n0 < length Z /\
         rq_fun (fr_req fr) = g /\ pr_fun_dirty (fr_prep fr) = true).
  Proof.
    revert b2. induction b1 as [|o b1 IH] using rev_ind; intros b2 Hb (c1 & rq' & c2 & H & Hg & Hwell).
    { by destruct c1. }
    rewrite at_snoc. pose proof Hb as Hb'. rewrite <- app_assoc in Hb.
    assert (o ∈ b) as Hob by (rewrite Hb; apply elem_of_app; right; by left).
    assert (on_thread t o) as Hon by (by eapply Forall_forall).
    assert (no_raise o) as Hno by (by eapply Forall_forall).
    pose proof (at_efun _ _ Hb) as Hefun.
    destruct (bracket _ _ Hb) as (X & L & cs & Y0 & fr0 & Z0 & Hcs & Hth0 & HXY & HZ & _).
    destruct (snoc_split _ _ _ _ H) as [[? _]|(c2' & H2 & Hb1)]; [done|].
    pose proof (step_functions veq md5 (at_ b1) o g) as Hf. cbv zeta in Hf.
    pose proof (step_frames md5 BK (at_ b1) o t) as Hst. unfold frames_step in Hst.
    destruct c2' as [|y c2'].
    { injection H2 as <- ->. rewrite app_nil_r in Hb1. subst c1.
      destruct (begin_row veq md5 (at_ b1) t rq' Hwell) as (d & Hd & [(deps & Hrow)|(p & Hr & Hp & Hth)]);
        rewrite Hg, Hefun in Hd; exists d; (split; [done|]).
      - left. intros d' deps'. rewrite Hf, <- Hg, Hrow. congruence.
      - right. eexists [], _, (thread (at_ b1) t). rewrite Hth. split_and!; try done.
        apply (at_deep _ _ Hb). }
    injection H2 as <- ->.
    destruct (IH _ Hb) as (d & Hd & Hor).
    { by exists c1, rq', c2'. }
    exists d. split; [done|].
    assert (c_functions (mem (fst (step (at_ b1) o))) !! g = c_functions (mem (at_ b1)) !! g ->
            row_ok (mem (at_ b1)) g d -> row_ok (mem (fst (step (at_ b1) o))) g d) as Hsame.
    { intros E Hok d' deps. rewrite E. apply Hok. }
    destruct o as [t' rq1|t' xs xd gg|t' r|t'|f ct m|f|dt| |funs|f|f]; simpl in Hon; try subst t'; try done;
      try (destruct Hor as [Hok|Hor]; [left; by apply Hsame|right; rewrite Hst; exact Hor]).
    - destruct Hor as [Hok|(Y & fr & Z & Hth & HZl & Hfg & Hfd)]; [left; by apply Hsame|right].
      rewrite decide_True in Hst by done. destruct Hst as [(_ & d1 & p & _ & ->)|[_ ->]].
      + eexists (_ :: Y), fr, Z. rewrite Hth. done.
      + by exists Y, fr, Z.
    - destruct Hor as [Hok|(Y & fr & Z & Hth & HZl & Hfg & Hfd)]; [left; by apply Hsame|right].
      rewrite decide_True in Hst by done.
      destruct Y as [|y Y]; rewrite Hth in Hst; cbn [app] in Hst; rewrite Hst.
      + eexists [], _, _. split; [done|]. destruct gg; rewrite ?fmap_length; done.
      + destruct gg.
        * by exists (frame_add xs xd y :: Y), fr, Z.
        * exists (frame_add xs xd y :: (frame_add xs xd <$> Y)), (frame_add xs xd fr), (frame_add xs xd <$> Z).
          rewrite fmap_app, fmap_length. done.
    - destruct (thread (at_ b1) t) as [|fr1 frs] eqn:Et; [by destruct Y0|].
      rewrite Hcs in Hf. destruct (X ++ L :: cs) as [|deps cs'] eqn:Ecs; [by destruct X|].
      assert (fr1 ∈ thread (at_ b1) t) as Hcur by (rewrite Et; by left).
      apply (frames_current _ t) in Hcur. rewrite Hefun in Hcur.
      assert (rq_fun (fr_req fr1) = g -> pr_fun_dirty (fr_prep fr1) = true ->
              row_ok (mem (fst (step (at_ b1) (OEnd t r)))) g d) as Hnew.
      { intros Hg1 Hd1. rewrite decide_True in Hf by done. intros d' deps'. rewrite Hf.
        rewrite Hg1 in Hcur. congruence. }
      destruct Hor as [Hok|(Y & fr & Z & Hth & HZl & Hfg & Hfd)].
      + left. destruct (decide (pr_fun_dirty (fr_prep fr1) = true /\ rq_fun (fr_req fr1) = g))
          as [[??]|Hno1]; [by apply Hnew|]. by apply Hsame.
      + destruct Y as [|y Y]; injection Hth as -> ->.
        * left. by apply Hnew.
        * right. rewrite decide_True in Hst by done. rewrite Hst. by exists Y, fr, Z.
    - exfalso. by eapply no_restart.
    - destruct Hor as [Hok|Hor]; [left|right; by rewrite Hst].
      intros d' deps. rewrite Hf. destruct (decide _); [done|]. apply Hok.
  Qed.

  (** The run returns. *)
  Variables (r : R) (g : name).
  Hypothesis Hlevel : depth (at_ b) t = Datatypes.S n0.
  Hypothesis Hcalls : calls_during md5 BK s0 t rq a b g.
  Hypothesis Hwell : called_well b g.
  Notation past c := (runs s0 (a ++ OBegin t rq :: b ++ OEnd t r :: c)).

  Lemma past_snoc c o : past (c ++ [o]) = fst (step (past c) o).
  Proof.
    rewrite <- runs_snoc. f_equal. rewrite <- app_assoc. simpl. by rewrite <- app_assoc.
  Qed.

  Lemma past_nil : past [] = fst (step (at_ b) (OEnd t r)).
  Proof. rewrite <- at_snoc. done. Qed.

  Lemma past_depth : depth (past []) t = n0.
  Proof.
    rewrite past_nil. unfold depth at 1.
    pose proof (step_frames md5 BK (at_ b) (OEnd t r) t) as Hst. unfold frames_step in Hst.
    rewrite decide_True in Hst by done. rewrite Hst.
    unfold depth at 1 in Hlevel. destruct (thread (at_ b) t); simpl in *; lia.
  Qed.

  (** What the database says about the two functions from then on. *)
  Definition knows (c : cdb) (d : digest) : Prop :=
    c_functions c !! fn = None \/
    (exists d' deps, c_functions c !! fn = Some (d', deps) /\ g ∈ deps) /\ row_ok c g d.

  Lemma g_called : exists t1 rq1, OBegin t1 rq1 ∈ b /\ rq_fun rq1 = g.
  Proof.
    destruct Hcalls as (b1 & rq' & b2 & -> & ? & _). exists t, rq'. split; [|done].
    apply elem_of_app. right. by left.
  Qed.

  Lemma g_fn : g <> fn.
  Proof.
    destruct g_called as (t1 & rq1 & Hin & <-). apply (Hfirst t1).
    apply elem_of_app. by right.
  Qed.

  Lemma past_knows c : not_called fn c -> not_called g c ->
    exists d, e_fun (s_env (runs s0 a)) !! g = Some d /\
      knows (mem (past c)) d /\ knows (disk (past c)) d /\
      (forall t1 fr, fr ∈ thread (past c) t1 -> rq_fun (fr_req fr) = g -> fr_digest fr = d).
  Proof.
    intros Hnf Hng.
    assert (forall c1 c2 t1 fr, c = c1 ++ c2 -> fr ∈ thread (past c1) t1 -> rq_fun (fr_req fr) <> fn) as Hframes.
    { intros c1 c2 t1 fr -> (l1 & l2 & Ht)%elem_of_list_split Hfn.
      destruct (frames_began md5 BK s0 _ s0_threads t1 l1 fr l2 Ht) as (a' & c' & Heq & [Hr' Hd'] & Hlen & _).
      assert (a' = a) as ->.
      { apply app_eq_inv in Heq as [(k & Ha & Hk)|(k & Ha & Hk)].
        - destruct k as [|x k]; [by rewrite app_nil_r in Ha|].
          injection Hk as <- Hk. exfalso.
          apply (Hfirst t1 (fr_req fr)); [|done]. apply elem_of_app.
          left. rewrite Ha. apply elem_of_app. right. by left.
        - destruct k as [|x k]; [by rewrite app_nil_r in Ha|].
          injection Hk as <- Hk. exfalso.
          assert (OBegin t1 (fr_req fr) ∈ b ++ OEnd t r :: c1) as Hin.
          { rewrite Hk. apply elem_of_app. right. by left. }
          apply elem_of_app in Hin as [Hin|[[=]|Hin]%elem_of_cons].
          + apply (Hfirst t1 (fr_req fr)); [|done]. apply elem_of_app. by right.
          + apply (Hnf t1 (fr_req fr)); [|done]. apply elem_of_app. by left. }
      apply app_inv_head in Heq. injection Heq as <- Hreq Hrest.
      specialize (Hd' (b ++ [OEnd t r]) c1). rewrite <- Hrest, <- app_assoc in Hd'. specialize (Hd' eq_refl).
      rewrite <- Hreq in Hd'.
      pose proof past_depth as Hpd. lia. }
    destruct (called_row b [] g) as (d & Hd & Hor); [by rewrite app_nil_r|done|].
    exists d. split; [done|].
    destruct (bracket b []) as (X & L & cs & Y & fr & Z & Hcs & Hth & HXY & HZ & Hrq & Hdirty & HL);
      [by rewrite app_nil_r|].
    pose proof Hlevel as Hlv. unfold depth at 1 in Hlv. rewrite Hth, app_length in Hlv. simpl in Hlv.
    destruct Y as [|y Y]; [|simpl in Hlv; lia]. destruct X as [|x X]; [|done]. cbn [app] in Hth, Hcs.
    destruct Hor as [Hok|(Y & fr' & Z' & Hth' & HZ' & _)].
    2:{ exfalso. rewrite Hth in Hth'. destruct Y as [|y Y]; injection Hth' as -> ->; [lia|].
        rewrite app_length in HZ. simpl in HZ. lia. }
    clear HXY Hlv.
    enough (forall c1 c2, c = c1 ++ c2 ->
      knows (mem (past c1)) d /\ knows (disk (past c1)) d /\
      (forall t1 fr, fr ∈ thread (past c1) t1 -> rq_fun (fr_req fr) = g -> fr_digest fr = d)) as Hall.
    { apply (Hall c []). by rewrite app_nil_r. }
    induction c1 as [|o c1 IH] using rev_ind; intros c2 Hc.
    - rewrite past_nil. split_and!.
      + right. pose proof (step_functions veq md5 (at_ b) (OEnd t r) fn) as Hf. cbv zeta iota in Hf.
        rewrite Hth, Hcs in Hf. rewrite decide_True in Hf by (by rewrite Hrq). split.
        * exists (fr_digest fr), L. split; [done|]. by apply HL.
        * intros d' deps. pose proof (step_functions veq md5 (at_ b) (OEnd t r) g) as Hg. cbv zeta iota in Hg.
          rewrite Hth, Hcs in Hg. rewrite decide_False in Hg.
          2:{ intros [_ H]. rewrite Hrq in H. by destruct g_fn. }
          rewrite Hg. apply Hok.
      + left. rewrite step_disk. apply (at_row b []). by rewrite app_nil_r.
      + rewrite <- past_nil. intros t1 fr1 Hin Hfg.
        pose proof (frames_current _ _ _ Hin) as H.
        rewrite past_nil, step_efun in H. rewrite (at_efun b []) in H by (by rewrite app_nil_r).
        rewrite Hfg in H. congruence.
    - rewrite <- app_assoc in Hc. destruct (IH _ Hc) as (Hm & Hk & Hfr).
      assert (o ∈ c) as Hoc by (rewrite Hc; apply elem_of_app; right; by left).
      rewrite past_snoc. split_and!.
      + assert (forall h, c_functions (mem (fst (step (past c1) o))) !! h = c_functions (mem (past c1)) !! h \/
                  h <> fn /\ (c_functions (mem (fst (step (past c1) o))) !! h = None \/
                    exists t1 fr1 deps, fr1 ∈ thread (past c1) t1 /\ rq_fun (fr_req fr1) = h /\
                      c_functions (mem (fst (step (past c1) o))) !! h = Some (fr_digest fr1, deps)) \/
                  c_functions (mem (fst (step (past c1) o))) !! h = None \/
                  exists funs, o = ORestart funs) as Hstep.
        { intros h. pose proof (step_functions veq md5 (past c1) o h) as Hf. cbv zeta in Hf.
          destruct o as [t' rq1|t' xs xd gg|t' r'|t'|f ct m|f|dt| |funs|f|f]; try (by left).
          - destruct (thread (past c1) t') as [|fr1 frs] eqn:Et; [by left|].
            destruct (s_callstack (past c1)) as [|deps cs1]; [by left|].
            destruct (decide _) as [[H1 H2]|]; [|by left].
            right; left. assert (fr1 ∈ thread (past c1) t') as Hin by (rewrite Et; by left).
            split; [rewrite <- H2; by eapply Hframes|]. right. eauto 10.
          - right; right; right. eauto.
          - destruct (decide _); [right; right; by left|by left]. }
        assert (forall funs, o = ORestart funs -> knows (mem (fst (step (past c1) o))) d) as Hre.
        { intros funs ->. pose proof (step_functions veq md5 (past c1) (ORestart funs)) as Hf. cbv zeta in Hf.
          destruct Hk as [Hk|[(d' & deps & Hk1 & Hk2) Hk3]].
          - left. by rewrite Hf.
          - right. split; [|intros d1 deps1; rewrite Hf; apply Hk3].
            exists d', deps. by rewrite Hf. }
        destruct (Hstep fn) as [Hfn|[[? _]|[Hfn|[funs ->]]]]; [|done|by left|by eapply Hre].
        destruct (Hstep g) as [Hg|Hg].
        * destruct Hm as [Hm|[(d' & deps & Hm1 & Hm2) Hm3]]; [left; by rewrite Hfn|].
          right. split; [exists d', deps; by rewrite Hfn|]. intros d1 deps1. rewrite Hg. apply Hm3.
        * destruct Hm as [Hm|[(d' & deps & Hm1 & Hm2) Hm3]]; [left; by rewrite Hfn|].
          destruct Hg as [[_ [Hg|(t1 & fr1 & deps1 & Hin & Hfg & Hg)]]|[Hg|[funs ->]]]; [| | |by eapply Hre];
            right; (split; [exists d', deps; by rewrite Hfn|]); intros d2 deps2; rewrite Hg; [done| |done].
          intros [= <- _]. by eapply Hfr.
      + rewrite step_disk. by destruct o.
      + intros t1 fr1.
        pose proof (step_frames md5 BK (past c1) o t1) as Hst. unfold frames_step in Hst.
        destruct o as [t' rq1|t' xs xd gg|t' r'|t'|f ct m|f|dt| |funs|f|f]; try (rewrite Hst; by apply (Hfr t1)).
        * destruct (decide (t' = t1)) as [->|]; [|rewrite Hst; by apply (Hfr t1)].
          destruct Hst as [(_ & d1 & p & Hd1 & ->)|[_ ->]]; [|by apply (Hfr t1)].
          intros [->|Hin]%elem_of_cons; [|by apply (Hfr t1)]. simpl. intros E.
          exfalso. by apply (Hng t1 rq1).
        * destruct (decide (t' = t1)) as [->|]; [|rewrite Hst; by apply (Hfr t1)].
          destruct (thread (past c1) t1) as [|fr2 frs] eqn:Et; [rewrite Hst; by intros ?%elem_of_nil|].
          rewrite Hst. intros [->|Hin]%elem_of_cons.
          -- apply (Hfr t1 fr2). rewrite Et. by left.
          -- destruct gg; [apply (Hfr t1); rewrite Et; by right|].
             apply elem_of_list_fmap in Hin as (fr' & -> & Hin). apply (Hfr t1 fr'). rewrite Et. by right.
        * destruct (decide (t' = t1)) as [->|]; [|rewrite Hst; by apply (Hfr t1)].
          rewrite Hst. intros Hin. apply (Hfr t1). destruct (thread (past c1) t1); [done|by right].
        * destruct (decide (t' = t1)) as [->|]; [|rewrite Hst; by apply (Hfr t1)].
          rewrite Hst. intros Hin. apply (Hfr t1). destruct (thread (past c1) t1); [done|by right].
        * rewrite Hst. by intros ?%elem_of_nil.
  Qed.

  Lemma change_detected c t' rq2 : not_called fn c -> not_called g c ->
    e_fun (s_env (past c)) !! g <> e_fun (s_env (runs s0 a)) !! g ->
    rq_fun rq2 = fn -> ~ hits md5 BK (past c) t' rq2.
  Proof.
    intros Hnf Hng Hch Hrq2 Hhit.
    destruct (past_knows c Hnf Hng) as (d & Hd & Hk & _).
    apply hits_clean in Hhit as (fid & c' & Hclean). rewrite Hrq2 in Hclean.
    pose proof (check_function_spec _ _ _ _ _ _ _ _ Hclean) as (d1 & _ & _ & _ & Hrow).
    destruct (Hrow eq_refl) as [deps1 Hrow1].
    destruct Hk as [Hk|[(d' & deps & Hrow2 & Hin) Hok]]; [congruence|].
    destruct (clean_dep _ _ _ _ _ _ _ _ g Hclean Hrow2 Hin g_fn) as (d2 & deps2 & He & Hg).
    apply Hch. rewrite Hd, He. f_equal. by eapply Hok.
  Qed.
End Deps.
