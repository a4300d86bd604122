(** Shutting down (305-317): when one thread outside uses the scheduler, its tasks raise
    nothing, and it shuts the scheduler down at the end, then no task is queued or running
    at that moment, and every schedule ends with all threads gone. *)
From Coq Require Import List Bool Arith Lia Permutation.
From Verif Require Import SchedModel SchedFacts SchedThms SystemModel SystemSteps SystemFacts SystemLock SystemMeasure SystemLive.
Import ListNotations.

(** *** Tasks that raise nothing *)
Fixpoint fine (p : prog) : Prop :=
  match p with
  | Done o => match o with OVal _ => True | _ => False end
  | Work k | Enter k | Leave k => fine k
  | Spawn _ _ body k => (forall i, fine (body i)) /\ forall a, fine (k a)
  | Shutdown _ => False
  end.
(** A program that always shuts down, and ends then. *)
Fixpoint tidy (p : prog) : Prop :=
  match p with
  | Done o => False
  | Work k | Enter k | Leave k => tidy k
  | Spawn _ _ body k => (forall i, fine (body i)) /\ forall a, tidy (k a)
  | Shutdown k => exists o, k = Done o
  end.
Lemma fine_calm p : fine p -> calm false p.
Proof.
  induction p as [o|k IH|n d b IHb k IHk|k IH|k IH|k IH]; cbn; auto.
  - destruct o; auto.
  - intros [H1 H2]. split; intros x; auto.
Qed.
Lemma tidy_calm p : tidy p -> calm true p.
Proof.
  induction p as [o|k IH|n d b IHb k IHk|k IH|k IH|k IH]; cbn; auto; [intros []|].
  intros [H1 H2]. split; intros x; [apply fine_calm|]; auto.
Qed.

Definition fine_prog (fr : frame) (p : prog) : Prop := match f_task fr with Some _ => fine p | None => tidy p end.
Definition fine_frame (fr : frame) : Prop :=
  match f_mode fr with MCode p => fine_prog fr p | MEval _ k _ => forall a, fine_prog fr (k a) | MShut _ _ _ _ => True end.
Record fineinv (s : sys) : Prop := FineInv {
  f_code : forall t th fr, nth_error (s_threads s) t = Some th -> In fr (t_stack th) -> fine_frame fr;
  f_body : forall e v i, nth_error (s_evals s) e = Some v -> fine (v_body v i);
  f_out : forall e v i o, nth_error (s_evals s) e = Some v -> e_out (v_est v) i = Some o -> exists x, o = OVal x;
  f_own : forall e v, nth_error (s_evals s) e = Some v -> e_status (v_est v) = Running -> In e (owners s);
  f_main : forall t th, nth_error (s_threads s) t = Some th -> t_worker th = false -> t_pc th = PStack
}.

Lemma fine_change s t th th' q evs lk c h : fineinv s -> nth_error (s_threads s) t = Some th ->
  (forall fr, In fr (t_stack th') -> fine_frame fr) ->
  (forall e v i, nth_error evs e = Some v -> fine (v_body v i)) ->
  (forall e v i o, nth_error evs e = Some v -> e_out (v_est v) i = Some o -> exists x, o = OVal x) ->
  (forall e v, nth_error evs e = Some v -> e_status (v_est v) = Running ->
     In e (waits th') \/ (~ In e (waits th) \/ In e (waits th')) /\ exists v0, nth_error (s_evals s) e = Some v0 /\ e_status (v_est v0) = Running) ->
  (t_worker th' = false -> t_pc th' = PStack) ->
  fineinv (Sys (setnth (s_threads s) t th') q lk evs c h).
Proof.
  intros [F1 F2 F3 F4 F5] Ht Hc Hb Ho Hw Hm. split; cbn [s_threads s_queue s_lock s_evals s_clock s_events]; auto.
  - intros t' x fr Hx Hin. apply setnth_cases in Hx. destruct Hx as [(-> & -> & _)|(_ & Hx)]; [auto|exact (F1 _ _ _ Hx Hin)].
  - intros e v Hv Hr. unfold owners. cbn. destruct (swap waits _ _ _ th' Ht) as (rest & P1 & P2).
    apply (Permutation_in _ (Permutation_sym P2)). apply in_app_iff. destruct (Hw e v Hv Hr) as [Hin|([Hn|Hin] & v0 & Hv0 & Hr0)]; auto.
    right. specialize (F4 e v0 Hv0 Hr0). unfold owners in F4. apply (Permutation_in _ P1) in F4. apply in_app_iff in F4. tauto.
  - intros t' x Hx. apply setnth_cases in Hx. destruct Hx as [(-> & -> & _)|(_ & Hx)]; [auto|exact (F5 _ _ Hx)].
Qed.

Lemma out_step n deps s l s' i o : step n deps s l = Some s' -> e_out s' i = Some o -> e_out s i = Some o \/ exists j, l = LFinish j o.
Proof.
  assert (forall x l0, e_out (fold_left (offer deps) l0 x) = e_out x) as Hof.
  { intros x l0. revert x. induction l0 as [|a l0 IH]; intros x; cbn; [reflexivity|]. rewrite IH. unfold offer. destruct (can_run deps x a); reflexivity. }
  assert (forall x, e_out (check n deps x) = e_out x) as Hch by (intros x; unfold check; destruct (e_count x); reflexivity).
  destruct l as [j|j o'|]; cbn.
  - destruct (existsb (Nat.eqb j) (e_ready s)); [|discriminate]. intros H. injection H as <-. auto.
  - destruct (existsb (Nat.eqb j) (e_active s)); [|discriminate]. intros H. injection H as <-. cbn. unfold upd. destruct (Nat.eqb i j); [|auto].
    intros H. injection H as ->. eauto.
  - destruct (e_status s); try discriminate. destruct (e_doneq s) as [|j q]; [discriminate|]. intros H. injection H as <-. unfold process.
    destruct (e_out s j) as [[x|x|x]|]; cbn; rewrite ?Hch, ?Hof; auto.
Qed.
Lemma status_step n deps s l s' : step n deps s l = Some s' -> e_status s' = Running -> e_status s = Running.
Proof.
  destruct l as [j|j o'|]; cbn.
  - destruct (existsb (Nat.eqb j) (e_ready s)); [|discriminate]. intros H. injection H as <-. auto.
  - destruct (existsb (Nat.eqb j) (e_active s)); [|discriminate]. intros H. injection H as <-. auto.
  - destruct (e_status s); try discriminate. auto.
Qed.
Lemma evals_status evs e l evs' : eval_step evs e l = Some evs' -> forall e' v, nth_error evs' e' = Some v -> e_status (v_est v) = Running ->
  exists v0, nth_error evs e' = Some v0 /\ e_status (v_est v0) = Running.
Proof.
  intros H e' v Hv Hr. destruct (eval_step_inv _ _ _ _ H) as (v0 & s' & Hv0 & Hs & ->). apply setnth_cases in Hv.
  destruct Hv as [(-> & -> & _)|(_ & Hv)]; [|eauto]. exists v0. split; [exact Hv0|]. exact (status_step _ _ _ _ _ Hs Hr).
Qed.
Lemma evals_out evs e l evs' : eval_step evs e l = Some evs' ->
  (forall e v i o, nth_error evs e = Some v -> e_out (v_est v) i = Some o -> exists x, o = OVal x) ->
  (forall j o, l = LFinish j o -> exists x, o = OVal x) ->
  forall e v i o, nth_error evs' e = Some v -> e_out (v_est v) i = Some o -> exists x, o = OVal x.
Proof.
  intros H Ho Hl e' v i o Hv He. destruct (eval_step_inv _ _ _ _ H) as (v0 & s' & Hv0 & Hs & ->). apply setnth_cases in Hv.
  destruct Hv as [(-> & -> & _)|(_ & Hv)]; [|eauto]. cbn in He. destruct (out_step _ _ _ _ _ _ _ Hs He) as [Hx|[j Hx]]; eauto.
Qed.
Lemma init_out n deps i : e_out (init n deps) i = None.
Proof.
  assert (forall x l0, e_out (fold_left (offer deps) l0 x) = e_out x) as Hof.
  { intros x l0. revert x. induction l0 as [|a l0 IH]; intros x; cbn; [reflexivity|]. rewrite IH. unfold offer. destruct (can_run deps x a); reflexivity. }
  assert (forall x, e_out (check n deps x) = e_out x) as Hch by (intros x; unfold check; destruct (e_count x); reflexivity).
  unfold init. rewrite Hch, Hof. reflexivity.
Qed.

Lemma fine_step sd s t s' : good sd s -> fineinv s -> not_stop s t -> sys_step s t = Some s' -> fineinv s'.
Proof.
  intros (G & L & K) F Hns H. destruct (step_change _ _ _ H) as (th & Ht & C). pose proof (g_shape s G _ _ Ht) as Hsh.
  assert (t_worker th = false -> t_pc th = PStack) as Hmn by exact (f_main s F t th Ht).
  assert (t_pc th <> PStack -> t_worker th = true) as Hwk by (destruct (t_worker th); [reflexivity|intros Hx; exfalso; apply Hx; apply Hmn; reflexivity]).
  pose proof (fun fr => f_code s F t th fr Ht) as Hfr. pose proof (f_body s F) as Hb. pose proof (f_out s F) as Ho.
  assert (forall evs e l, eval_step (s_evals s) e l = Some evs -> forall e v i, nth_error evs e = Some v -> fine (v_body v i)) as Hb'.
  { intros evs e l Hev e' v i Hv. destruct (step_bodies _ _ _ _ Hev _ _ Hv) as (v0 & E1 & E2). rewrite E2. eauto. }
  assert (forall th', waits th' = waits th -> forall e v, nth_error (s_evals s) e = Some v -> e_status (v_est v) = Running ->
     In e (waits th') \/ (~ In e (waits th) \/ In e (waits th')) /\ exists v0, nth_error (s_evals s) e = Some v0 /\ e_status (v_est v0) = Running) as Hsame.
  { intros th' E e v Hv Hr. rewrite E. destruct (in_dec Nat.eq_dec e (waits th)); [auto|]. right. eauto. }
  assert (forall th' evs e l, waits th' = waits th -> eval_step (s_evals s) e l = Some evs -> forall e v, nth_error evs e = Some v -> e_status (v_est v) = Running ->
     In e (waits th') \/ (~ In e (waits th) \/ In e (waits th')) /\ exists v0, nth_error (s_evals s) e = Some v0 /\ e_status (v_est v0) = Running) as Hsame'.
  { intros th' evs e l E Hev e' v Hv Hr. rewrite E. destruct (in_dec Nat.eq_dec e' (waits th)); [auto|]. right. split; [auto|]. exact (evals_status _ _ _ _ Hev _ _ Hv Hr). }
  destruct C as [Hp|q qs Hp Hq|Hp Hl|e i s' Hp Hl Hst|lv Hp|fr below fr' lk h Hp Hs Hm|fr below o Hp Hs Hm Hf|fr below fr' q Hp Hs Hm
    |fr below j js k Hp Hs Hm|fr below e k was q qs Hp Hs Hm Hq|fr below e k was e' i' s' Hp Hs Hm Hl Hst
    |fr below e i o s' Hp Hs Hm Hf Hst|fr below n deps body k Hp Hs Hm|fr below e k st s' Hp Hs Hm Hst0 Hst].
  - apply fine_change with th; auto; [exact (Hsame (at_pc th _) eq_refl)|]. cbn. rewrite Hwk by congruence. discriminate.
  - apply fine_change with th; auto; [exact (Hsame (at_pc th _) eq_refl)|]. cbn. rewrite Hwk by congruence. discriminate.
  - apply fine_change with th; auto; [exact (Hsame (at_pc th _) eq_refl)|]. cbn. rewrite Hwk by congruence. discriminate.
  - destruct (start_inv' _ _ _ _ _ _ _ Hst) as (v & evs & Hv & Hev & ->). cbn in *. apply fine_change with th; auto.
    + intros f [<-|[]]. exact (Hb _ _ _ Hv).
    + eapply Hb'. exact Hev.
    + eapply (evals_out _ _ _ _ Hev); [exact Ho|discriminate].
    + eapply Hsame'; [|exact Hev]. unfold thread_shape in Hsh. rewrite Hp in Hsh. unfold waits. rewrite (proj1 Hsh). reflexivity.
  - apply fine_change with th; auto; [exact (Hsame (at_pc th _) eq_refl)|]. cbn. rewrite Hwk by congruence. discriminate.
  - assert (fine_frame fr) as Hok by (apply Hfr; rewrite Hs; left; reflexivity).
    assert (waits th = frame_wait fr ++ flat_map frame_wait below) as Ew by (unfold waits; rewrite Hs; reflexivity).
    unfold go. apply fine_change with th; auto.
    + intros f [<-|Hin]; [|apply Hfr; rewrite Hs; right; exact Hin]. unfold fine_frame in *.
      destruct Hm; rewrite H0 in Hok; cbn in *; unfold fine_prog in *; cbn in *; destruct (f_task fr) as [[? ?]|]; cbn in *; try contradiction; auto; try (exfalso; eapply Hns; eassumption).
      * pose proof (c_frames sd s K _ _ fr Ht ltac:(rewrite Hs; left; reflexivity)) as Hx. unfold calm_frame in Hx. rewrite H0 in Hx. contradiction.
      * pose proof (c_frames sd s K _ _ fr Ht ltac:(rewrite Hs; left; reflexivity)) as Hx. unfold calm_frame in Hx. rewrite H0 in Hx. contradiction.
    + destruct Hm; try (apply Hsame; unfold waits, with_stack; cbn; rewrite Hs; cbn; unfold frame_wait; cbn; rewrite H0; reflexivity).
      intros e1 v1 Hv1 Hr1. unfold waits at 1 3, with_stack. cbn [t_stack flat_map]. unfold frame_wait at 1 3. cbn [f_mode in_mode].
      rewrite Ew. unfold frame_wait at 2. rewrite H0. cbn.
      destruct (in_dec Nat.eq_dec e1 (flat_map frame_wait below)) as [Hin|Hn]; [auto|]. right. split; [|eauto]. left. intros [<-|Hx]; [|auto]. congruence.
  - exfalso. pose proof (Hfr fr ltac:(rewrite Hs; left; reflexivity)) as Hok. unfold fine_frame, fine_prog in Hok. rewrite Hm, Hf in Hok. exact Hok.
  - assert (fine_frame fr) as Hok by (apply Hfr; rewrite Hs; left; reflexivity).
    apply fine_change with th; auto.
    + intros f [<-|Hin]; [|apply Hfr; rewrite Hs; right; exact Hin]. unfold fine_frame in *. destruct Hm; rewrite H0 in Hok; exact Hok.
    + apply Hsame. unfold waits, with_stack. cbn. rewrite Hs. cbn. unfold frame_wait. destruct Hm; cbn; rewrite H0; reflexivity.
  - exfalso. pose proof (c_frames sd s K _ _ fr Ht ltac:(rewrite Hs; left; reflexivity)) as Hx. unfold calm_frame in Hx. rewrite Hm in Hx. contradiction.
  - assert (fine_frame fr) as Hok by (apply Hfr; rewrite Hs; left; reflexivity). unfold fine_frame in Hok. rewrite Hm in Hok.
    apply fine_change with th; auto.
    + intros f [<-|Hin]; [|apply Hfr; rewrite Hs; right; exact Hin]. exact Hok.
    + apply Hsame. unfold waits, with_stack. cbn. rewrite Hs. cbn. unfold frame_wait. cbn. rewrite Hm. reflexivity.
  - assert (fine_frame fr) as Hok by (apply Hfr; rewrite Hs; left; reflexivity). unfold fine_frame in Hok. rewrite Hm in Hok.
    destruct (start_inv' _ _ _ _ _ _ _ Hst) as (v & evs & Hv & Hev & ->). cbn in *. apply fine_change with th; auto.
    + intros f [<-|[<-|Hin]]; [exact (Hb _ _ _ Hv)|exact Hok|apply Hfr; rewrite Hs; right; exact Hin].
    + eapply Hb'. exact Hev.
    + eapply (evals_out _ _ _ _ Hev); [exact Ho|discriminate].
    + eapply Hsame'; [|exact Hev]. unfold waits. cbn. rewrite Hs. cbn. unfold frame_wait. cbn. rewrite Hm. reflexivity.
  - assert (fine_frame fr) as Hok by (apply Hfr; rewrite Hs; left; reflexivity). unfold fine_frame in Hok. rewrite Hm in Hok. unfold fine_prog in Hok. rewrite Hf in Hok.
    assert (forall f, In f below -> fine_frame f) as Hbe by (intros f Hin; apply Hfr; rewrite Hs; right; exact Hin).
    destruct (shape_stack th fr below Hsh Hp Hs) as (A1 & A2 & A3). destruct o as [x|x|x]; cbn in Hok; try contradiction.
    destruct (finish_inv' _ _ _ _ _ _ _ _ Hst) as (evs & Hev & ->). apply fine_change with th; auto.
    + unfold resume. destruct below as [|f below']; [intros ? []|]. destruct (A1 f (or_introl eq_refl)) as (e1 & k1 & Ef). rewrite Ef.
      pose proof (Hbe f (or_introl eq_refl)) as Hf0. unfold fine_frame in Hf0. rewrite Ef in Hf0.
      intros f' [<-|Hin]; [exact Hf0|apply Hbe; right; exact Hin].
    + eapply Hb'. exact Hev.
    + eapply (evals_out _ _ _ _ Hev); [exact Ho|]. intros j o Hj. injection Hj as _ <-. eauto.
    + eapply Hsame'; [|exact Hev]. assert (waits th = flat_map frame_wait below) as -> by (unfold waits; rewrite Hs; cbn [flat_map]; unfold frame_wait at 1; rewrite Hm; reflexivity).
      unfold resume, waits. destruct below as [|f below']; [reflexivity|].
      destruct (A1 f (or_introl eq_refl)) as (e1 & k1 & Ef). rewrite Ef. cbn [t_stack flat_map]. unfold frame_wait at 1 3. cbn [f_mode in_mode]. rewrite Ef. reflexivity.
    + assert (t_worker th = true) as Hw by (destruct (t_worker th); [reflexivity|destruct A3 as (_ & A3 & _); congruence]).
      unfold resume. destruct below as [|f below']; [cbn; congruence|]. destruct (f_mode f) as [|? ? []|]; cbn; auto.
  - assert (fine_frame fr) as Hok by (apply Hfr; rewrite Hs; left; reflexivity). unfold fine_frame in Hok. rewrite Hm in Hok.
    assert ((forall i, fine (body i)) /\ forall a, fine_prog fr (k a)) as [O1 O2] by (unfold fine_prog in *; destruct (f_task fr); exact Hok).
    unfold spawn. apply fine_change with th; auto.
    + intros f [<-|Hin]; [|apply Hfr; rewrite Hs; right; exact Hin]. exact O2.
    + intros e v i Hv. destruct (Nat.lt_ge_cases e (length (s_evals s))) as [Hlt|Hge].
      * rewrite nth_error_app1 in Hv by exact Hlt. exact (Hb _ _ _ Hv).
      * rewrite nth_error_app2 in Hv by exact Hge. destruct (e - length (s_evals s)) as [|[|?]]; try discriminate. injection Hv as <-. apply O1.
    + intros e v i o Hv He. destruct (Nat.lt_ge_cases e (length (s_evals s))) as [Hlt|Hge].
      * rewrite nth_error_app1 in Hv by exact Hlt. exact (Ho _ _ _ _ Hv He).
      * rewrite nth_error_app2 in Hv by exact Hge. destruct (e - length (s_evals s)) as [|[|?]]; try discriminate. injection Hv as <-. cbn in He.
        rewrite init_out in He. discriminate.
    + intros e v Hv Hr. destruct (Nat.lt_ge_cases e (length (s_evals s))) as [Hlt|Hge].
      * rewrite nth_error_app1 in Hv by exact Hlt.
        assert (forall x, In x (waits th) -> In x (waits (with_stack th (in_mode fr (MEval (length (s_evals s)) k (SPut (e_ready (init n deps)))) :: below)))) as Hincl.
        { unfold waits, with_stack. cbn. rewrite Hs. cbn. unfold frame_wait at 1. rewrite Hm. cbn. auto. }
        destruct (in_dec Nat.eq_dec e (waits th)) as [Hin|Hn]; [auto|]. right. eauto.
      * left. assert (e = length (s_evals s)) as ->.
        { assert (e < length (s_evals s ++ [Ev n deps body (init n deps)])) as Hlt by (apply nth_error_Some; congruence). rewrite app_length in Hlt. cbn in Hlt. lia. }
        unfold waits. cbn. auto.
  - assert (fine_frame fr) as Hok by (apply Hfr; rewrite Hs; left; reflexivity). unfold fine_frame in Hok. rewrite Hm in Hok.
    destruct (process_inv' _ _ _ _ _ _ _ _ Hst) as (evs & Hev & ->). apply fine_change with th; auto.
    + intros f [<-|Hin]; [|apply Hfr; rewrite Hs; right; exact Hin]. exact Hok.
    + eapply Hb'. exact Hev.
    + eapply (evals_out _ _ _ _ Hev); [exact Ho|discriminate].
    + eapply Hsame'; [|exact Hev]. unfold waits, with_stack. cbn. rewrite Hs. cbn. unfold frame_wait. cbn. rewrite Hm. reflexivity.
Qed.

Lemma fine_init w mains : (forall p, In p mains -> tidy p) -> fineinv (sys_init w mains).
Proof.
  intros H. split.
  - intros t th fr Ht Hin. destruct (init_thread _ _ _ _ Ht) as [->|(p & Hp & ->)]; [contradiction|]. cbn in Hin. destruct Hin as [<-|[]]. exact (H p Hp).
  - intros e v i Hv. destruct e; discriminate.
  - intros e v i o Hv. destruct e; discriminate.
  - intros e v Hv. destruct e; discriminate.
  - intros t th Ht Hw. destruct (init_thread _ _ _ _ Ht) as [->|(p & Hp & ->)]; [discriminate|reflexivity].
Qed.

(** *** Nothing is left when the thread outside is about to shut down *)
Lemma no_owner s : good true s -> fineinv s -> over s ->
  forall m t th fr e k st, nth_error (s_threads s) t = Some th -> In fr (t_stack th) -> f_mode fr = MEval e k st -> f_time fr <= m -> False.
Proof.
  intros (G & L & K) F Hov m. induction m as [m IH] using lt_wf_ind. intros t th fr e k st Ht Hin Hm Hle.
  pose proof (g_shape s G _ _ Ht) as Hsh. unfold thread_shape in Hsh.
  destruct (t_pc th) eqn:Hp; try (destruct Hsh as [Hx _]; rewrite Hx in Hin; contradiction); [|rewrite Hsh in Hin; contradiction].
  destruct Hsh as (f0 & b0 & Es & B1 & B2 & B3). destruct (t_worker th) eqn:Hw.
  - destruct B3 as (B3 & _ & _). rewrite Es in Hin. specialize (B3 fr Hin). destruct (f_task fr) as [[e1 i1]|] eqn:Ef; [|congruence].
    assert (In (e1, i1) (actives s)) as Ha.
    { unfold actives. apply in_flat_map. exists th. split; [exact (nth_error_In _ _ Ht)|]. unfold running. apply in_flat_map. exists fr.
      rewrite Es. split; [exact Hin|]. unfold frame_task. rewrite Ef. left. reflexivity. }
    apply (proj2 (g_act s G)) in Ha. unfold active_of in Ha. destruct (nth_error (s_evals s) e1) as [v|] eqn:Ev; [|contradiction].
    assert (e_status (v_est v) = Running) as Hr.
    { destruct (eval_ok_inv v (g_evals s G _ _ Ev)) as [_ Hst]. destruct (e_status (v_est v)) as [|rs|x|p]; [reflexivity| | |].
      - destruct Hst as (_ & _ & Hx & _). rewrite Hx in Ha. contradiction.
      - destruct Hst as (i & rs & _ & Hx & _). destruct (f_out s F _ _ _ _ Ev Hx) as [y Hy]. discriminate.
      - destruct Hst as (_ & Hx & _). rewrite Hx in Ha. contradiction. }
    pose proof (f_own s F _ _ Ev Hr) as Hown. unfold owners in Hown. apply in_flat_map in Hown. destruct Hown as (th2 & Hth2 & Hw2).
    unfold waits in Hw2. apply in_flat_map in Hw2. destruct Hw2 as (fr2 & Hf2 & Hx). unfold frame_wait in Hx.
    destruct (f_mode fr2) as [|e2 k2 st2|] eqn:Em2; try contradiction. destruct Hx as [->|[]]. apply In_nth_error in Hth2. destruct Hth2 as [t2 Ht2].
    assert (f_time fr2 < f_time fr) as Hlt.
    { apply (g_wait s G fr2 e1 k2 st2 (in_frames _ _ _ _ Ht2 Hf2) Em2 fr i1); [|exact Ef]. apply (in_frames _ _ _ _ Ht). rewrite Es. exact Hin. }
    apply (IH (f_time fr2) ltac:(lia) t2 th2 fr2 e1 k2 st2 Ht2 Hf2 Em2). lia.
  - destruct (Hov _ _ Ht Hw) as [Hx|[_ (f1 & k1 & Es1 & Hm1)]]; [congruence|]. rewrite Es1 in Hin. destruct Hin as [<-|[]]. congruence.
Qed.
Lemma none_busy s : good true s -> fineinv s -> over s -> forall e v, nth_error (s_evals s) e = Some v -> e_ready (v_est v) = [] /\ e_active (v_est v) = [].
Proof.
  intros Hg F Hov e v Hv. pose proof (proj1 Hg) as G.
  destruct (eval_ok_inv v (g_evals s G _ _ Hv)) as [_ Hst]. destruct (e_status (v_est v)) as [|rs|x|p] eqn:Er.
  - exfalso. pose proof (f_own s F _ _ Hv Er) as Hown. unfold owners in Hown. apply in_flat_map in Hown. destruct Hown as (th2 & Hth2 & Hw2).
    unfold waits in Hw2. apply in_flat_map in Hw2. destruct Hw2 as (fr2 & Hf2 & Hx). unfold frame_wait in Hx.
    destruct (f_mode fr2) as [|e2 k2 st2|] eqn:Em2; try contradiction. destruct Hx as [->|[]]. apply In_nth_error in Hth2. destruct Hth2 as [t2 Ht2].
    exact (no_owner s Hg F Hov (f_time fr2) t2 th2 fr2 e k2 st2 Ht2 Hf2 Em2 (le_n _)).
  - destruct Hst as (_ & H1 & H2 & _). auto.
  - exfalso. destruct Hst as (i & rs & _ & Hx & _). destruct (f_out s F _ _ _ _ Hv Hx) as [y Hy]. discriminate.
  - destruct Hst as (H1 & H2 & _). auto.
Qed.

Definition idle_pc (p : pc) : bool := match p with PTop | PGet | PUnlock false => true | _ => false end.

Lemma workers_idle s : good true s -> fineinv s -> over s -> s_queue s = [] /\
  forall t th, nth_error (s_threads s) t = Some th -> t_worker th = true -> t_stack th = [] /\ idle_pc (t_pc th) = true.
Proof.
  intros Hg F Hov. pose proof (none_busy s Hg F Hov) as Hnb. pose proof (proj1 Hg) as G.
  assert (forall x, ~ In x (tokens s)) as Htok.
  { intros [e i] Hx. apply (proj2 (g_tok s G)) in Hx. unfold ready_of in Hx. destruct (nth_error (s_evals s) e) as [v|] eqn:Ev; [|contradiction].
    rewrite (proj1 (Hnb _ _ Ev)) in Hx. contradiction. }
  assert (forall x, ~ In x (actives s)) as Hact.
  { intros [e i] Hx. apply (proj2 (g_act s G)) in Hx. unfold active_of in Hx. destruct (nth_error (s_evals s) e) as [v|] eqn:Ev; [|contradiction].
    rewrite (proj2 (Hnb _ _ Ev)) in Hx. contradiction. }
  split.
  - destruct (s_queue s) as [|[x|] qs] eqn:Eq; [reflexivity| |].
    + exfalso. apply (Htok x). unfold tokens. rewrite Eq. left. reflexivity.
    + exfalso. apply (c_queue true s (proj2 (proj2 Hg))). rewrite Eq. left. reflexivity.
  - intros t th Ht Hw. pose proof (g_shape s G _ _ Ht) as Hsh. pose proof (c_worker true s (proj2 (proj2 Hg)) _ _ Ht Hw) as [_ Hpc].
    unfold thread_shape in Hsh. destruct (t_pc th) as [| |[x|]| |[|]|] eqn:Hp; try contradiction; try (split; [apply Hsh|reflexivity]).
    + exfalso. apply (Htok x). apply (hand_token s t th _ Ht). unfold hand. rewrite Hp. left. reflexivity.
    + exfalso. destruct Hsh as (fr & below & Es & _ & _ & B). rewrite Hw in B. destruct B as [B _]. specialize (B fr (or_introl eq_refl)).
      destruct (f_task fr) as [x|] eqn:Ef; [|congruence]. apply (Hact x). unfold actives. apply in_flat_map. exists th.
      split; [exact (nth_error_In _ _ Ht)|]. unfold running. rewrite Es. cbn. unfold frame_task at 1. rewrite Ef. left. reflexivity.
Qed.
