(** C30, C32 and C33: the scheduler's threads, nested evaluations, the controlling lock and
    shutdown. *)
From Coq Require Import List Bool Arith Lia.
From Verif Require Import SchedModel SystemModel SystemSteps SystemFacts SystemLock SystemMeasure SystemLive SystemShut SystemStop.
Import ListNotations.

Definition no_deps (i : task) : list task := [].
Definition ok : prog := Done (OVal 0).

(** Every evaluation of every run of the whole system is a run of SchedModel, so that C24
    to C29 and C31 hold of each of them. *)
Theorem system_refines w mains ts s e v : sys_runs (sys_init w mains) ts = Some s -> nth_error (s_evals s) e = Some v ->
  exists ls, runs (v_n v) (v_deps v) (init (v_n v) (v_deps v)) ls = Some (v_est v).
Proof.
  intros H Hv. apply (evals_runs (sys_init w mains) ts s) with e; [|exact H|exact Hv]. intros e0 v0 H0. destruct e0; discriminate.
Qed.

(** ** C32: one task at a time *)

(** Thread [t] executes task code outside interruptible sections.  The flags are the
    sections it is in; a task waiting for a nested evaluation executes no code. *)
Definition executes (s : sys) (t : nat) : Prop :=
  exists th fr below e i p, nth_error (s_threads s) t = Some th /\ t_pc th = PStack /\ t_stack th = fr :: below /\
    f_task fr = Some (e, i) /\ f_mode fr = MCode p /\ f_flags fr = [].
Definition C32_claim : Prop := forall w mains ts s t t', sys_runs (sys_init w mains) ts = Some s ->
  executes s t -> executes s t' -> t = t'.

(** A command run by a thread outside (Context.execute enters a section, context.py
    106-257) releases the lock of the task running meanwhile, and another task starts. *)
Definition two_tasks : prog := Spawn 2 no_deps (fun _ => Work ok) (fun _ => ok).
Theorem C32_refuted : ~ C32_claim.
Proof.
  intros H. assert (exists s, sys_runs (sys_init 2 [two_tasks; Enter (Leave ok)]) [2; 2; 2; 0; 0; 0; 3; 1; 1; 1] = Some s /\ executes s 0 /\ executes s 1) as (s & H1 & H2 & H3).
  { eexists. split; [vm_compute; reflexivity|]. split; do 6 eexists; repeat split; reflexivity. }
  discriminate (H _ _ _ _ _ _ H1 H2 H3).
Qed.
(** The same with tasks only: a section inside another one. *)
Definition inside (i : task) : prog := match i with 2 => Enter (Enter (Leave (Leave ok))) | _ => Work ok end.
Definition C32_tasks_claim : Prop := forall w mains ts s t t', (forall p, In p mains -> exists n deps body k, p = Spawn n deps body (fun _ => Done k)) ->
  sys_runs (sys_init w mains) ts = Some s -> executes s t -> executes s t' -> t = t'.
Theorem C32_nested_refuted : ~ C32_tasks_claim.
Proof.
  intros H. assert (exists s, sys_runs (sys_init 3 [Spawn 3 no_deps inside (fun _ => ok)]) [3; 3; 3; 3; 0; 0; 0; 0; 1; 1; 1; 0; 2; 2; 2] = Some s /\ executes s 1 /\ executes s 2) as (s & H1 & H2 & H3).
  { eexists. split; [vm_compute; reflexivity|]. split; do 6 eexists; repeat split; reflexivity. }
  assert (1 = 2) as E; [|discriminate E]. refine (H _ _ _ _ _ _ _ H1 H2 H3). intros p [<-|[]]. do 4 eexists. reflexivity.
Qed.
(** With sections entered from tasks only, not nested and without evaluations inside them,
    it holds for every schedule, any number of workers and of threads outside. *)
Theorem C32_partial w mains ts s t t' : (forall p, In p mains -> orderly false false p) ->
  sys_runs (sys_init w mains) ts = Some s -> executes s t -> executes s t' -> t = t'.
Proof.
  intros Hm H. pose proof (gen_runs _ _ _ (gen_init w mains) H) as G. pose proof (lock_runs _ _ _ (gen_init w mains) (lock_init w mains Hm) H) as L.
  assert (forall t, executes s t -> exists th, nth_error (s_threads s) t = Some th /\ holder th = true) as Hh.
  { intros t0 (th & fr & below & e & i & p & E1 & E2 & E3 & E4 & E5 & E6). exists th. split; [exact E1|].
    assert (t_worker th = true) as Hw.
    { pose proof (g_shape s G _ _ E1) as Hsh. destruct (shape_stack th fr below Hsh E2 E3) as (_ & _ & A). destruct (t_worker th); [reflexivity|].
      destruct A as (_ & A & _). congruence. }
    unfold holder. rewrite Hw, E2, E3. unfold free_code. rewrite E5, E6. reflexivity. }
  intros H1 H2. destruct (Hh _ H1) as (th & A1 & A2). destruct (Hh _ H2) as (th' & B1 & B2). exact (l_one s L _ _ _ _ A1 B1 A2 B2).
Qed.

(** An orderly program: tasks with a section and a nested evaluation. *)
Definition mixed (i : task) : prog :=
  match i with
  | 0 => Spawn 2 no_deps (fun _ => Enter (Work (Leave (Work ok)))) (fun _ => Work ok)
  | _ => Work (Enter (Work (Leave (Done (OExc 7)))))
  end.
Definition mixed_main : prog := Spawn 3 (fun i => match i with 2 => [0] | _ => [] end) mixed (fun _ => Spawn 1 no_deps (fun _ => ok) (fun _ => ok)).
Lemma mixed_orderly : orderly false false mixed_main.
Proof.
  cbn. repeat (split || intro); auto. destruct i; cbn; repeat (split || intro); auto.
Qed.
Example C32_ex : exists s, sys_runs (sys_init 2 [mixed_main; two_tasks]) [2; 2; 2; 0; 0; 0; 3; 3; 3; 1; 1; 0; 0; 1] = Some s /\ executes s 1 /\ ~ executes s 0.
Proof.
  eexists. split; [vm_compute; reflexivity|]. split; [do 6 eexists; repeat split; reflexivity|].
  intros (th & fr & below & e & i & p & E1 & E2 & E3 & E4 & E5 & E6). cbn in E1. injection E1 as <-. cbn in E3. injection E3 as <- <-. discriminate.
Qed.

(** ** C30: nested evaluations do not deadlock *)

Fixpoint no_shut (p : prog) : Prop :=
  match p with
  | Done _ => True
  | Work k | Enter k | Leave k => no_shut k
  | Spawn _ _ body k => (forall i, no_shut (body i)) /\ forall a, no_shut (k a)
  | Shutdown _ => False
  end.
(** Only Exceptions are raised. *)
Fixpoint no_fatal (p : prog) : Prop :=
  match p with
  | Done o => match o with OFatal _ => False | _ => True end
  | Work k | Enter k | Leave k | Shutdown k => no_fatal k
  | Spawn _ _ body k => (forall i, no_fatal (body i)) /\ forall a, no_fatal (k a)
  end.
(** Sections end where they began. *)
Fixpoint balanced (d : nat) (p : prog) : Prop :=
  match p with
  | Done _ => d = 0
  | Work k | Shutdown k => balanced d k
  | Enter k => balanced (S d) k
  | Leave k => match d with S d' => balanced d' k | O => False end
  | Spawn _ _ body k => (forall i, balanced 0 (body i)) /\ forall a, balanced d (k a)
  end.
Definition returned (s : sys) : Prop := forall t th, nth_error (s_threads s) t = Some th -> t_worker th = false -> t_pc th = PExit.
Definition C30_claim : Prop := forall w mains ts s, (forall p, In p mains -> no_shut p /\ balanced 0 p) ->
  sys_runs (sys_init w mains) ts = Some s -> exists ts' s', sys_runs s ts' = Some s' /\ returned s'.

Lemma stuck_runs s ts s' : stuck s -> sys_runs s ts = Some s' -> s' = s.
Proof. intros Hs. destruct ts as [|t ts]; cbn; [congruence|]. rewrite (Hs t). discriminate. Qed.

(** A task raises an exception that is not an Exception (sys.exit): its worker dies, and
    the thread outside waits for the other task forever. *)
Definition dying : prog := Spawn 2 no_deps (fun _ => Done (OFatal 0)) (fun _ => ok).
Theorem C30_refuted : ~ C30_claim.
Proof.
  intros H. assert (exists s, sys_runs (sys_init 1 [dying]) [1; 1; 1; 1; 1; 0; 0; 0; 0; 0; 1; 1; 1] = Some s /\ stuck s /\ ~ returned s) as (s & H1 & H2 & H3).
  { eexists. split; [vm_compute; reflexivity|]. split.
    - intros [|[|[|t]]]; reflexivity.
    - intros Hr. discriminate (Hr 1 _ eq_refl eq_refl). }
  edestruct (H 1 [dying]) as (ts' & s' & H4 & H5); [|exact H1|].
  - intros p [<-|[]]. cbn. repeat split; auto.
  - rewrite (stuck_runs _ _ _ H2 H4) in H5. auto.
Qed.
(** With Exceptions only: a build has failed, a task is still running, and the program runs
    a command (entering a section) before the next build.  The section releases the
    running task's lock, the worker dies when it gives back the lock, and the program
    leaves the section with the lock. *)
Definition C30_exceptions_claim : Prop := forall w mains ts s, (forall p, In p mains -> no_shut p /\ balanced 0 p /\ no_fatal p) ->
  sys_runs (sys_init w mains) ts = Some s -> exists ts' s', sys_runs s ts' = Some s' /\ returned s'.
Definition failing (i : task) : prog := match i with 1 => Done (OExc 0) | _ => Work ok end.
Definition cleanup : prog := Spawn 2 no_deps failing (fun _ => Enter (Leave (Spawn 1 no_deps (fun _ => ok) (fun _ => ok)))).
Theorem C30_section_refuted : ~ C30_exceptions_claim.
Proof.
  intros H. assert (exists s, sys_runs (sys_init 1 [cleanup]) [1; 1; 1; 1; 1; 0; 0; 0; 0; 0; 0; 0; 0; 1; 1; 1; 1; 0; 0; 0; 1; 1; 1; 1; 1] = Some s /\ stuck s /\ ~ returned s) as (s & H1 & H2 & H3).
  { eexists. split; [vm_compute; reflexivity|]. split.
    - intros [|[|[|t]]]; reflexivity.
    - intros Hr. discriminate (Hr 1 _ eq_refl eq_refl). }
  edestruct (H 1 [cleanup]) as (ts' & s' & H4 & H5); [|exact H1|].
  - intros p [<-|[]]. cbn. repeat split; auto; destruct i as [|[|i]]; cbn; auto.
  - rewrite (stuck_runs _ _ _ H2 H4) in H5. auto.
Qed.

Lemma calm_iff p : no_shut p -> no_fatal p -> calm false p.
Proof.
  induction p as [o|k IH|n d b IHb k IHk|k IH|k IH|k IH]; cbn; auto.
  intros [A1 A2] [B1 B2]. split; intros x; auto.
Qed.
Lemma never_stop s t : good false s -> not_stop s t.
Proof.
  intros (_ & _ & K) th fr below k Ht Hs Hm. pose proof (c_frames false s K _ _ fr Ht ltac:(rewrite Hs; left; reflexivity)) as Hc.
  unfold calm_frame in Hc. rewrite Hm in Hc. rewrite andb_false_r in Hc. discriminate.
Qed.
Lemma good_runs ts : forall s s', good false s -> sys_runs s ts = Some s' -> good false s'.
Proof.
  induction ts as [|t ts IH]; intros s s' Hg H; cbn in H; [injection H as <-; exact Hg|].
  destruct (sys_step s t) as [s1|] eqn:E; [|discriminate]. exact (IH _ _ (good_step _ _ _ _ Hg (never_stop _ _ Hg) E) H).
Qed.
Definition calm_orderly (p : prog) : Prop := orderly false false p /\ no_shut p /\ no_fatal p.
Lemma calm_good w mains ts s : (forall p, In p mains -> calm_orderly p) -> sys_runs (sys_init w mains) ts = Some s -> good false s.
Proof.
  intros Hm H. refine (good_runs ts _ _ _ H). apply good_init. intros p Hp. destruct (Hm p Hp) as (A & B & C). split; [exact A|exact (calm_iff _ B C)].
Qed.

(** Orderly programs raising only Exceptions: whatever happened so far, with any number of
    workers, threads outside and nested evaluations, there is a way on until all threads
    outside have returned. *)
Theorem C30_partial w mains ts s : (forall p, In p mains -> calm_orderly p) ->
  sys_runs (sys_init w mains) ts = Some s -> exists ts' s', sys_runs s ts' = Some s' /\ returned s'.
Proof.
  intros Hm H. destruct (can_complete false s (calm_good _ _ _ _ Hm H)) as (ts' & s' & H1 & Hg & Ho). exists ts', s'. split; [exact H1|].
  intros t th Ht Hw. destruct (Ho t th Ht Hw) as [Hp|(_ & fr & k & Hs & Hf)]; [exact Hp|]. exfalso.
  exact (never_stop s' t Hg th fr [] k Ht Hs Hf).
Qed.
(** ... and no schedule does anything but poll or put tasks on the queue forever: starting,
    finishing, processing a task, other code, starting and ending an evaluation happen
    finitely often. *)
Theorem C30_finite w mains (f : nat -> sys) (sched : nat -> nat) : (forall p, In p mains -> calm_orderly p) ->
  f 0 = sys_init w mains -> (forall k, sys_step (f k) (sched k) = Some (f (S k))) ->
  ~ (forall m, exists k h, m <= k /\ s_events (f (S k)) = h :: s_events (f k) /\ h <> HPut (sched k)).
Proof.
  intros Hm H0 Hs Hinf.
  assert (forall k, good false (f k)) as Hg.
  { intros k. induction k as [|k IH]; [rewrite H0; apply (calm_good w mains [] _ Hm); reflexivity|]. exact (good_step _ _ _ _ IH (never_stop _ _ IH) (Hs k)). }
  assert (forall k, Permutation.Permutation (mu (f (S k))) (mu (f k)) /\ quiet (sched k) (s_events (f k)) (s_events (f (S k))) \/ smaller (mu (f (S k))) (mu (f k))) as Hd.
  { intros k. destruct (mu_step (f k) (sched k) (f (S k)) (proj1 (Hg k)) (good_noshut _ _ _ (Hg k) (never_stop _ _ (Hg k))) (Hs k)) as [[A B]|[_ A]]; auto. }
  assert (forall m x, x = mu (f m) -> False) as Hall; [|exact (Hall 0 _ eq_refl)].
  intros m x. revert m. induction x as [x IH] using (well_founded_ind smaller_wf). intros m ->.
  destruct (Hinf m) as (k & h & Hle & Hh & Hn).
  assert (smaller (mu (f (S k))) (mu (f k))) as Hlt.
  { destruct (Hd k) as [[_ Hq]|Hlt]; [|exact Hlt]. exfalso. destruct Hq as [Hq|Hq]; rewrite Hh in Hq.
    - apply (f_equal (@length _)) in Hq. cbn in Hq. lia.
    - injection Hq as Hq. auto. }
  assert (forall d, Permutation.Permutation (mu (f (m + d))) (mu (f m)) \/ smaller (mu (f (m + d))) (mu (f m))) as Hmon.
  { intros d. induction d as [|d IHd]; [left; rewrite Nat.add_0_r; reflexivity|]. rewrite Nat.add_succ_r. destruct (Hd (m + d)) as [[P _]|P].
    - destruct IHd as [Q|Q]; [left; etransitivity; eassumption|]. right. exact (smaller_perm_l _ _ _ (Permutation.Permutation_sym P) Q).
    - right. destruct IHd as [Q|Q]; [exact (smaller_perm _ _ _ Q P)|exact (smaller_trans _ _ _ P Q)]. }
  apply (IH (mu (f (S k)))) with (m := S k); [|reflexivity]. replace k with (m + (k - m)) in Hlt |- * by lia.
  destruct (Hmon (k - m)) as [Q|Q]; [exact (smaller_perm _ _ _ Q Hlt)|exact (smaller_trans _ _ _ Hlt Q)].
Qed.

Lemma mixed_calm : calm_orderly mixed_main.
Proof. split; [exact mixed_orderly|]. split; cbn; repeat (split || intro); auto; destruct i; cbn; repeat (split || intro); auto. Qed.
Example C30_ex : exists s, sys_runs (sys_init 1 [mixed_main]) [1; 1; 1; 1; 1; 0; 0; 0; 0; 0; 0; 0; 0; 0; 0; 0; 0; 0] = Some s /\ ~ returned s /\ length (s_evals s) = 2.
Proof. eexists. split; [vm_compute; reflexivity|]. split; [|reflexivity]. intros Hr. discriminate (Hr 1 _ eq_refl eq_refl). Qed.

(** ** C33: shutdown *)

Definition in_shutdown (s : sys) : Prop := exists t th fr below p js b k, nth_error (s_threads s) t = Some th /\ t_stack th = fr :: below /\
  f_mode fr = MShut p js b k.
(** Once shutdown() is called, no execution ends (all tasks are finite) with a worker left. *)
Definition C33_claim : Prop := forall w mains ts s ts' s', (forall p, In p mains -> orderly false false p /\ no_fatal p) ->
  sys_runs (sys_init w mains) ts = Some s -> in_shutdown s -> sys_runs s ts' = Some s' -> stuck s' -> all_exited s'.
(** A build has failed with an Exception while another task, which starts a nested evaluation,
    is still running.  The program shuts the scheduler down.  The nested evaluation reads
    the wake-up call and drops it (248, 369); the worker finishes, sees that it is not told to
    end yet and waits for the queue; now it is told, but never looks. *)
Definition nesting (i : task) : prog := match i with 1 => Done (OExc 0) | _ => Spawn 1 no_deps (fun _ => ok) (fun _ => ok) end.
Definition stopping_main : prog := Spawn 2 no_deps nesting (fun _ => Shutdown ok).
Definition lost_1 : list nat := [1; 1; 1; 1; 1; 0; 0; 0; 0; 0; 0; 0; 0; 0; 0; 1; 1; 1; 1].
Definition lost_2 : list nat := [1; 0; 0; 0; 0; 0; 0; 0; 0; 0; 0; 0; 0; 0; 0; 0; 1].
Theorem C33_refuted : ~ C33_claim.
Proof.
  intros H. assert (exists s s', sys_runs (sys_init 1 [stopping_main]) lost_1 = Some s /\ in_shutdown s /\ sys_runs s lost_2 = Some s' /\ stuck s' /\ ~ all_exited s')
    as (s & s' & H1 & H2 & H3 & H4 & H5).
  { do 2 eexists. split; [vm_compute; reflexivity|]. split; [exists 1; do 7 eexists; repeat split; reflexivity|]. split; [vm_compute; reflexivity|]. split.
    - intros [|[|[|t]]]; reflexivity.
    - intros Hr. discriminate (Hr 0 _ eq_refl). }
  apply H5. refine (H 1 [stopping_main] _ _ _ _ _ H1 H2 H3 H4). intros p [<-|[]]. cbn. repeat (split || intro); auto; destruct i as [|[|i]]; cbn; repeat (split || intro); auto.
Qed.

(** When one program uses the scheduler, its tasks raise nothing, and it shuts the scheduler
    down at its end: whatever happened so far there is a way on until all threads have
    ended, and once in shutdown() every schedule is bounded and can only stop when all
    threads have ended. *)
Theorem C33_partial w p ts s : orderly false false p -> tidy p -> sys_runs (sys_init w [p]) ts = Some s ->
  (exists ts' s', sys_runs s ts' = Some s' /\ all_exited s') /\
  (shutting s -> exists m, forall ts' s', sys_runs s ts' = Some s' -> length ts' <= m /\ (stuck s' -> all_exited s')).
Proof. intros Ho Ht H. split; [exact (can_stop w p ts s Ho Ht H)|exact (must_stop w p ts s Ho Ht H)]. Qed.

Definition calm_nesting (i : task) : prog := Spawn 1 no_deps (fun _ => Enter (Leave ok)) (fun _ => ok).
Definition calm_main : prog := Spawn 2 no_deps calm_nesting (fun _ => Shutdown ok).
Lemma calm_main_tidy : orderly false false calm_main /\ tidy calm_main.
Proof. cbn. repeat (split || intro); auto. exists (OVal 0). reflexivity. Qed.
Definition calm_sched : list nat := [1; 1; 1; 1; 1] ++ repeat 0 35 ++ repeat 1 8.
Example C33_ex : exists s, sys_runs (sys_init 1 [calm_main]) calm_sched = Some s /\ shutting s.
Proof. eexists. split; [vm_compute; reflexivity|]. exists 1. do 2 eexists. repeat split; reflexivity. Qed.

Print Assumptions system_refines.
Print Assumptions C30_refuted.
Print Assumptions C30_section_refuted.
Print Assumptions C30_partial.
Print Assumptions C30_finite.
Print Assumptions C32_refuted.
Print Assumptions C32_nested_refuted.
Print Assumptions C32_partial.
Print Assumptions C33_refuted.
Print Assumptions C33_partial.
