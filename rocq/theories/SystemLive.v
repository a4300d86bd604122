(** Nested evaluations do not deadlock: for orderly programs whose tasks raise only
    Exceptions and that do not shut the scheduler down, every reachable state can be
    continued until all threads outside have returned, and only polling can go on forever. *)
From Coq Require Import List Bool Arith Lia Permutation.
From Verif Require Import SchedModel SchedFacts SchedThms SystemModel SystemSteps SystemFacts SystemLock SystemMeasure.
Import ListNotations.

(** [sd]: the program may shut the scheduler down.  The invariants below hold until then. *)
Fixpoint calm (sd : bool) (p : prog) : Prop :=
  match p with
  | Done o => match o with OFatal _ => False | _ => True end
  | Work k | Enter k | Leave k => calm sd k
  | Spawn _ _ body k => (forall i, calm false (body i)) /\ forall a, calm sd (k a)
  | Shutdown _ => sd = true
  end.

Section Calm.
Context (sd : bool).
Definition calm_frame (w : bool) (fr : frame) : Prop :=
  match f_mode fr with
  | MCode p => calm (negb w && sd) p
  | MEval _ k st => (forall a, calm (negb w && sd) (k a)) /\ match st with SAcq _ (Some None) => False | _ => True end
  | MShut _ _ _ _ => False
  end.
Definition calm_worker (th : thread) : Prop :=
  t_finished th = false /\ match t_pc th with PExit | PUnlock true | PLock None => False | _ => True end.

Record calminv (s : sys) : Prop := CalmInv {
  c_worker : forall t th, nth_error (s_threads s) t = Some th -> t_worker th = true -> calm_worker th;
  c_frames : forall t th fr, nth_error (s_threads s) t = Some th -> In fr (t_stack th) -> calm_frame (t_worker th) fr;
  c_queue : ~ In None (s_queue s);
  c_bodies : forall e v i, nth_error (s_evals s) e = Some v -> calm false (v_body v i);
  c_some : exists t th, nth_error (s_threads s) t = Some th /\ t_worker th = true
}.

Lemma calm_change s t th th' q evs lk c h : calminv s -> nth_error (s_threads s) t = Some th ->
  t_worker th' = t_worker th -> (t_worker th' = true -> calm_worker th') ->
  (forall fr, In fr (t_stack th') -> calm_frame (t_worker th') fr) -> ~ In None q ->
  (forall e v i, nth_error evs e = Some v -> calm false (v_body v i)) ->
  calminv (Sys (setnth (s_threads s) t th') q lk evs c h).
Proof.
  intros [C1 C2 C3 C4 C5] Ht Hw Hcw Hf Hq Hb. split; cbn [s_threads s_queue s_lock s_evals s_clock s_events].
  - intros t' x Hx Hwx. apply setnth_cases in Hx. destruct Hx as [(-> & -> & _)|(_ & Hx)]; [auto|exact (C1 _ _ Hx Hwx)].
  - intros t' x fr Hx Hin. apply setnth_cases in Hx. destruct Hx as [(-> & -> & _)|(_ & Hx)]; [auto|exact (C2 _ _ _ Hx Hin)].
  - exact Hq.
  - exact Hb.
  - destruct C5 as (t0 & x & Hx & Hwx). destruct (Nat.eq_dec t0 t) as [->|Hne].
    + exists t, th'. rewrite (setnth_same _ _ _ _ Ht). split; [reflexivity|]. congruence.
    + exists t0, x. rewrite setnth_other by exact Hne. auto.
Qed.

Definition good (s : sys) : Prop := gen s /\ lockinv s /\ calminv s.

(** Thread [t] is not about to shut the scheduler down. *)
Definition not_stop (s : sys) (t : nat) : Prop :=
  forall th fr below k, nth_error (s_threads s) t = Some th -> t_stack th = fr :: below -> f_mode fr <> MCode (Shutdown k).
Lemma ns_top s t th fr below : nth_error (s_threads s) t = Some th -> t_stack th = fr :: below -> (forall k, f_mode fr <> MCode (Shutdown k)) -> not_stop s t.
Proof. intros Ht Hs Hm th0 fr0 below0 k Ht0 Hs0. assert (th0 = th) as -> by congruence. assert (fr0 = fr) as -> by congruence. apply Hm. Qed.
Lemma ns_pc s t th : nth_error (s_threads s) t = Some th -> t_stack th = [] -> not_stop s t.
Proof. intros Ht Hs th0 fr0 below0 k Ht0 Hs0. congruence. Qed.

Lemma calm_step s t s' : good s -> not_stop s t -> sys_step s t = Some s' -> calminv s'.
Proof.
  intros (G & L & K) Hns H. destruct (step_change _ _ _ H) as (th & Ht & C). pose proof (g_shape s G _ _ Ht) as Hsh.
  pose proof (c_worker s K t th Ht) as Hcw. pose proof (fun fr => c_frames s K t th fr Ht) as Hfr.
  pose proof (c_queue s K) as Hqu. pose proof (c_bodies s K) as Hb.
  assert (forall evs e l, eval_step (s_evals s) e l = Some evs -> forall e v i, nth_error evs e = Some v -> calm false (v_body v i)) as Hb'.
  { intros evs e l Hev e' v i Hv. destruct (step_bodies _ _ _ _ Hev _ _ Hv) as (v0 & E1 & E2). rewrite E2. eauto. }
  destruct C as [Hp|q qs Hp Hq|Hp Hl|e i s' Hp Hl Hst|lv Hp|fr below fr' lk h Hp Hs Hm|fr below o Hp Hs Hm Hf|fr below fr' q Hp Hs Hm
    |fr below j js k Hp Hs Hm|fr below e k was q qs Hp Hs Hm Hq|fr below e k was e' i' s' Hp Hs Hm Hl Hst
    |fr below e i o s' Hp Hs Hm Hf Hst|fr below n deps body k Hp Hs Hm|fr below e k st s' Hp Hs Hm Hst0 Hst].
  - apply calm_change with th; auto. intros Hw. destruct (Hcw Hw) as [E1 E2]. split; [exact E1|]. cbn. rewrite E1. exact I.
  - apply calm_change with th; auto.
    + intros Hw. destruct (Hcw Hw) as [E1 E2]. split; [exact E1|]. cbn. destruct q; [exact I|]. apply Hqu. rewrite Hq. left. reflexivity.
    + intros Hin. apply Hqu. rewrite Hq. right. exact Hin.
  - exfalso. unfold thread_shape in Hsh. rewrite Hp in Hsh. destruct (Hcw (proj2 Hsh)) as [_ E]. rewrite Hp in E. exact E.
  - destruct (start_inv' _ _ _ _ _ _ _ Hst) as (v & evs & Hv & Hev & ->). cbn in *. apply calm_change with th; auto.
    + intros Hw. destruct (Hcw Hw) as [E1 _]. split; [exact E1|exact I].
    + intros f [<-|[]]. unfold calm_frame. cbn. unfold thread_shape in Hsh. rewrite Hp in Hsh. rewrite (proj2 Hsh). exact (Hb _ _ _ Hv).
    + eapply Hb'. exact Hev.
  - apply calm_change with th; auto. intros Hw. destruct (Hcw Hw) as [E1 E2]. split; [exact E1|]. cbn. rewrite Hp in E2.
    destruct lv; [exact E2|]. cbn. rewrite (l_holds s L t th Ht); [exact I|]. unfold holder. rewrite Hp.
    unfold thread_shape in Hsh. rewrite Hp in Hsh. rewrite (proj2 Hsh). reflexivity.
  - assert (calm_frame (t_worker th) fr) as Hok by (apply Hfr; rewrite Hs; left; reflexivity).
    unfold go. apply calm_change with th; auto.
    + intros f [<-|Hin]; [|apply Hfr; rewrite Hs; right; exact Hin]. unfold calm_frame in *.
      destruct Hm; rewrite H0 in Hok; cbn in *; try contradiction; try exact Hok; try (exfalso; eapply Hns; eassumption); try (split; [apply Hok|exact I]). apply Hok.
  - unfold go. apply calm_change with th; auto; [|intros ? []]. intros Hw. exfalso.
    destruct (shape_stack th fr below Hsh Hp Hs) as (A1 & A2 & A3). cbn in Hw. rewrite Hw in A3. destruct A3 as [A3 _]. apply (A3 fr); [left; reflexivity|exact Hf].
  - assert (calm_frame (t_worker th) fr) as Hok by (apply Hfr; rewrite Hs; left; reflexivity). unfold calm_frame in Hok.
    destruct Hm as [e k i l Hm|p js b k Hm]; rewrite Hm in Hok; [|contradiction]. apply calm_change with th; auto.
    + intros f [<-|Hin]; [|apply Hfr; rewrite Hs; right; exact Hin]. exact Hok.
    + intros [Hx|Hx]; [discriminate|auto].
  - exfalso. assert (calm_frame (t_worker th) fr) as Hok by (apply Hfr; rewrite Hs; left; reflexivity). unfold calm_frame in Hok. rewrite Hm in Hok. exact Hok.
  - assert (calm_frame (t_worker th) fr) as Hok by (apply Hfr; rewrite Hs; left; reflexivity). unfold calm_frame in Hok. rewrite Hm in Hok.
    apply calm_change with th; auto.
    + intros f [<-|Hin]; [|apply Hfr; rewrite Hs; right; exact Hin]. unfold calm_frame. cbn. split; [apply Hok|].
      destruct q; [exact I|]. apply Hqu. rewrite Hq. left. reflexivity.
    + intros Hin. apply Hqu. rewrite Hq. right. exact Hin.
  - assert (calm_frame (t_worker th) fr) as Hok by (apply Hfr; rewrite Hs; left; reflexivity). unfold calm_frame in Hok. rewrite Hm in Hok.
    destruct (start_inv' _ _ _ _ _ _ _ Hst) as (v & evs & Hv & Hev & ->). cbn in *. apply calm_change with th; auto.
    + intros Hw. destruct (Hcw Hw) as [E1 _]. split; [exact E1|exact I].
    + intros f [<-|[<-|Hin]]; [|exact Hok|apply Hfr; rewrite Hs; right; exact Hin].
      destruct (shape_stack th fr below Hsh Hp Hs) as (A1 & A2 & A3). unfold calm_frame. cbn.
      destruct (t_worker th); [exact (Hb _ _ _ Hv)|]. exfalso. destruct A3 as (_ & _ & _ & _ & B). now eapply B; eassumption.
    + eapply Hb'. exact Hev.
  - assert (calm_frame (t_worker th) fr) as Hok by (apply Hfr; rewrite Hs; left; reflexivity). unfold calm_frame in Hok. rewrite Hm in Hok.
    assert (forall f, In f below -> calm_frame (t_worker th) f) as Hbe by (intros f Hin; apply Hfr; rewrite Hs; right; exact Hin).
    destruct (shape_stack th fr below Hsh Hp Hs) as (A1 & A2 & A3).
    destruct (finish_inv' _ _ _ _ _ _ _ _ Hst) as (evs & Hev & ->). apply calm_change with th; auto.
    + unfold resume. destruct below as [|f below']; [reflexivity|]. destruct (f_mode f) as [|? ? []|]; reflexivity.
    + intros Hw. assert (t_worker th = true) as Hw' by (unfold resume in Hw; destruct below as [|f below']; [exact Hw|destruct (f_mode f) as [|? ? []|]; exact Hw]).
      destruct (Hcw Hw') as [E1 _]. unfold resume. destruct below as [|f below'].
      * split; [exact E1|]. cbn. destruct o; [exact I|exact I|contradiction].
      * destruct (A1 f (or_introl eq_refl)) as (e1 & k1 & Ef). rewrite Ef. split; [exact E1|exact I].
    + unfold resume. destruct below as [|f below']; [intros ? []|]. destruct (A1 f (or_introl eq_refl)) as (e1 & k1 & Ef). rewrite Ef.
      pose proof (Hbe f (or_introl eq_refl)) as Hf0. unfold calm_frame in Hf0. rewrite Ef in Hf0.
      intros f' [<-|Hin]; [|apply Hbe; right; exact Hin]. unfold calm_frame. destruct o; [exact Hf0|exact Hf0|contradiction].
    + eapply Hb'. exact Hev.
  - assert (calm_frame (t_worker th) fr) as Hok by (apply Hfr; rewrite Hs; left; reflexivity). unfold calm_frame in Hok. rewrite Hm in Hok. destruct Hok as [O1 O2].
    unfold spawn. apply calm_change with th; auto.
    + intros f [<-|Hin]; [|apply Hfr; rewrite Hs; right; exact Hin]. split; [exact O2|exact I].
    + intros e v i Hv. destruct (Nat.lt_ge_cases e (length (s_evals s))) as [Hlt|Hge].
      * rewrite nth_error_app1 in Hv by exact Hlt. exact (Hb _ _ _ Hv).
      * rewrite nth_error_app2 in Hv by exact Hge. destruct (e - length (s_evals s)) as [|[|?]]; try discriminate. injection Hv as <-. apply O1.
  - assert (calm_frame (t_worker th) fr) as Hok by (apply Hfr; rewrite Hs; left; reflexivity). unfold calm_frame in Hok. rewrite Hm in Hok.
    destruct (process_inv' _ _ _ _ _ _ _ _ Hst) as (evs & Hev & ->). apply calm_change with th; auto.
    + intros f [<-|Hin]; [|apply Hfr; rewrite Hs; right; exact Hin]. split; [apply Hok|exact I].
    + eapply Hb'. exact Hev.
Qed.

Lemma good_step s t s' : good s -> not_stop s t -> sys_step s t = Some s' -> good s'.
Proof.
  intros Hg Hns H. split; [|split]; [exact (gen_step _ _ _ (proj1 Hg) H)|exact (lock_step _ _ _ (proj1 Hg) (proj1 (proj2 Hg)) H)|exact (calm_step _ _ _ Hg Hns H)].
Qed.
Lemma good_init w mains : (forall p, In p mains -> orderly false false p /\ calm sd p) -> good (sys_init w mains).
Proof.
  intros H. split; [apply gen_init|]. split; [apply lock_init; intros p Hp; apply H; exact Hp|]. split.
  - intros t th Ht Hw. destruct (init_thread _ _ _ _ Ht) as [->|(p & Hp & ->)]; [split; [reflexivity|exact I]|discriminate].
  - intros t th fr Ht Hin. destruct (init_thread _ _ _ _ Ht) as [->|(p & Hp & ->)]; [contradiction|]. cbn in Hin. destruct Hin as [<-|[]].
    apply (H p Hp).
  - intros [].
  - intros e v i Hv. destruct e; discriminate.
  - exists 0, worker. split; [|reflexivity]. destruct w; reflexivity.
Qed.

(** *** Progress *)
Definition progress (s : sys) : Prop := exists ts s', sys_runs s ts = Some s' /\ good s' /\ smaller (mu s') (mu s).

Lemma good_noshut s t : good s -> not_stop s t -> forall th fr below, nth_error (s_threads s) t = Some th -> t_stack th = fr :: below -> no_shutdown fr.
Proof.
  intros (_ & _ & K) Hns th fr below Ht Hs. pose proof (c_frames s K _ _ fr Ht ltac:(rewrite Hs; left; reflexivity)) as Hc.
  specialize (fun k => Hns th fr below k Ht Hs). unfold calm_frame, no_shutdown in *. destruct (f_mode fr) as [[]| |]; auto. exact (Hns _ eq_refl).
Qed.
Lemma ns_shape s t th : good s -> nth_error (s_threads s) t = Some th -> t_pc th <> PStack -> not_stop s t.
Proof.
  intros (G & _ & _) Ht Hp. apply (ns_pc s t th Ht). pose proof (g_shape s G _ _ Ht) as Hsh. unfold thread_shape in Hsh.
  destruct (t_pc th); try apply Hsh. congruence.
Qed.
Ltac ns := first [eapply ns_top; [eassumption|eassumption|intros; congruence]|eapply ns_shape; [eassumption|eassumption|congruence]].
Lemma then_progress s t s' : good s -> not_stop s t -> sys_step s t = Some s' -> progress s' -> progress s.
Proof.
  intros Hg Hns H (ts & s2 & H1 & G2 & H2). exists (t :: ts), s2. cbn. rewrite H. split; [exact H1|]. split; [exact G2|].
  destruct (mu_step s t s' (proj1 Hg) (good_noshut s t Hg Hns) H) as [[_ P]|[_ P]].
  - exact (smaller_perm _ _ _ P H2).
  - exact (smaller_trans _ _ _ H2 P).
Qed.
Lemma loud s t s' h : good s -> not_stop s t -> sys_step s t = Some s' -> s_events s' = h :: s_events s -> h <> HPut t -> progress s.
Proof.
  intros Hg Hns H He Hh. exists [t], s'. cbn. rewrite H. split; [reflexivity|]. split; [exact (good_step _ _ _ Hg Hns H)|].
  destruct (mu_step s t s' (proj1 Hg) (good_noshut s t Hg Hns) H) as [[Hq _]|[_ P]]; [|exact P]. exfalso. destruct Hq as [Hq|Hq]; rewrite He in Hq.
  - apply (f_equal (@length _)) in Hq. cbn in Hq. lia.
  - injection Hq as Hq. auto.
Qed.

Lemma step_stack s t th fr below : nth_error (s_threads s) t = Some th -> t_pc th = PStack -> t_stack th = fr :: below ->
  sys_step s t = frame_step s t th fr below.
Proof. intros H1 H2 H3. unfold sys_step. rewrite H1, H2, H3. reflexivity. Qed.

Lemma start_ok s t th below e i lk : good s -> In (e, i) (tokens s) -> exists s', start_task (locked s lk) t th below e i = Some s' /\
  exists h, s_events s' = HStart t e i :: h /\ h = s_events s.
Proof.
  intros (G & _ & _) Hin. apply (proj2 (g_tok s G)) in Hin. unfold ready_of in Hin.
  destruct (nth_error (s_evals s) e) as [v|] eqn:E; [|contradiction]. unfold start_task, eval_step. cbn. rewrite E.
  apply existsb_in in Hin. rewrite Hin. eexists. split; [reflexivity|]. eexists. split; reflexivity.
Qed.
Lemma hand_token s t th x : nth_error (s_threads s) t = Some th -> In x (hand th) -> In x (tokens s).
Proof. intros Ht Hx. unfold tokens. apply in_app_iff. right. apply in_flat_map. exists th. split; [exact (nth_error_In _ _ Ht)|exact Hx]. Qed.

Lemma evals_have s t th fr e k st : good s -> nth_error (s_threads s) t = Some th -> In fr (t_stack th) -> f_mode fr = MEval e k st ->
  exists v, nth_error (s_evals s) e = Some v.
Proof.
  intros (G & _ & _) Ht Hin Hm. assert (e < length (s_evals s)) as Hlt.
  { apply (g_own_lt s G). unfold owners. apply in_flat_map. exists th. split; [exact (nth_error_In _ _ Ht)|]. unfold waits. apply in_flat_map.
    exists fr. split; [exact Hin|]. unfold frame_wait. rewrite Hm. left. reflexivity. }
  destruct (nth_error (s_evals s) e) as [v|] eqn:E; [eauto|]. apply nth_error_None in E. lia.
Qed.

(** Code outside interruptible sections runs on. *)
Lemma code_runs s t th fr below p : good s -> nth_error (s_threads s) t = Some th -> t_pc th = PStack -> t_stack th = fr :: below ->
  f_mode fr = MCode p -> (forall k, p <> Shutdown k) -> (f_flags fr = [] \/ s_lock s = false) -> progress s.
Proof.
  intros Hg Ht Hp Hs Hm Hnk Hfl. pose proof (step_stack s t th fr below Ht Hp Hs) as Hst. unfold frame_step in Hst. rewrite Hm in Hst.
  destruct Hg as (G & L & K). assert (In fr (t_stack th)) as Hin by (rewrite Hs; left; reflexivity).
  pose proof (l_frames s L _ _ _ Ht Hin) as Hok. unfold frame_ok in Hok. rewrite Hm in Hok. destruct Hok as [O1 O2].
  pose proof (c_frames s K _ _ _ Ht Hin) as Hca. unfold calm_frame in Hca. rewrite Hm in Hca.
  destruct p as [o|k|n deps body k|k|k|k].
  - destruct (f_task fr) as [[e i]|] eqn:Ef.
    + unfold finish_task in Hst. destruct (eval_step (s_evals s) e (LFinish i o)) as [evs|] eqn:Ee.
      * eapply (loud s t); [exact (conj G (conj L K))|ns|exact Hst|reflexivity|discriminate].
      * exfalso. assert (In (e, i) (actives s)) as Ha.
        { unfold actives. apply in_flat_map. exists th. split; [exact (nth_error_In _ _ Ht)|]. unfold running. apply in_flat_map.
          exists fr. split; [exact Hin|]. unfold frame_task. rewrite Ef. left. reflexivity. }
        apply (proj2 (g_act s G)) in Ha. unfold active_of in Ha. unfold eval_step in Ee. destruct (nth_error (s_evals s) e) as [v|]; [|contradiction].
        cbn in Ee. apply existsb_in in Ha. rewrite Ha in Ee. discriminate.
    + eapply (loud s t); [exact (conj G (conj L K))|ns|exact Hst|reflexivity|discriminate].
  - eapply (loud s t); [exact (conj G (conj L K))|ns|exact Hst|reflexivity|discriminate].
  - eapply (loud s t); [exact (conj G (conj L K))|ns|exact Hst|reflexivity|discriminate].
  - eapply (loud s t); [exact (conj G (conj L K))|ns|exact Hst|reflexivity|discriminate].
  - destruct (f_flags fr) as [|b fl].
    + eapply (loud s t); [exact (conj G (conj L K))|ns|exact Hst|reflexivity|discriminate].
    + destruct Hfl as [Hfl|Hfl]; [discriminate|]. rewrite Hfl in Hst.
      destruct b; (eapply (loud s t); [exact (conj G (conj L K))|ns|exact Hst|reflexivity|discriminate]).
  - exfalso. exact (Hnk _ eq_refl).
Qed.

(** A step that only changes the topmost frame. *)
Lemma top_again s t th th' q lk c h : nth_error (s_threads s) t = Some th ->
  nth_error (s_threads (Sys (setnth (s_threads s) t th') q lk (s_evals s) c h)) t = Some th'.
Proof. intros Ht. cbn. exact (setnth_same _ _ _ _ Ht). Qed.

Lemma done_runs s t th fr below e k st v : good s -> nth_error (s_threads s) t = Some th -> t_pc th = PStack -> t_stack th = fr :: below ->
  f_mode fr = MEval e k st -> st = SDone \/ st = SWait -> nth_error (s_evals s) e = Some v -> e_doneq (v_est v) <> [] -> progress s.
Proof.
  intros Hg Ht Hp Hs Hm Hst0 Hv Hd. pose proof (step_stack s t th fr below Ht Hp Hs) as Hst. unfold frame_step in Hst. rewrite Hm in Hst.
  destruct (g_poll s (proj1 Hg) fr e k st) as (v' & Hv' & Hr); [apply (in_frames _ _ _ _ Ht); rewrite Hs; left; reflexivity|exact Hm|destruct Hst0 as [-> | ->]; reflexivity|].
  assert (v' = v) as -> by congruence.
  assert (exists s', process_done s t th fr below e k = Some s' /\ s_events s' = HProcess t e :: s_events s) as (s' & E1 & E2).
  { unfold process_done, eval_step. rewrite Hv. cbn. rewrite Hr. destruct (e_doneq (v_est v)) as [|i q]; [congruence|]. eexists. split; reflexivity. }
  rewrite Hv in Hst. destruct Hst0 as [-> | ->].
  - destruct (e_doneq (v_est v)) as [|i q] eqn:Ed; [congruence|]. rewrite E1 in Hst. eapply (loud s t); [exact Hg|ns|exact Hst|exact E2|discriminate].
  - rewrite E1 in Hst. eapply (loud s t); [exact Hg|ns|exact Hst|exact E2|discriminate].
Qed.
Lemma end_runs s t th fr below e k v : good s -> nth_error (s_threads s) t = Some th -> t_pc th = PStack -> t_stack th = fr :: below ->
  f_mode fr = MEval e k SLoop -> nth_error (s_evals s) e = Some v -> e_status (v_est v) <> Running -> progress s.
Proof.
  intros Hg Ht Hp Hs Hm Hv Hr. pose proof (step_stack s t th fr below Ht Hp Hs) as Hst. unfold frame_step in Hst. rewrite Hm, Hv in Hst.
  destruct (e_status (v_est v)); [congruence| | |]; (eapply (loud s t); [exact Hg|ns|exact Hst|reflexivity|discriminate]).
Qed.

(** *** Tasks on the queue are taken *)
Section Queue.
  Context (t : nat).
  Lemma acq_start s th fr below e k x : good s -> nth_error (s_threads s) t = Some th -> t_pc th = PStack -> t_stack th = fr :: below ->
    f_mode fr = MEval e k (SAcq true (Some (Some x))) -> s_lock s = false -> progress s.
  Proof.
    intros Hg Ht Hp Hs Hm Hl. pose proof (step_stack s t th fr below Ht Hp Hs) as Hst. unfold frame_step in Hst. rewrite Hm, Hl in Hst. cbn in Hst.
    destruct x as [e' i']. destruct (start_ok s t th (in_mode fr (MEval e k SNested) :: below) e' i' true Hg) as (s' & E1 & h & E2 & ->).
    - apply (hand_token s t th _ Ht). unfold hand. rewrite Hp, Hs. cbn. unfold frame_hand at 1. rewrite Hm. left. reflexivity.
    - rewrite E1 in Hst. eapply (loud s t); [exact Hg|ns|exact Hst|exact E2|discriminate].
  Qed.
  Lemma read_runs s th fr below e k : good s -> nth_error (s_threads s) t = Some th -> t_pc th = PStack -> t_stack th = fr :: below ->
    f_mode fr = MEval e k (SRead true) -> s_lock s = false -> s_queue s <> [] -> progress s.
  Proof.
    intros Hg Ht Hp Hs Hm Hl Hq. pose proof (step_stack s t th fr below Ht Hp Hs) as Hst. unfold frame_step in Hst. rewrite Hm in Hst.
    pose proof (c_queue s (proj2 (proj2 Hg))) as Hn. destruct (s_queue s) as [|[x|] qs]; [congruence| |exfalso; apply Hn; left; reflexivity].
    apply (then_progress s t _ Hg ltac:(ns) Hst). eapply acq_start; [exact (good_step _ _ _ Hg ltac:(ns) Hst)|eapply top_again; exact Ht|exact Hp|reflexivity|reflexivity|exact Hl].
  Qed.
  Lemma loop_runs s th fr below e k : good s -> nth_error (s_threads s) t = Some th -> t_pc th = PStack -> t_stack th = fr :: below -> t_worker th = true ->
    s_lock s = true ->
    f_mode fr = MEval e k SLoop -> s_queue s <> [] -> progress s.
  Proof.
    intros Hg Ht Hp Hs Hw Hl Hm Hq. pose proof (step_stack s t th fr below Ht Hp Hs) as Hst. unfold frame_step in Hst. rewrite Hm in Hst.
    destruct (evals_have s t th fr e k SLoop Hg Ht) as [v Hv]; [rewrite Hs; left; reflexivity|exact Hm|].
    destruct (e_status (v_est v)) eqn:Er; try (eapply (end_runs s t); try eassumption; congruence).
    rewrite Hv, Er, Hw, Hl in Hst.
    apply (then_progress s t _ Hg ltac:(ns) Hst). eapply read_runs; [exact (good_step _ _ _ Hg ltac:(ns) Hst)|eapply top_again; exact Ht|exact Hp|reflexivity|reflexivity|reflexivity|exact Hq].
  Qed.
  Lemma poll_runs s th fr below e k : good s -> nth_error (s_threads s) t = Some th -> t_pc th = PStack -> t_stack th = fr :: below -> t_worker th = true ->
    s_lock s = true -> f_mode fr = MEval e k SDone -> s_queue s <> [] -> progress s.
  Proof.
    intros Hg Ht Hp Hs Hw Hl Hm Hq. pose proof (step_stack s t th fr below Ht Hp Hs) as Hst. unfold frame_step in Hst. rewrite Hm in Hst.
    destruct (evals_have s t th fr e k SDone Hg Ht) as [v Hv]; [rewrite Hs; left; reflexivity|exact Hm|].
    destruct (e_doneq (v_est v)) as [|i q] eqn:Ed.
    - rewrite Hv, Ed in Hst. apply (then_progress s t _ Hg ltac:(ns) Hst).
      eapply loop_runs; [exact (good_step _ _ _ Hg ltac:(ns) Hst)|eapply top_again; exact Ht|exact Hp|reflexivity|exact Hw|exact Hl|reflexivity|exact Hq].
    - eapply (done_runs s t); try eassumption; [auto|congruence].
  Qed.
  Lemma acq_runs s th fr below e k : good s -> nth_error (s_threads s) t = Some th -> t_pc th = PStack -> t_stack th = fr :: below -> t_worker th = true ->
    s_lock s = false -> f_mode fr = MEval e k (SAcq true None) ->
    (s_queue s <> [] \/ exists v, nth_error (s_evals s) e = Some v /\ e_doneq (v_est v) <> []) -> progress s.
  Proof.
    intros Hg Ht Hp Hs Hw Hl Hm Hor. pose proof (step_stack s t th fr below Ht Hp Hs) as Hst. unfold frame_step in Hst. rewrite Hm, Hl in Hst. cbn in Hst.
    apply (then_progress s t _ Hg ltac:(ns) Hst). destruct Hor as [Hq|(v & Hv & Hd)].
    - eapply poll_runs; [exact (good_step _ _ _ Hg ltac:(ns) Hst)|eapply top_again; exact Ht|exact Hp|reflexivity|exact Hw|reflexivity|reflexivity|exact Hq].
    - eapply (done_runs _ t); [exact (good_step _ _ _ Hg ltac:(ns) Hst)|eapply top_again; exact Ht|exact Hp|reflexivity|reflexivity|auto|exact Hv|exact Hd].
  Qed.
End Queue.

Lemma free_top s t th fr below : good s -> nth_error (s_threads s) t = Some th -> t_pc th = PStack -> t_stack th = fr :: below -> t_worker th = true ->
  s_lock s = false ->
  progress s \/ (exists e k, f_mode fr = MEval e k (SRead true)) \/ (exists e k, f_mode fr = MEval e k (SAcq true None)).
Proof.
  intros Hg Ht Hp Hs Hw Hl. destruct (f_mode fr) as [p|e k st|] eqn:Hm.
  - left. eapply (code_runs s t); try eassumption; [|auto]. intros k ->.
    pose proof (c_frames s (proj2 (proj2 Hg)) _ _ fr Ht ltac:(rewrite Hs; left; reflexivity)) as Hca. unfold calm_frame in Hca. rewrite Hm, Hw in Hca. discriminate.
  - assert (In fr (t_stack th)) as Hin by (rewrite Hs; left; reflexivity).
    pose proof (l_frames s (proj1 (proj2 Hg)) _ _ _ Ht Hin) as Hok. unfold frame_ok in Hok. rewrite Hm in Hok. destruct Hok as (O1 & O2 & O3).
    pose proof (c_frames s (proj2 (proj2 Hg)) _ _ _ Ht Hin) as Hca. unfold calm_frame in Hca. rewrite Hm in Hca.
    destruct (shape_stack th fr below (g_shape s (proj1 Hg) _ _ Ht) Hp Hs) as (A1 & A2 & A3). rewrite Hw in A3. destruct A3 as (_ & A3 & _).
    assert (free_code fr = true -> False) as Hnf.
    { intros Hf. pose proof (l_holds s (proj1 (proj2 Hg)) _ _ Ht) as Hx. rewrite (holder_top th fr below Hp Hs), Hw, Hf in Hx. specialize (Hx eq_refl). congruence. }
    unfold free_code in Hnf. rewrite O1, Hm in Hnf. destruct st as [l| |was|was got| | |]; try (exfalso; apply Hnf; reflexivity).
    + subst was. right. left. eauto.
    + subst was. destruct got as [[x|]|]; [|exfalso; exact (proj2 Hca)|right; right; eauto]. left. eapply (acq_start t); eassumption.
    + exfalso. exact (A2 _ _ Hm).
    + exfalso. exact (A3 _ _ Hm).
  - exfalso. assert (In fr (t_stack th)) as Hin by (rewrite Hs; left; reflexivity).
    pose proof (c_frames s (proj2 (proj2 Hg)) _ _ _ Ht Hin) as Hca. unfold calm_frame in Hca. rewrite Hm in Hca. exact Hca.
Qed.

Lemma locked_start s t th e i : good s -> nth_error (s_threads s) t = Some th -> t_pc th = PLock (Some (e, i)) -> s_lock s = false -> progress s.
Proof.
  intros Hg Ht Hp Hl. destruct (start_ok s t th [] e i true Hg) as (s' & E1 & h & E2 & ->).
  - apply (hand_token s t th _ Ht). unfold hand. rewrite Hp. left. reflexivity.
  - apply (loud s t s' (HStart t e i) Hg); [ns| |exact E2|discriminate]. unfold sys_step. rewrite Ht, Hp, Hl. exact E1.
Qed.

Lemma queue_runs s : good s -> s_lock s = false -> s_queue s <> [] -> progress s.
Proof.
  intros Hg Hl Hq. destruct (c_some s (proj2 (proj2 Hg))) as (t & th & Ht & Hw).
  pose proof (c_worker s (proj2 (proj2 Hg)) _ _ Ht Hw) as [Hfin Hpc].
  assert (forall s1 th1, good s1 -> nth_error (s_threads s1) t = Some th1 -> t_pc th1 = PGet -> s_lock s1 = false -> s_queue s1 <> [] -> progress s1) as Hget.
  { intros s1 th1 G1 Ht1 Hp1 Hl1 Hq1. pose proof (c_queue s1 (proj2 (proj2 G1))) as Hn.
    destruct (s_queue s1) as [|[[e i]|] qs] eqn:Eq; [congruence| |exfalso; apply Hn; left; reflexivity].
    assert (sys_step s1 t = Some (Sys (setnth (s_threads s1) t (at_pc th1 (PLock (Some (e, i))))) qs (s_lock s1) (s_evals s1) (s_clock s1) (s_events s1))) as Hst
      by (unfold sys_step; rewrite Ht1, Hp1, Eq; reflexivity).
    apply (then_progress s1 t _ G1 ltac:(ns) Hst). eapply (locked_start _ t); [exact (good_step _ _ _ G1 ltac:(ns) Hst)|eapply top_again; exact Ht1|reflexivity|exact Hl1]. }
  destruct (t_pc th) as [| |[[e i]|]| |[|]|] eqn:Hp; try contradiction.
  - assert (sys_step s t = Some (go s t (at_pc th PGet) (s_lock s) [])) as Hst by (unfold sys_step; rewrite Ht, Hp, Hfin; reflexivity).
    apply (then_progress s t _ Hg ltac:(ns) Hst). apply (Hget _ (at_pc th PGet)); [exact (good_step _ _ _ Hg ltac:(ns) Hst)|eapply top_again; exact Ht|reflexivity|exact Hl|exact Hq].
  - exact (Hget s th Hg Ht Hp Hl Hq).
  - eapply (locked_start s t); eassumption.
  - pose proof (g_shape s (proj1 Hg) _ _ Ht) as Hsh. pose proof Hsh as Hsh'. unfold thread_shape in Hsh'. rewrite Hp in Hsh'. destruct Hsh' as (fr & below & Hs & _).
    destruct (free_top s t th fr below Hg Ht Hp Hs Hw Hl) as [Hpr|[(e & k & Hm)|(e & k & Hm)]]; [exact Hpr| |].
    + eapply (read_runs t); eassumption.
    + eapply (acq_runs t); try eassumption. auto.
  - exfalso. pose proof (l_holds s (proj1 (proj2 Hg)) _ _ Ht) as Hx. unfold holder in Hx. rewrite Hp, Hw in Hx. specialize (Hx eq_refl). congruence.
Qed.

(** *** Nothing is stuck *)
Definition stopping (th : thread) : Prop := t_worker th = false /\ exists fr k, t_stack th = [fr] /\ f_mode fr = MCode (Shutdown k).
Definition waiting (s : sys) (th : thread) : Prop :=
  hand th = [] /\
  forall fr below, t_stack th = fr :: below -> stopping th \/ exists e k st v, f_mode fr = MEval e k st /\ nth_error (s_evals s) e = Some v /\
    e_status (v_est v) = Running /\ e_doneq (v_est v) = [].

Lemma or_waiting s t th : good s -> s_lock s = false -> s_queue s = [] -> nth_error (s_threads s) t = Some th -> progress s \/ waiting s th.
Proof.
  intros Hg Hl Hq Ht. pose proof (g_shape s (proj1 Hg) _ _ Ht) as Hsh. destruct (t_worker th) eqn:Hw.
  - pose proof (c_worker s (proj2 (proj2 Hg)) _ _ Ht Hw) as [Hfin Hpc].
    destruct (t_pc th) as [| |[[e i]|]| |[|]|] eqn:Hp; try contradiction.
    + right. unfold thread_shape in Hsh. rewrite Hp in Hsh. destruct Hsh as [Hs _]. split; [unfold hand; rewrite Hp, Hs; reflexivity|]. intros fr below E. congruence.
    + right. unfold thread_shape in Hsh. rewrite Hp in Hsh. destruct Hsh as [Hs _]. split; [unfold hand; rewrite Hp, Hs; reflexivity|]. intros fr below E. congruence.
    + left. eapply (locked_start s t); eassumption.
    + pose proof Hsh as Hsh'. unfold thread_shape in Hsh'. rewrite Hp in Hsh'. destruct Hsh' as (fr & below & Hs & _).
      destruct (shape_stack th fr below Hsh Hp Hs) as (A1 & A2 & A3).
      destruct (free_top s t th fr below Hg Ht Hp Hs Hw Hl) as [Hpr|Hor]; [auto|].
      assert (exists e k st v, f_mode fr = MEval e k st /\ nth_error (s_evals s) e = Some v /\ e_status (v_est v) = Running /\ frame_hand fr = []) as (e & k & st & v & Hm & Hv & Hr & Hh).
      { assert (In fr (frames s)) as Hin by (apply (in_frames _ _ _ _ Ht); rewrite Hs; left; reflexivity).
        destruct Hor as [(e & k & Hm)|(e & k & Hm)]; destruct (g_poll s (proj1 Hg) fr e k _ Hin Hm eq_refl) as (v & Hv & Hr);
          exists e, k; do 2 eexists; (split; [exact Hm|]); (split; [exact Hv|]); (split; [exact Hr|]); unfold frame_hand; rewrite Hm; reflexivity. }
      destruct (e_doneq (v_est v)) as [|i q] eqn:Ed.
      * right. split; [unfold hand; rewrite Hp, Hs; cbn; rewrite Hh; apply nested_hand; exact A1|].
        intros fr0 below0 E. rewrite Hs in E. injection E as <- <-. right. exists e, k, st, v. auto.
      * left. destruct Hor as [(e1 & k1 & Hm1)|(e1 & k1 & Hm1)]; rewrite Hm in Hm1; injection Hm1 as <- <- ->.
        -- pose proof (step_stack s t th fr below Ht Hp Hs) as Hst. unfold frame_step in Hst. rewrite Hm, Hq in Hst.
           apply (then_progress s t _ Hg ltac:(ns) Hst). eapply (acq_runs t); [exact (good_step _ _ _ Hg ltac:(ns) Hst)|eapply top_again; exact Ht|exact Hp|reflexivity|exact Hw|exact Hl|reflexivity|].
           right. exists v. split; [exact Hv|congruence].
        -- eapply (acq_runs t); try eassumption. right. exists v. split; [exact Hv|congruence].
    + exfalso. pose proof (l_holds s (proj1 (proj2 Hg)) _ _ Ht) as Hx. unfold holder in Hx. rewrite Hp, Hw in Hx. specialize (Hx eq_refl). congruence.
  - destruct (t_pc th) as [| |q| |lv|] eqn:Hp.
    1-3,5: exfalso; unfold thread_shape in Hsh; rewrite Hp in Hsh; destruct Hsh as [_ Hsh]; congruence.
    2: { right. unfold thread_shape in Hsh. rewrite Hp in Hsh. split; [unfold hand; rewrite Hp, Hsh; reflexivity|]. intros fr below E. congruence. }
    pose proof Hsh as Hsh'. unfold thread_shape in Hsh'. rewrite Hp in Hsh'. destruct Hsh' as (fr & below & Hs & _).
    destruct (shape_stack th fr below Hsh Hp Hs) as (A1 & A2 & A3). rewrite Hw in A3. destruct A3 as (-> & A4 & A5 & A6 & A7).
    assert (In fr (t_stack th)) as Hin by (rewrite Hs; left; reflexivity).
    pose proof (step_stack s t th fr [] Ht Hp Hs) as Hst. unfold frame_step in Hst.
    destruct (f_mode fr) as [p|e k st|] eqn:Hm.
    + destruct p as [o|k|n deps body k|k|k|k]; try (left; eapply (code_runs s t); [exact Hg|exact Ht|exact Hp|exact Hs|exact Hm|discriminate|auto]).
      right. split; [unfold hand; rewrite Hp, Hs; cbn; unfold frame_hand; rewrite Hm; reflexivity|]. intros fr0 below0 _. left. split; [exact Hw|].
      exists fr, k. auto.
    + destruct (evals_have s t th fr e k st Hg Ht Hin Hm) as [v Hv].
      assert (e_status (v_est v) = Running -> e_doneq (v_est v) = [] -> frame_hand fr = [] -> waiting s th) as Hwait.
      { intros Hr Hd Hh. split; [unfold hand; rewrite Hp, Hs; cbn; rewrite Hh; reflexivity|].
        intros fr0 below0 E. rewrite Hs in E. injection E as <- <-. right. exists e, k, st, v. auto. }
      assert (forall s1 th1 fr1, good s1 -> nth_error (s_threads s1) t = Some th1 -> t_pc th1 = PStack -> t_stack th1 = [fr1] -> t_worker th1 = false ->
        f_mode fr1 = MEval e k SLoop -> nth_error (s_evals s1) e = Some v -> e_status (v_est v) <> Running \/ e_doneq (v_est v) <> [] -> progress s1) as Hloop.
      { intros s1 th1 fr1 G1 Ht1 Hp1 Hs1 Hw1 Hm1 Hv1 Hor. destruct (e_status (v_est v)) eqn:Er; try (eapply (end_runs s1 t); try eassumption; congruence).
        destruct Hor as [Hor|Hor]; [congruence|].
        pose proof (step_stack s1 t th1 fr1 [] Ht1 Hp1 Hs1) as Hst1. unfold frame_step in Hst1. rewrite Hm1, Hv1, Er, Hw1 in Hst1.
        apply (then_progress s1 t _ G1 ltac:(ns) Hst1). eapply (done_runs _ t); [exact (good_step _ _ _ G1 ltac:(ns) Hst1)|eapply top_again; exact Ht1|exact Hp1|reflexivity|reflexivity|auto|exact Hv1|exact Hor]. }
      destruct st as [[|i l]| |was|was got| | |].
      * assert (frame_hand fr = []) as Hh by (unfold frame_hand; rewrite Hm; reflexivity).
        assert ((e_status (v_est v) <> Running \/ e_doneq (v_est v) <> []) -> progress s) as Hl1.
        { intros Hor. apply (then_progress s t _ Hg ltac:(ns) Hst). eapply (Hloop _ _ (in_mode fr (MEval e k SLoop))); [exact (good_step _ _ _ Hg ltac:(ns) Hst)|eapply top_again; exact Ht|exact Hp|reflexivity|exact Hw|reflexivity|exact Hv|exact Hor]. }
        destruct (e_status (v_est v)); try (left; apply Hl1; left; discriminate). destruct (e_doneq (v_est v)); [right; auto|left; apply Hl1; right; discriminate].
      * left. apply (then_progress s t _ Hg ltac:(ns) Hst). apply queue_runs; [exact (good_step _ _ _ Hg ltac:(ns) Hst)|exact Hl|discriminate].
      * assert (frame_hand fr = []) as Hh by (unfold frame_hand; rewrite Hm; reflexivity).
        assert ((e_status (v_est v) <> Running \/ e_doneq (v_est v) <> []) -> progress s) as Hl1 by (intros Hor; eapply (Hloop s th fr); eassumption).
        destruct (e_status (v_est v)); try (left; apply Hl1; left; discriminate). destruct (e_doneq (v_est v)); [right; auto|left; apply Hl1; right; discriminate].
      * exfalso. eapply A6; first [eassumption|reflexivity].
      * exfalso. eapply A7; first [eassumption|reflexivity].
      * exfalso. eapply A2; first [eassumption|reflexivity].
      * exfalso. eapply A5; first [eassumption|reflexivity].
      * destruct (g_poll s (proj1 Hg) fr e k SWait) as (v' & Hv' & Hr); [exact (in_frames _ _ _ _ Ht Hin)|exact Hm|reflexivity|].
        assert (v' = v) as -> by congruence. destruct (e_doneq (v_est v)) as [|i q] eqn:Ed.
        -- right. apply Hwait; auto. unfold frame_hand. rewrite Hm. reflexivity.
        -- left. eapply (done_runs s t); try eassumption; [auto|congruence].
    + exfalso. pose proof (c_frames s (proj2 (proj2 Hg)) _ _ _ Ht Hin) as Hca. unfold calm_frame in Hca. rewrite Hm in Hca. exact Hca.
Qed.

Lemma all_or {X} (l : list X) (A : Prop) (B : X -> Prop) : (forall x, In x l -> A \/ B x) -> A \/ forall x, In x l -> B x.
Proof.
  induction l as [|x l IH]; intros H; [right; intros ? []|]. destruct (H x (or_introl eq_refl)) as [Ha|Hb]; [auto|].
  destruct IH as [Ha|Hall]; [intros y Hy; apply H; right; exact Hy|auto|]. right. intros y [<-|Hy]; auto.
Qed.

(** If all threads wait, one waits for a task of a later frame, which waits as well, ... *)
Lemma not_all_wait s : good s -> s_queue s = [] -> (forall th, In th (s_threads s) -> waiting s th) ->
  forall m t th fr below, nth_error (s_threads s) t = Some th -> t_stack th = fr :: below -> ~ stopping th -> s_clock s - f_time fr <= m -> False.
Proof.
  intros Hg Hq Hall. pose proof (proj1 Hg) as G. induction m as [|m IH]; intros t th fr below Ht Hs Hns Hle.
  - assert (f_time fr < s_clock s); [|lia]. apply (g_time s G). apply (in_frames _ _ _ _ Ht). rewrite Hs. left. reflexivity.
  - destruct (Hall th (nth_error_In _ _ Ht)) as [_ Hw]. destruct (Hw fr below Hs) as [?|(e & k & st & v & Hm & Hv & Hr & Hd)]; [contradiction|].
    assert (In fr (frames s)) as Hin by (apply (in_frames _ _ _ _ Ht); rewrite Hs; left; reflexivity).
    destruct (eval_ok_inv v (g_evals s G _ _ Hv)) as [_ Hst]. rewrite Hr in Hst. destruct Hst as (Hb & Hc & _).
    rewrite (b_count _ Hb), Hd in Hc. cbn in Hc.
    destruct (e_ready (v_est v)) as [|i q] eqn:Er.
    + destruct (e_active (v_est v)) as [|i q] eqn:Ea; [cbn in Hc; lia|].
      assert (In (e, i) (actives s)) as Hact by (apply (proj2 (g_act s G)); unfold active_of; rewrite Hv, Ea; left; reflexivity).
      unfold actives in Hact. apply in_flat_map in Hact. destruct Hact as (th' & Hth' & Hru). unfold running in Hru. apply in_flat_map in Hru.
      destruct Hru as (fr' & Hf' & Hft). unfold frame_task in Hft. destruct (f_task fr') as [x|] eqn:Ef; [|contradiction].
      destruct Hft as [->|[]]. apply In_nth_error in Hth'. destruct Hth' as [t' Ht'].
      assert (f_time fr < f_time fr') as Hlt by (apply (g_wait s G fr e k st Hin Hm fr' i); [exact (in_frames _ _ _ _ Ht' Hf')|exact Ef]).
      destruct (t_stack th') as [|fr1 below1] eqn:Es; [contradiction|].
      assert (f_time fr' <= f_time fr1) as Hle1.
      { pose proof (g_stack s G _ _ Ht') as Hsk. rewrite Es in Hsk. destruct Hsk as [Hsk _]. destruct Hf' as [<-|Hf']; [lia|]. specialize (Hsk _ Hf'). lia. }
      apply (IH t' th' fr1 below1 Ht' Es); [|lia]. intros [Hw' (fr2 & k2 & Es2 & _)]. rewrite Es2 in Es. injection Es as -> <-.
      pose proof (g_shape s G _ _ Ht') as Hsh. destruct Hf' as [->|[]]. unfold thread_shape in Hsh. rewrite Es2 in Hsh.
      destruct (t_pc th'); try (destruct Hsh; discriminate); [|discriminate]. destruct Hsh as (f3 & b3 & E3 & _ & _ & Hif). injection E3 as <- <-.
      rewrite Hw' in Hif. destruct Hif as (_ & Hx & _). congruence.
    + assert (In (e, i) (tokens s)) as Htok by (apply (proj2 (g_tok s G)); unfold ready_of; rewrite Hv, Er; left; reflexivity).
      unfold tokens in Htok. rewrite Hq in Htok. cbn in Htok. apply in_flat_map in Htok. destruct Htok as (th' & Hth' & Hh).
      destruct (Hall th' Hth') as [Hn _]. rewrite Hn in Hh. contradiction.
Qed.

Definition alive (s : sys) : Prop := exists t th, nth_error (s_threads s) t = Some th /\ t_worker th = false /\ t_pc th <> PExit /\ ~ stopping th.

Lemma free_progress s : good s -> s_lock s = false -> alive s -> progress s.
Proof.
  intros Hg Hl (t & th & Ht & Hw & Hp & Hns). destruct (s_queue s) as [|q qs] eqn:Hq; [|apply queue_runs; [exact Hg|exact Hl|congruence]].
  destruct (all_or (s_threads s) (progress s) (waiting s)) as [Hpr|Hall]; [|exact Hpr|].
  - intros x Hx. apply In_nth_error in Hx. destruct Hx as [t' Hx]. eapply or_waiting; eassumption.
  - exfalso. pose proof (g_shape s (proj1 Hg) _ _ Ht) as Hsh. unfold thread_shape in Hsh.
    destruct (t_pc th); try (destruct Hsh; congruence). destruct Hsh as (fr & below & Hs & _).
    exact (not_all_wait s Hg Hq Hall (s_clock s - f_time fr) t th fr below Ht Hs Hns (le_n _)).
Qed.

(** *** With the lock held *)
Lemma others_kept s t s' : sys_step s t = Some s' -> forall t' x, t' <> t -> nth_error (s_threads s) t' = Some x ->
  exists x', nth_error (s_threads s') t' = Some x' /\ t_worker x' = t_worker x /\ t_pc x' = t_pc x /\ t_stack x' = t_stack x.
Proof.
  intros H t' x Hne Hx. destruct (step_change _ _ _ H) as (th & Ht & C).
  assert (forall th', nth_error (setnth (s_threads s) t th') t' = Some x) as Hsame by (intros th'; rewrite setnth_other by exact Hne; exact Hx).
  destruct C as [Hp|q qs Hp Hq|Hp Hl|e i s' Hp Hl Hst|lv Hp|fr below fr' lk h Hp Hs Hm|fr below o Hp Hs Hm Hf|fr below fr' q Hp Hs Hm
    |fr below j js k Hp Hs Hm|fr below e k was q qs Hp Hs Hm Hq|fr below e k was e' i' s' Hp Hs Hm Hl Hst
    |fr below e i o s' Hp Hs Hm Hf Hst|fr below n deps body k Hp Hs Hm|fr below e k st s' Hp Hs Hm Hst0 Hst];
    try (exists x; split; [apply Hsame|auto]; fail).
  - destruct (start_inv' _ _ _ _ _ _ _ Hst) as (v & evs & Hv & Hev & ->). exists x. split; [apply Hsame|auto].
  - cbn. exact (tell_nth' _ j _ _ (Hsame _)).
  - destruct (start_inv' _ _ _ _ _ _ _ Hst) as (v & evs & Hv & Hev & ->). exists x. split; [apply Hsame|auto].
  - destruct (finish_inv' _ _ _ _ _ _ _ _ Hst) as (evs & Hev & ->). exists x. split; [apply Hsame|auto].
  - destruct (process_inv' _ _ _ _ _ _ _ _ Hst) as (evs & Hev & ->). exists x. split; [apply Hsame|auto].
Qed.
Lemma alive_step s t th s' : nth_error (s_threads s) t = Some th -> t_worker th = true -> sys_step s t = Some s' -> alive s -> alive s'.
Proof.
  intros Ht Hw H (t' & x & Hx & Hwx & Hpx & Hnx). assert (t' <> t) as Hne by (intros ->; congruence).
  destruct (others_kept _ _ _ H t' x Hne Hx) as (x' & H1 & H2 & H3 & H4). exists t', x'. split; [exact H1|].
  split; [congruence|]. split; [congruence|]. unfold stopping in *. rewrite H2, H4. exact Hnx.
Qed.

Lemma held_loop s t th fr below e k : good s -> alive s -> nth_error (s_threads s) t = Some th -> t_pc th = PStack -> t_stack th = fr :: below ->
  t_worker th = true -> f_mode fr = MEval e k SLoop -> progress s.
Proof.
  intros Hg Ha Ht Hp Hs Hw Hm. pose proof (step_stack s t th fr below Ht Hp Hs) as Hst. unfold frame_step in Hst. rewrite Hm in Hst.
  destruct (evals_have s t th fr e k SLoop Hg Ht) as [v Hv]; [rewrite Hs; left; reflexivity|exact Hm|].
  destruct (e_status (v_est v)) eqn:Er; try (eapply (end_runs s t); try eassumption; congruence).
  rewrite Hv, Er, Hw in Hst. apply (then_progress s t _ Hg ltac:(ns) Hst). apply free_progress; [exact (good_step _ _ _ Hg ltac:(ns) Hst)|reflexivity|].
  exact (alive_step _ _ _ _ Ht Hw Hst Ha).
Qed.
Lemma held_put l : forall s t th fr below e k, good s -> alive s -> nth_error (s_threads s) t = Some th -> t_pc th = PStack -> t_stack th = fr :: below ->
  t_worker th = true -> f_mode fr = MEval e k (SPut l) -> progress s.
Proof.
  induction l as [|i l IH]; intros s t th fr below e k Hg Ha Ht Hp Hs Hw Hm;
    pose proof (step_stack s t th fr below Ht Hp Hs) as Hst; unfold frame_step in Hst; rewrite Hm in Hst; apply (then_progress s t _ Hg ltac:(ns) Hst).
  - eapply (held_loop _ t); [exact (good_step _ _ _ Hg ltac:(ns) Hst)|exact (alive_step _ _ _ _ Ht Hw Hst Ha)|eapply top_again; exact Ht|exact Hp|reflexivity|exact Hw|reflexivity].
  - eapply (IH _ t); [exact (good_step _ _ _ Hg ltac:(ns) Hst)|exact (alive_step _ _ _ _ Ht Hw Hst Ha)|eapply top_again; exact Ht|exact Hp|reflexivity|exact Hw|reflexivity].
Qed.

Theorem can_progress s : good s -> alive s -> progress s.
Proof.
  intros Hg Ha. destruct (s_lock s) eqn:Hl; [|exact (free_progress s Hg Hl Ha)].
  destruct (l_held s (proj1 (proj2 Hg)) Hl) as (t & th & Ht & Hh). unfold holder in Hh. apply andb_true_iff in Hh. destruct Hh as [Hw Hh].
  destruct (t_pc th) as [| |q| |lv|] eqn:Hp; try discriminate.
  - destruct (t_stack th) as [|fr below] eqn:Hs; [discriminate|].
    unfold free_code in Hh. destruct (f_flags fr) eqn:Hfl; [|discriminate]. destruct (f_mode fr) as [p|e k st|] eqn:Hm; [| |discriminate].
    + eapply (code_runs s t); try eassumption; [|auto]. intros k ->.
      pose proof (c_frames s (proj2 (proj2 Hg)) _ _ fr Ht ltac:(rewrite Hs; left; reflexivity)) as Hca. unfold calm_frame in Hca. rewrite Hm, Hw in Hca. discriminate.
    + destruct st as [l| |was|was got| | |]; try discriminate.
      * eapply (held_put l s t); eassumption.
      * eapply (held_loop s t); eassumption.
      * destruct (evals_have s t th fr e k SDone Hg Ht) as [v Hv]; [rewrite Hs; left; reflexivity|exact Hm|].
        destruct (e_doneq (v_est v)) as [|i q] eqn:Ed; [|eapply (done_runs s t); try eassumption; [auto|congruence]].
        pose proof (step_stack s t th fr below Ht Hp Hs) as Hst. unfold frame_step in Hst. rewrite Hm, Hv, Ed in Hst. apply (then_progress s t _ Hg ltac:(ns) Hst).
        eapply (held_loop _ t); [exact (good_step _ _ _ Hg ltac:(ns) Hst)|exact (alive_step _ _ _ _ Ht Hw Hst Ha)|eapply top_again; exact Ht|exact Hp|reflexivity|exact Hw|reflexivity].
  - assert (sys_step s t = Some (go s t (at_pc th (if lv || negb (s_lock s) then PExit else PTop)) false [])) as Hst by (unfold sys_step; rewrite Ht, Hp; reflexivity).
    apply (then_progress s t _ Hg ltac:(ns) Hst). apply free_progress; [exact (good_step _ _ _ Hg ltac:(ns) Hst)|reflexivity|exact (alive_step _ _ _ _ Ht Hw Hst Ha)].
Qed.

Definition over (s : sys) : Prop :=
  forall t th, nth_error (s_threads s) t = Some th -> t_worker th = false -> t_pc th = PExit \/ stopping th.
Lemma stopping_dec th : stopping th \/ ~ stopping th.
Proof.
  unfold stopping. destruct (t_worker th); [right; intros [? _]; discriminate|].
  destruct (t_stack th) as [|fr [|fr2 l]]; [right; intros (_ & ? & ? & ? & _); discriminate| |right; intros (_ & ? & ? & ? & _); discriminate].
  destruct (f_mode fr) as [[]| |] eqn:Em; try (right; intros (_ & f & k0 & Ef & Hf); injection Ef as <-; congruence).
  left. split; [reflexivity|]. exists fr. eauto.
Qed.
Lemma alive_dec s : alive s \/ over s.
Proof.
  destruct (all_or (s_threads s) (alive s) (fun th => t_worker th = false -> t_pc th = PExit \/ stopping th)) as [Ha|Hn]; [|auto|].
  - intros th Hin. destruct (t_worker th) eqn:Hw; [right; congruence|]. apply In_nth_error in Hin. destruct Hin as [t Ht].
    destruct (stopping_dec th) as [Hs|Hs]; [auto|].
    destruct (t_pc th) eqn:Hp; try (left; exists t, th; split; [exact Ht|]; split; [exact Hw|]; split; [congruence|exact Hs]). right. auto.
  - right. intros t th Ht. apply Hn. exact (nth_error_In _ _ Ht).
Qed.

Lemma runs_app ts1 : forall s s1 ts2 s2, sys_runs s ts1 = Some s1 -> sys_runs s1 ts2 = Some s2 -> sys_runs s (ts1 ++ ts2) = Some s2.
Proof.
  induction ts1 as [|t ts1 IH]; intros s s1 ts2 s2 H1 H2; cbn in *; [congruence|].
  destruct (sys_step s t) as [s0|]; [|discriminate]. exact (IH _ _ _ _ H1 H2).
Qed.

Theorem can_complete s : good s -> exists ts s', sys_runs s ts = Some s' /\ good s' /\ over s'.
Proof.
  remember (mu s) as m eqn:Em. revert s Em. induction m as [m IH] using (well_founded_ind smaller_wf). intros s -> Hg.
  destruct (alive_dec s) as [Ha|Hn]; [|exists [], s; auto].
  destruct (can_progress s Hg Ha) as (ts & s1 & H1 & G1 & H2).
  destruct (IH (mu s1) H2 s1 eq_refl G1) as (ts2 & s2 & H3 & H4).
  exists (ts ++ ts2), s2. split; [exact (runs_app _ _ _ _ _ H1 H3)|exact H4].
Qed.
End Calm.
