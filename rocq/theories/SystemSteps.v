(** The steps of SystemModel, one constructor for each. *)
From Coq Require Import List Bool Arith Lia Permutation.
From Verif Require Import SchedModel SchedFacts SystemModel.
Import ListNotations.

(** Steps changing only the topmost frame and the lock. *)
Inductive fmove (s : sys) (t : nat) (th : thread) (fr : frame) : frame -> bool -> list happening -> Prop :=
  | fm_work k : f_mode fr = MCode (Work k) -> fmove s t th fr (in_mode fr (MCode k)) (s_lock s) [HCode t]
  | fm_enter k : f_mode fr = MCode (Enter k) -> fmove s t th fr (with_flags fr (s_lock s :: f_flags fr) (MCode k)) false [HCode t]
  | fm_leave_nil k : f_mode fr = MCode (Leave k) -> f_flags fr = [] -> fmove s t th fr (in_mode fr (MCode k)) (s_lock s) [HCode t]
  | fm_leave_false k fl : f_mode fr = MCode (Leave k) -> f_flags fr = false :: fl ->
      fmove s t th fr (with_flags fr fl (MCode k)) (s_lock s) [HCode t]
  | fm_leave_true k fl : f_mode fr = MCode (Leave k) -> f_flags fr = true :: fl -> s_lock s = false ->
      fmove s t th fr (with_flags fr fl (MCode k)) true [HCode t]
  | fm_shutdown k : f_mode fr = MCode (Shutdown k) -> t_worker th = false ->
      fmove s t th fr (in_mode fr (MShut (length (workers s)) (workers s) false k)) (s_lock s) [HCode t]
  | fm_join j js k : f_mode fr = MShut 0 (j :: js) true k -> is_exit s j = true ->
      fmove s t th fr (in_mode fr (MShut 0 js false k)) (s_lock s) [HCode t]
  | fm_shut_end b k : f_mode fr = MShut 0 [] b k -> fmove s t th fr (in_mode fr (MCode k)) (s_lock s) [HCode t]
  | fm_put_nil e k : f_mode fr = MEval e k (SPut []) -> fmove s t th fr (in_mode fr (MEval e k SLoop)) (s_lock s) []
  | fm_loop_read e k v : f_mode fr = MEval e k SLoop -> nth_error (s_evals s) e = Some v -> e_status (v_est v) = Running ->
      t_worker th = true -> fmove s t th fr (in_mode fr (MEval e k (SRead (s_lock s)))) false []
  | fm_loop_wait e k v : f_mode fr = MEval e k SLoop -> nth_error (s_evals s) e = Some v -> e_status (v_est v) = Running ->
      t_worker th = false -> fmove s t th fr (in_mode fr (MEval e k SWait)) (s_lock s) []
  | fm_loop_end e k v : f_mode fr = MEval e k SLoop -> nth_error (s_evals s) e = Some v -> e_status (v_est v) <> Running ->
      fmove s t th fr (in_mode fr (MCode (k (AEnd (e_status (v_est v)) (e_out (v_est v)))))) (s_lock s) [HEnd t e]
  | fm_read_empty e k was : f_mode fr = MEval e k (SRead was) -> s_queue s = [] ->
      fmove s t th fr (in_mode fr (MEval e k (SAcq was None))) (s_lock s) []
  | fm_acq e k was got : f_mode fr = MEval e k (SAcq was got) -> got = None \/ got = Some None -> was && s_lock s = false ->
      fmove s t th fr (in_mode fr (MEval e k SDone)) (s_lock s || was) []
  | fm_done_empty e k v : f_mode fr = MEval e k SDone -> nth_error (s_evals s) e = Some v -> e_doneq (v_est v) = [] ->
      fmove s t th fr (in_mode fr (MEval e k SLoop)) (s_lock s) [].

(** Steps putting something on the queue. *)
Inductive fput (fr : frame) : frame -> option (nat * nat) -> Prop :=
  | fp_task e k i l : f_mode fr = MEval e k (SPut (i :: l)) -> fput fr (in_mode fr (MEval e k (SPut l))) (Some (e, i))
  | fp_none p js b k : f_mode fr = MShut (S p) js b k -> fput fr (in_mode fr (MShut p js b k)) None.

Inductive change (s : sys) (t : nat) (th : thread) : sys -> Prop :=
  | ch_top : t_pc th = PTop -> change s t th (go s t (at_pc th (if t_finished th then PExit else PGet)) (s_lock s) [])
  | ch_get q qs : t_pc th = PGet -> s_queue s = q :: qs ->
      change s t th (Sys (setnth (s_threads s) t (at_pc th (PLock q))) qs (s_lock s) (s_evals s) (s_clock s) (s_events s))
  | ch_leave : t_pc th = PLock None -> s_lock s = false -> change s t th (go s t (at_pc th (PUnlock true)) true [])
  | ch_start e i s' : t_pc th = PLock (Some (e, i)) -> s_lock s = false ->
      start_task (locked s true) t th [] e i = Some s' -> change s t th s'
  | ch_unlock lv : t_pc th = PUnlock lv ->
      change s t th (go s t (at_pc th (if lv || negb (s_lock s) then PExit else PTop)) false [])
  | ch_frame fr below fr' lk h : t_pc th = PStack -> t_stack th = fr :: below -> fmove s t th fr fr' lk h ->
      change s t th (go s t (with_stack th (fr' :: below)) lk h)
  | ch_exit fr below o : t_pc th = PStack -> t_stack th = fr :: below -> f_mode fr = MCode (Done o) -> f_task fr = None ->
      change s t th (go s t (Th (t_worker th) (t_finished th) PExit []) (s_lock s) [HCode t])
  | ch_put fr below fr' q : t_pc th = PStack -> t_stack th = fr :: below -> fput fr fr' q ->
      change s t th (Sys (setnth (s_threads s) t (with_stack th (fr' :: below))) (q :: s_queue s) (s_lock s) (s_evals s) (s_clock s)
                         (HPut t :: s_events s))
  | ch_tell fr below j js k : t_pc th = PStack -> t_stack th = fr :: below -> f_mode fr = MShut 0 (j :: js) false k ->
      change s t th (Sys (tell (setnth (s_threads s) t (with_stack th (in_mode fr (MShut 0 (j :: js) true k) :: below))) j)
                         (s_queue s) (s_lock s) (s_evals s) (s_clock s) (HCode t :: s_events s))
  | ch_read fr below e k was q qs : t_pc th = PStack -> t_stack th = fr :: below -> f_mode fr = MEval e k (SRead was) ->
      s_queue s = q :: qs ->
      change s t th (Sys (setnth (s_threads s) t (with_stack th (in_mode fr (MEval e k (SAcq was (Some q))) :: below))) qs (s_lock s)
                         (s_evals s) (s_clock s) (s_events s))
  | ch_nest fr below e k was e' i' s' : t_pc th = PStack -> t_stack th = fr :: below ->
      f_mode fr = MEval e k (SAcq was (Some (Some (e', i')))) -> was && s_lock s = false ->
      start_task (locked s (s_lock s || was)) t th (in_mode fr (MEval e k SNested) :: below) e' i' = Some s' -> change s t th s'
  | ch_finish fr below e i o s' : t_pc th = PStack -> t_stack th = fr :: below -> f_mode fr = MCode (Done o) ->
      f_task fr = Some (e, i) -> finish_task s t th below e i o = Some s' -> change s t th s'
  | ch_spawn fr below n deps body k : t_pc th = PStack -> t_stack th = fr :: below -> f_mode fr = MCode (Spawn n deps body k) ->
      change s t th (spawn s t th fr below n deps body k)
  | ch_process fr below e k st s' : t_pc th = PStack -> t_stack th = fr :: below -> f_mode fr = MEval e k st ->
      st = SDone \/ st = SWait -> process_done s t th fr below e k = Some s' -> change s t th s'.

Lemma step_change s t s' : sys_step s t = Some s' ->
  exists th, nth_error (s_threads s) t = Some th /\ change s t th s'.
Proof.
  unfold sys_step. destruct (nth_error (s_threads s) t) as [th|] eqn:Et; [|discriminate]. intros H. exists th. split; [reflexivity|].
  destruct (t_pc th) as [| |q| |lv|] eqn:Ep.
  - injection H as <-. apply ch_top. exact Ep.
  - destruct (s_queue s) as [|q qs] eqn:Eq; [discriminate|]. injection H as <-. apply ch_get; assumption.
  - destruct (s_lock s) eqn:El; [discriminate|]. destruct q as [[e i]|].
    + apply ch_start with e i; assumption.
    + injection H as <-. apply ch_leave; assumption.
  - destruct (t_stack th) as [|fr below] eqn:Es; [discriminate|]. unfold frame_step in H.
    destruct (f_mode fr) as [p|e k st|puts js b k] eqn:Em.
    + destruct p as [o|k|n deps body k|k|k|k].
      * destruct (f_task fr) as [[e i]|] eqn:Ef; [eapply ch_finish; eassumption|]. injection H as <-. eapply ch_exit; eassumption.
      * injection H as <-. apply ch_frame with fr; auto. apply fm_work; assumption.
      * injection H as <-. apply ch_spawn; assumption.
      * injection H as <-. apply ch_frame with fr; auto. apply fm_enter; assumption.
      * destruct (f_flags fr) as [|[|] fl] eqn:Efl.
        -- injection H as <-. apply ch_frame with fr; auto. apply fm_leave_nil; assumption.
        -- destruct (s_lock s) eqn:El; [discriminate|]. injection H as <-. apply ch_frame with fr; auto. apply fm_leave_true; assumption.
        -- injection H as <-. apply ch_frame with fr; auto. apply fm_leave_false; assumption.
      * destruct (t_worker th) eqn:Ew; [discriminate|]. injection H as <-. apply ch_frame with fr; auto. apply fm_shutdown; assumption.
    + destruct st as [[|i l]| |was|was got| | |].
      * injection H as <-. apply ch_frame with fr; auto. apply fm_put_nil; assumption.
      * injection H as <-. eapply ch_put; [eassumption|eassumption|]. apply fp_task. exact Em.
      * destruct (nth_error (s_evals s) e) as [v|] eqn:Ev; [|discriminate].
        destruct (e_status (v_est v)) eqn:Est.
        -- destruct (t_worker th) eqn:Ew; injection H as <-; (apply ch_frame with fr; auto); [eapply fm_loop_read; eassumption|eapply fm_loop_wait; eassumption].
        -- injection H as <-. apply ch_frame with fr; auto. rewrite <- Est. apply fm_loop_end; [assumption|assumption|congruence].
        -- injection H as <-. apply ch_frame with fr; auto. rewrite <- Est. apply fm_loop_end; [assumption|assumption|congruence].
        -- injection H as <-. apply ch_frame with fr; auto. rewrite <- Est. apply fm_loop_end; [assumption|assumption|congruence].
      * destruct (s_queue s) as [|q qs] eqn:Eq; injection H as <-.
        -- apply ch_frame with fr; auto. apply fm_read_empty; assumption.
        -- eapply ch_read; eassumption.
      * destruct (was && s_lock s) eqn:El; [discriminate|]. destruct got as [[[e' i']|]|].
        -- eapply ch_nest; eassumption.
        -- injection H as <-. apply ch_frame with fr; auto. apply fm_acq with (Some None); auto.
        -- injection H as <-. apply ch_frame with fr; auto. apply fm_acq with None; auto.
      * discriminate.
      * destruct (nth_error (s_evals s) e) as [v|] eqn:Ev; [|discriminate]. destruct (e_doneq (v_est v)) eqn:Ed.
        -- injection H as <-. apply ch_frame with fr; auto. eapply fm_done_empty; eassumption.
        -- eapply ch_process; eauto.
      * eapply ch_process; eauto.
    + destruct puts as [|p].
      * destruct js as [|j js].
        -- injection H as <-. apply ch_frame with fr; auto. eapply fm_shut_end; eassumption.
        -- destruct b.
           ++ destruct (is_exit s j) eqn:Ex; [|discriminate]. injection H as <-. apply ch_frame with fr; auto. eapply fm_join; eassumption.
           ++ injection H as <-. apply ch_tell; assumption.
      * injection H as <-. eapply ch_put; [eassumption|eassumption|]. apply fp_none. exact Em.
  - injection H as <-. apply ch_unlock. exact Ep.
  - discriminate.
Qed.

(** *** Lists *)
Lemma setnth_same {X} (l : list X) k x y : nth_error l k = Some y -> nth_error (setnth l k x) k = Some x.
Proof. revert k. induction l as [|z l IH]; intros [|k] H; try discriminate; [reflexivity|]. cbn in *. exact (IH k H). Qed.
Lemma setnth_other {X} (l : list X) k x j : j <> k -> nth_error (setnth l k x) j = nth_error l j.
Proof. revert k j. induction l as [|z l IH]; intros [|k] [|j] H; try reflexivity; [contradiction|]. cbn. apply IH. lia. Qed.
Lemma setnth_length {X} (l : list X) k x : length (setnth l k x) = length l.
Proof. revert k. induction l as [|z l IH]; intros [|k]; cbn; try reflexivity. f_equal. apply IH. Qed.
Lemma setnth_cases {X} (l : list X) k x j y : nth_error (setnth l k x) j = Some y ->
  j = k /\ y = x /\ k < length l \/ j <> k /\ nth_error l j = Some y.
Proof.
  intros H. destruct (Nat.eq_dec j k) as [->|Hne].
  - left. assert (k < length l) as Hk by (rewrite <- (setnth_length l k x); apply nth_error_Some; congruence).
    destruct (nth_error l k) as [z|] eqn:E; [|apply nth_error_None in E; lia].
    rewrite (setnth_same _ _ _ _ E) in H. injection H as <-. auto.
  - right. rewrite setnth_other in H by exact Hne. auto.
Qed.
Lemma setnth_split {X Y} (f : X -> list Y) (l : list X) k x : nth_error l k = Some x ->
  exists rest, Permutation (flat_map f l) (f x ++ rest) /\ forall x', Permutation (flat_map f (setnth l k x')) (f x' ++ rest).
Proof.
  revert k. induction l as [|z l IH]; intros [|k] H; try discriminate; cbn in *.
  - injection H as ->. exists (flat_map f l). split; reflexivity.
  - destruct (IH k H) as (rest & H1 & H2). exists (f z ++ rest). split.
    + rewrite H1. rewrite !app_assoc. apply Permutation_app_tail. apply Permutation_app_comm.
    + intros x'. rewrite (H2 x'). rewrite !app_assoc. apply Permutation_app_tail. apply Permutation_app_comm.
Qed.

(** *** Evaluations *)
Lemma eval_step_inv evs e l evs' : eval_step evs e l = Some evs' ->
  exists v s', nth_error evs e = Some v /\ step (v_n v) (v_deps v) (v_est v) l = Some s' /\ evs' = setnth evs e (set_est v s').
Proof.
  unfold eval_step. destruct (nth_error evs e) as [v|] eqn:E; [|discriminate].
  destruct (step (v_n v) (v_deps v) (v_est v) l) as [s'|] eqn:Es; [|discriminate]. intros H. injection H as <-. eauto.
Qed.

(** Each evaluation of the system is a run of SchedModel. *)
Definition eval_ok (v : ev) : Prop := exists ls, runs (v_n v) (v_deps v) (init (v_n v) (v_deps v)) ls = Some (v_est v).
Lemma runs_snoc n deps ls l : forall s s' s'', runs n deps s ls = Some s' -> step n deps s' l = Some s'' -> runs n deps s (ls ++ [l]) = Some s''.
Proof.
  induction ls as [|x ls IH]; intros s s' s'' H H'; cbn in *; [injection H as ->; rewrite H'; reflexivity|].
  destruct (step n deps s x) as [s1|]; [|discriminate]. exact (IH _ _ _ H H').
Qed.
Definition evals_ok (evs : list ev) : Prop := forall e v, nth_error evs e = Some v -> eval_ok v.
Lemma evals_ok_step evs e l evs' : evals_ok evs -> eval_step evs e l = Some evs' -> evals_ok evs'.
Proof.
  intros H Hs. destruct (eval_step_inv _ _ _ _ Hs) as (v & s' & Hv & Hst & ->). intros e' v' Hv'.
  apply setnth_cases in Hv'. destruct Hv' as [(-> & -> & _)|(Hne & Hv')]; [|exact (H _ _ Hv')].
  destruct (H _ _ Hv) as [ls Hl]. exists (ls ++ [l]). cbn. exact (runs_snoc _ _ _ _ _ _ _ Hl Hst).
Qed.
Lemma start_inv' s t th below e i s' : start_task s t th below e i = Some s' ->
  exists v evs, nth_error (s_evals s) e = Some v /\ eval_step (s_evals s) e (LStart i) = Some evs /\
    s' = Sys (setnth (s_threads s) t
               (Th (t_worker th) (t_finished th) PStack (Fr (Some (e, i)) (s_clock s) [] (MCode (v_body v i)) :: below)))
             (s_queue s) (s_lock s) evs (S (s_clock s)) (HStart t e i :: s_events s).
Proof.
  unfold start_task. destruct (nth_error (s_evals s) e) as [v|] eqn:E; [|discriminate].
  destruct (eval_step (s_evals s) e (LStart i)) as [evs|] eqn:Es; [|discriminate]. intros H. injection H as <-. exists v, evs. auto.
Qed.
(** How a stack goes on after its topmost task ended. *)
Definition resume (th : thread) (below : list frame) (o : outcome) : thread :=
  match below with
  | [] => Th (t_worker th) (t_finished th) (PUnlock (match o with OFatal _ => true | _ => false end)) []
  | fr :: below' =>
      match f_mode fr with
      | MEval e' k SNested =>
          Th (t_worker th) (t_finished th) PStack
             (in_mode fr (match o with OFatal x => MCode (k (AFatal x)) | _ => MEval e' k SDone end) :: below')
      | _ => Th (t_worker th) (t_finished th) PStack below
      end
  end.
Lemma finish_inv' s t th below e i o s' : finish_task s t th below e i o = Some s' ->
  exists evs, eval_step (s_evals s) e (LFinish i o) = Some evs /\
    s' = Sys (setnth (s_threads s) t (resume th below o)) (s_queue s) (s_lock s) evs (s_clock s) (HFinish t e i o :: s_events s).
Proof.
  unfold finish_task. destruct (eval_step (s_evals s) e (LFinish i o)) as [evs|]; [|discriminate]. intros H. injection H as <-.
  exists evs. split; [reflexivity|]. unfold resume. destruct below as [|fr below]; [destruct o; reflexivity|].
  destruct (f_mode fr) as [p|e' k []|]; destruct o; reflexivity.
Qed.
Lemma process_inv' s t th fr below e k s' : process_done s t th fr below e k = Some s' ->
  exists evs, eval_step (s_evals s) e LProcess = Some evs /\
    s' = Sys (setnth (s_threads s) t
               (with_stack th (in_mode fr (MEval e k (SPut (skipn (length (ready_of (s_evals s) e)) (ready_of evs e)))) :: below)))
             (s_queue s) (s_lock s) evs (s_clock s) (HProcess t e :: s_events s).
Proof.
  unfold process_done. destruct (eval_step (s_evals s) e LProcess) as [evs|]; [|discriminate]. intros H. injection H as <-. eauto.
Qed.

Lemma evals_step s t s' : evals_ok (s_evals s) -> sys_step s t = Some s' -> evals_ok (s_evals s').
Proof.
  intros H Hs. destruct (step_change _ _ _ Hs) as (th & _ & Hc). destruct Hc; try exact H.
  - match goal with H1 : start_task _ _ _ _ _ _ = Some _ |- _ => apply start_inv' in H1; destruct H1 as (v & evs & _ & Hx & ->) end.
    cbn. exact (evals_ok_step _ _ _ _ H Hx).
  - match goal with H1 : start_task _ _ _ _ _ _ = Some _ |- _ => apply start_inv' in H1; destruct H1 as (v & evs & _ & Hx & ->) end.
    cbn. exact (evals_ok_step _ _ _ _ H Hx).
  - match goal with H1 : finish_task _ _ _ _ _ _ _ = Some _ |- _ => apply finish_inv' in H1; destruct H1 as (evs & Hx & ->) end.
    cbn. exact (evals_ok_step _ _ _ _ H Hx).
  - cbn. intros e' v Hv. destruct (Nat.lt_ge_cases e' (length (s_evals s))) as [Hl|Hl].
    + rewrite nth_error_app1 in Hv by exact Hl. exact (H _ _ Hv).
    + rewrite nth_error_app2 in Hv by exact Hl. destruct (e' - length (s_evals s)) as [|m]; cbn in Hv; [|destruct m; discriminate].
      injection Hv as <-. exists []. reflexivity.
  - match goal with H1 : process_done _ _ _ _ _ _ _ = Some _ |- _ => apply process_inv' in H1; destruct H1 as (evs & Hx & ->) end.
    cbn. exact (evals_ok_step _ _ _ _ H Hx).
Qed.
Lemma evals_runs s ts s' : evals_ok (s_evals s) -> sys_runs s ts = Some s' -> evals_ok (s_evals s').
Proof.
  revert s. induction ts as [|t ts IH]; intros s H Hr; cbn in Hr; [injection Hr as <-; exact H|].
  destruct (sys_step s t) as [s1|] eqn:E; [|discriminate]. exact (IH s1 (evals_step _ _ _ H E) Hr).
Qed.
