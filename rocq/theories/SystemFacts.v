(** What holds in every state of SystemModel, whatever the programs do. *)
From Coq Require Import List Bool Arith Lia Permutation.
From Verif Require Import SchedModel SchedFacts SchedThms SystemModel SystemSteps.
Import ListNotations.

Notation item := (nat * nat)%type (only parsing).

(** *** Counting tasks *)
Definition active_of (evs : list ev) (e : eid) : list task :=
  match nth_error evs e with Some v => e_active (v_est v) | None => [] end.
Definition matches (T : list item) (of : eid -> list task) : Prop :=
  NoDup T /\ forall e i, In (e, i) T <-> In i (of e).
Lemma matches_perm T T' of : Permutation T T' -> matches T of -> matches T' of.
Proof.
  intros Hp [H1 H2]. split; [exact (Permutation_NoDup Hp H1)|]. intros e i. rewrite <- H2.
  split; apply Permutation_in; [apply Permutation_sym|]; exact Hp.
Qed.
Lemma matches_ext T of of' : (forall e, of e = of' e) -> matches T of -> matches T of'.
Proof. intros He [H1 H2]. split; [exact H1|]. intros e i. rewrite <- He. apply H2. Qed.
Lemma matches_del T of e i of' : matches ((e, i) :: T) of -> (forall e', e' <> e -> of' e' = of e') ->
  (forall j, In j (of' e) <-> In j (of e) /\ j <> i) -> matches T of'.
Proof.
  intros [H1 H2] Ho He. inversion H1; subst. split; [assumption|]. intros e' j. destruct (Nat.eq_dec e' e) as [->|Hne].
  - rewrite He, <- H2. cbn. split.
    + intros Hin. split; [auto|]. intros ->. contradiction.
    + intros [[Hx|Hx] Hj]; [injection Hx as ->; contradiction|exact Hx].
  - rewrite (Ho e' Hne), <- H2. cbn. split; [auto|]. intros [Hx|Hx]; [injection Hx as -> _; contradiction|exact Hx].
Qed.
Lemma matches_add T of e l of' : matches T of -> (forall e', e' <> e -> of' e' = of e') ->
  Permutation (of' e) (of e ++ l) -> NoDup (of' e) -> matches (map (pair e) l ++ T) of'.
Proof.
  intros [H1 H2] Ho He Hn. pose proof (Permutation_NoDup He Hn) as Hn'. split.
  - assert (NoDup l) as Hl by (apply NoDup_app_remove_l in Hn'; exact Hn').
    assert (forall j, In j l -> ~ In (e, j) T) as Hd.
    { intros j Hj Hin. apply H2 in Hin. apply in_split in Hj. destruct Hj as (l1 & l2 & ->).
      rewrite app_assoc in Hn'. apply NoDup_remove_2 in Hn'. apply Hn'. rewrite !in_app_iff. auto. }
    clear Hn' He Hn. revert Hl Hd. induction l as [|j l IH]; intros Hl Hd; cbn; [exact H1|]. inversion Hl; subst.
    constructor; [|apply IH; [assumption|intros k Hk; apply Hd; right; exact Hk]].
    rewrite in_app_iff, in_map_iff. intros [(k & Hk & Hin)|Hin]; [injection Hk as ->; contradiction|].
    exact (Hd j (or_introl eq_refl) Hin).
  - intros e' i. rewrite in_app_iff, in_map_iff. destruct (Nat.eq_dec e' e) as [->|Hne].
    + rewrite H2. split.
      * intros [(k & Hk & Hin)|Hin]; [injection Hk as ->|]; apply (Permutation_in _ (Permutation_sym He)); apply in_app_iff; auto.
      * intros Hin. apply (Permutation_in _ He) in Hin. apply in_app_iff in Hin. destruct Hin as [Hin|Hin]; [auto|]. left. eauto.
    + rewrite H2, (Ho e' Hne). split; [intros [(k & Hk & _)|Hin]; [congruence|exact Hin]|auto].
Qed.

(** *** What a step of an evaluation changes *)
Lemma of_set {X} (g : est -> list X) (of : list ev -> eid -> list X) evs e v s' :
  (forall evs e, of evs e = match nth_error evs e with Some v => g (v_est v) | None => [] end) ->
  nth_error evs e = Some v ->
  of evs e = g (v_est v) /\ of (setnth evs e (set_est v s')) e = g s' /\
  forall e', e' <> e -> of (setnth evs e (set_est v s')) e' = of evs e'.
Proof.
  intros Hof Hv. rewrite !Hof, Hv. rewrite (setnth_same _ _ _ _ Hv). split; [reflexivity|]. split; [reflexivity|].
  intros e' Hne. rewrite !Hof, setnth_other by exact Hne. reflexivity.
Qed.
Lemma ready_set evs e v s' : nth_error evs e = Some v ->
  ready_of evs e = e_ready (v_est v) /\ ready_of (setnth evs e (set_est v s')) e = e_ready s' /\
  forall e', e' <> e -> ready_of (setnth evs e (set_est v s')) e' = ready_of evs e'.
Proof. apply (of_set e_ready ready_of). reflexivity. Qed.
Lemma active_set evs e v s' : nth_error evs e = Some v ->
  active_of evs e = e_active (v_est v) /\ active_of (setnth evs e (set_est v s')) e = e_active s' /\
  forall e', e' <> e -> active_of (setnth evs e (set_est v s')) e' = active_of evs e'.
Proof. apply (of_set e_active active_of). reflexivity. Qed.

Lemma in_remove' i j l : In j (remove Nat.eq_dec i l) <-> In j l /\ j <> i.
Proof. split; [apply in_remove|intros [H1 H2]; apply in_in_remove; assumption]. Qed.

Lemma eval_start evs e i evs' : eval_step evs e (LStart i) = Some evs' ->
  In i (ready_of evs e) /\ (forall e', e' <> e -> ready_of evs' e' = ready_of evs e') /\
  (forall j, In j (ready_of evs' e) <-> In j (ready_of evs e) /\ j <> i) /\
  (forall e', e' <> e -> active_of evs' e' = active_of evs e') /\ active_of evs' e = i :: active_of evs e /\
  length evs' = length evs /\
  (forall e' v', nth_error evs' e' = Some v' -> exists v, nth_error evs e' = Some v /\ e_status (v_est v') = e_status (v_est v) /\
     v_body v' = v_body v /\ v_deps v' = v_deps v /\ v_n v' = v_n v /\ e_doneq (v_est v') = e_doneq (v_est v)).
Proof.
  intros H. destruct (eval_step_inv _ _ _ _ H) as (v & s' & Hv & Hs & ->). cbn in Hs.
  destruct (existsb (Nat.eqb i) (e_ready (v_est v))) eqn:E; [|discriminate]. injection Hs as <-. apply existsb_in in E.
  match goal with |- context [set_est v ?x] => destruct (ready_set evs e v x Hv) as (R1 & R2 & R3); destruct (active_set evs e v x Hv) as (A1 & A2 & A3) end.
  rewrite R1, R2, A1, A2. cbn. split; [exact E|]. split; [exact R3|]. split; [intros j; apply in_remove'|]. split; [exact A3|].
  split; [reflexivity|]. split; [apply setnth_length|]. intros e' v' Hv'. apply setnth_cases in Hv'.
  destruct Hv' as [(-> & -> & _)|(_ & Hv')]; [exists v; cbn; auto 10|eauto 10].
Qed.
Lemma eval_finish evs e i o evs' : eval_step evs e (LFinish i o) = Some evs' ->
  In i (active_of evs e) /\ (forall e', ready_of evs' e' = ready_of evs e') /\
  (forall e', e' <> e -> active_of evs' e' = active_of evs e') /\
  (forall j, In j (active_of evs' e) <-> In j (active_of evs e) /\ j <> i) /\
  length evs' = length evs /\
  (forall e' v', nth_error evs' e' = Some v' -> exists v, nth_error evs e' = Some v /\ e_status (v_est v') = e_status (v_est v) /\
     v_body v' = v_body v /\ v_deps v' = v_deps v /\ v_n v' = v_n v).
Proof.
  intros H. destruct (eval_step_inv _ _ _ _ H) as (v & s' & Hv & Hs & ->). cbn in Hs.
  destruct (existsb (Nat.eqb i) (e_active (v_est v))) eqn:E; [|discriminate]. injection Hs as <-. apply existsb_in in E.
  match goal with |- context [set_est v ?x] => destruct (ready_set evs e v x Hv) as (R1 & R2 & R3); destruct (active_set evs e v x Hv) as (A1 & A2 & A3) end.
  rewrite A1, A2. cbn. split; [exact E|]. split.
  { intros e'. destruct (Nat.eq_dec e' e) as [->|Hne]; [rewrite R1, R2; reflexivity|apply R3; exact Hne]. }
  split; [exact A3|]. split; [intros j; apply in_remove'|]. split; [apply setnth_length|].
  intros e' v' Hv'. apply setnth_cases in Hv'. destruct Hv' as [(-> & -> & _)|(_ & Hv')]; [exists v; cbn; auto 10|eauto 10].
Qed.

Lemma offers_active deps l s : e_active (fold_left (offer deps) l s) = e_active s.
Proof.
  revert s. induction l as [|i l IH]; intros s; cbn; [reflexivity|]. rewrite IH. unfold offer. destruct (can_run deps s i); reflexivity.
Qed.
Lemma offers_ready deps l s : exists a, e_ready (fold_left (offer deps) l s) = e_ready s ++ a.
Proof.
  revert s. induction l as [|i l IH]; intros s; cbn; [exists []; rewrite app_nil_r; reflexivity|].
  destruct (IH (offer deps s i)) as [a E]. rewrite E. unfold offer. destruct (can_run deps s i); cbn; [|eauto].
  rewrite <- app_assoc. eauto.
Qed.
Lemma eval_ok_inv v : eval_ok v -> inv (v_n v) (v_deps v) (v_est v).
Proof. intros [ls H]. exact (reach_inv _ _ _ _ H). Qed.
Lemma ready_nodup evs e : evals_ok evs -> NoDup (ready_of evs e).
Proof.
  intros H. unfold ready_of. destruct (nth_error evs e) as [v|] eqn:E; [|constructor].
  destruct (eval_ok_inv v (H _ _ E)) as [Hc _]. pose proof (v_nodup _ _ _ Hc) as Hn. unfold pool in Hn.
  apply NoDup_app_remove_r in Hn. exact Hn.
Qed.
Lemma eval_process evs e evs' : evals_ok evs -> eval_step evs e LProcess = Some evs' ->
  (forall e', active_of evs' e' = active_of evs e') /\ (forall e', e' <> e -> ready_of evs' e' = ready_of evs e') /\
  ready_of evs' e = ready_of evs e ++ skipn (length (ready_of evs e)) (ready_of evs' e) /\ NoDup (ready_of evs' e) /\
  length evs' = length evs /\
  (forall e' v', nth_error evs' e' = Some v' -> exists v, nth_error evs e' = Some v /\ (e' <> e -> v' = v) /\
     v_body v' = v_body v /\ v_deps v' = v_deps v /\ v_n v' = v_n v).
Proof.
  intros Hok H. pose proof (evals_ok_step _ _ _ _ Hok H) as Hok'. pose proof (ready_nodup evs' e Hok') as Hnd.
  destruct (eval_step_inv _ _ _ _ H) as (v & s' & Hv & Hs & ->). cbn in Hs.
  destruct (e_status (v_est v)); try discriminate. destruct (e_doneq (v_est v)) as [|i q]; [discriminate|]. injection Hs as <-.
  match goal with |- context [set_est v ?x] => destruct (ready_set evs e v x Hv) as (R1 & R2 & R3); destruct (active_set evs e v x Hv) as (A1 & A2 & A3) end.
  assert (forall s1, e_active (check (v_n v) (v_deps v) s1) = e_active s1 /\ e_ready (check (v_n v) (v_deps v) s1) = e_ready s1) as Hch
    by (intros s1; unfold check; destruct (e_count s1); auto).
  split.
  { intros e'. destruct (Nat.eq_dec e' e) as [->|Hne]; [|apply A3; exact Hne]. rewrite A1, A2. unfold process.
    destruct (e_out (v_est v) i) as [[x|x|x]|]; rewrite ?(proj1 (Hch _)), ?offers_active; auto. }
  split; [exact R3|]. split.
  { rewrite R1, R2.
    assert (exists a, e_ready (process (v_n v) (v_deps v) (v_est v) i q) = e_ready (v_est v) ++ a) as [a Ea].
    { unfold process.
      destruct (e_out (v_est v) i) as [[x|x|x]|]; rewrite ?(proj2 (Hch _)); cbn; try (exists []; rewrite app_nil_r; reflexivity);
        match goal with |- context [fold_left (offer ?d) ?l ?s] => destruct (offers_ready d l s) as [a Ea] end; rewrite Ea; cbn; eauto. }
    rewrite Ea. rewrite skipn_app, skipn_all, Nat.sub_diag. reflexivity. }
  split; [exact Hnd|]. split; [apply setnth_length|].
  intros e' v' Hv'. apply setnth_cases in Hv'. destruct Hv' as [(-> & -> & _)|(_ & Hv')]; [|exists v'; auto 10].
  exists v. cbn. split; [exact Hv|]. split; [intros Hx; contradiction|auto].
Qed.

(** *** Frames, tasks in hand, evaluations waited for *)
Definition frame_hand (fr : frame) : list item :=
  match f_mode fr with
  | MEval e _ (SPut l) => map (pair e) l
  | MEval _ _ (SAcq _ (Some (Some x))) => [x]
  | _ => []
  end.
Definition hand (th : thread) : list item :=
  (match t_pc th with PLock (Some x) => [x] | _ => [] end) ++ flat_map frame_hand (t_stack th).
Definition frame_task (fr : frame) : list item := match f_task fr with Some x => [x] | None => [] end.
Definition running (th : thread) : list item := flat_map frame_task (t_stack th).
Definition frame_wait (fr : frame) : list eid := match f_mode fr with MEval e _ _ => [e] | _ => [] end.
Definition waits (th : thread) : list eid := flat_map frame_wait (t_stack th).
Definition qitems (q : list (option item)) : list item := flat_map (fun x => match x with Some y => [y] | None => [] end) q.
Definition tokens (s : sys) : list item := qitems (s_queue s) ++ flat_map hand (s_threads s).
Definition actives (s : sys) : list item := flat_map running (s_threads s).
Definition owners (s : sys) : list eid := flat_map waits (s_threads s).
Definition frames (s : sys) : list frame := flat_map t_stack (s_threads s).

Definition thread_shape (th : thread) : Prop :=
  match t_pc th with
  | PStack => exists fr below, t_stack th = fr :: below /\
      (forall fr', In fr' below -> exists e k, f_mode fr' = MEval e k SNested) /\
      (forall e k, f_mode fr <> MEval e k SNested) /\
      (if t_worker th then (forall fr', In fr' (fr :: below) -> f_task fr' <> None) /\
         (forall e k, f_mode fr <> MEval e k SWait) /\ (forall p js b k, f_mode fr <> MShut p js b k)
       else below = [] /\ f_task fr = None /\
         (forall e k, f_mode fr <> MEval e k SDone) /\ (forall e k was, f_mode fr <> MEval e k (SRead was)) /\
         (forall e k was got, f_mode fr <> MEval e k (SAcq was got)))
  | PExit => t_stack th = []
  | _ => t_stack th = [] /\ t_worker th = true
  end.
(** Later tasks are above earlier ones. *)
Fixpoint stacked (l : list frame) : Prop :=
  match l with
  | [] => True
  | fr :: l' => (forall fr', In fr' l' -> f_time fr' < f_time fr) /\ stacked l'
  end.
Definition polling (st : stage) : bool := match st with SPut _ | SLoop => false | _ => true end.

Record gen (s : sys) : Prop := Gen {
  g_shape : forall t th, nth_error (s_threads s) t = Some th -> thread_shape th;
  g_evals : evals_ok (s_evals s);
  g_tok : matches (tokens s) (ready_of (s_evals s));
  g_act : matches (actives s) (active_of (s_evals s));
  g_own : NoDup (owners s);
  g_own_lt : forall e, In e (owners s) -> e < length (s_evals s);
  g_clock : 1 <= s_clock s;
  g_time : forall fr, In fr (frames s) -> f_time fr < s_clock s;
  g_stack : forall t th, nth_error (s_threads s) t = Some th -> stacked (t_stack th);
  g_wait : forall fr e k st, In fr (frames s) -> f_mode fr = MEval e k st ->
    forall fr' i, In fr' (frames s) -> f_task fr' = Some (e, i) -> f_time fr < f_time fr';
  g_poll : forall fr e k st, In fr (frames s) -> f_mode fr = MEval e k st -> polling st = true ->
    exists v, nth_error (s_evals s) e = Some v /\ e_status (v_est v) = Running
}.

(** *** Replacing one thread *)
Lemma frames_in s fr : In fr (frames s) <-> exists t th, nth_error (s_threads s) t = Some th /\ In fr (t_stack th).
Proof.
  unfold frames. rewrite in_flat_map. split.
  - intros (th & H1 & H2). apply In_nth_error in H1. destruct H1 as [t H1]. eauto.
  - intros (t & th & H1 & H2). exists th. split; [exact (nth_error_In _ _ H1)|exact H2].
Qed.

(** [s'] differs from [s] in thread [t], which was [th] and is [th']; [told] threads
    aside, the others are as before. *)
Lemma swap {X} (f : thread -> list X) l t th th' : nth_error l t = Some th ->
  exists rest, Permutation (flat_map f l) (f th ++ rest) /\ Permutation (flat_map f (setnth l t th')) (f th' ++ rest).
Proof. intros H. destruct (setnth_split f l t th H) as (rest & H1 & H2). exists rest. split; [exact H1|apply H2]. Qed.
Lemma swap_same {X} (f : thread -> list X) l t th th' : nth_error l t = Some th -> f th' = f th ->
  Permutation (flat_map f (setnth l t th')) (flat_map f l).
Proof. intros H E. destruct (swap f l t th th' H) as (rest & H1 & H2). rewrite H1, H2, E. reflexivity. Qed.

(** A frame that keeps its task, its time and (if it waits) its evaluation. *)
Definition kept (fr fr' : frame) : Prop :=
  f_task fr' = f_task fr /\ f_time fr' = f_time fr /\ (frame_wait fr' = frame_wait fr \/ frame_wait fr' = []).

Lemma shape_stack th fr below : thread_shape th -> t_pc th = PStack -> t_stack th = fr :: below ->
  (forall fr', In fr' below -> exists e k, f_mode fr' = MEval e k SNested) /\
  (forall e k, f_mode fr <> MEval e k SNested) /\
  (if t_worker th then (forall fr', In fr' (fr :: below) -> f_task fr' <> None) /\
         (forall e k, f_mode fr <> MEval e k SWait) /\ (forall p js b k, f_mode fr <> MShut p js b k)
       else below = [] /\ f_task fr = None /\
         (forall e k, f_mode fr <> MEval e k SDone) /\ (forall e k was, f_mode fr <> MEval e k (SRead was)) /\
         (forall e k was got, f_mode fr <> MEval e k (SAcq was got))).
Proof.
  intros H Hp Hs. unfold thread_shape in H. rewrite Hp in H. destruct H as (fr0 & below0 & E & H). rewrite Hs in E.
  injection E as <- <-. exact H.
Qed.

(** The general step for steps changing one frame on top of a stack, the queue and tasks in hand. *)
Lemma gen_top s t th fr below fr' q' lk h : gen s ->
  nth_error (s_threads s) t = Some th -> t_pc th = PStack -> t_stack th = fr :: below -> kept fr fr' ->
  thread_shape (with_stack th (fr' :: below)) ->
  Permutation (qitems q' ++ frame_hand fr') (qitems (s_queue s) ++ frame_hand fr) ->
  (forall e k st, f_mode fr' = MEval e k st -> polling st = true -> exists v, nth_error (s_evals s) e = Some v /\ e_status (v_est v) = Running) ->
  gen (Sys (setnth (s_threads s) t (with_stack th (fr' :: below))) q' lk (s_evals s) (s_clock s) h).
Proof.
  intros [G1 G2 G3 G4 G5 G6 G7 G8 G9 G10 G11] Ht Hp Hs (K1 & K2 & K3) Hsh Hq Hpoll.
  set (th' := with_stack th (fr' :: below)) in *.
  assert (forall f, In f (flat_map t_stack (setnth (s_threads s) t th')) -> f = fr' \/ In f (frames s)) as Hfr.
  { intros f Hf. apply in_flat_map in Hf. destruct Hf as (x & Hx & Hf). apply In_nth_error in Hx. destruct Hx as [t' Hx].
    apply setnth_cases in Hx. destruct Hx as [(-> & -> & _)|(_ & Hx)].
    - cbn in Hf. destruct Hf as [<-|Hf]; [auto|]. right. apply frames_in. exists t, th. rewrite Hs. split; [exact Ht|right; exact Hf].
    - right. apply frames_in. eauto. }
  assert (In fr (frames s)) as Hin by (apply frames_in; exists t, th; rewrite Hs; split; [exact Ht|left; reflexivity]).
  split; cbn [s_threads s_queue s_lock s_evals s_clock s_events].
  - intros t' x Hx. apply setnth_cases in Hx. destruct Hx as [(-> & -> & _)|(_ & Hx)]; [exact Hsh|exact (G1 _ _ Hx)].
  - exact G2.
  - unfold tokens in *. cbn. refine (matches_perm _ _ _ _ G3).
    destruct (swap hand _ _ _ th' Ht) as (rest & P1 & P2). rewrite P1, P2. unfold hand, th', with_stack. cbn. rewrite Hp, Hs. cbn.
    rewrite <- !app_assoc. rewrite (app_assoc (qitems q')). rewrite Hq. rewrite <- app_assoc. reflexivity.
  - unfold actives in *. cbn. refine (matches_perm _ _ _ _ G4). symmetry. apply (swap_same running _ _ _ _ Ht).
    unfold running, th', with_stack. cbn. rewrite Hs. cbn. unfold frame_task. rewrite K1. reflexivity.
  - unfold owners in *. cbn. destruct (swap waits _ _ _ th' Ht) as (rest & P1 & P2). rewrite P2. rewrite P1 in G5.
    unfold waits, th', with_stack in *. cbn in *. rewrite Hs in G5. cbn in G5. destruct K3 as [-> | ->]; [exact G5|]. cbn.
    rewrite <- app_assoc in G5. exact (NoDup_app_remove_l _ _ G5).
  - unfold owners in *. cbn. intros e He. apply G6. destruct (swap waits _ _ _ th' Ht) as (rest & P1 & P2).
    apply (Permutation_in _ P2) in He. apply (Permutation_in _ (Permutation_sym P1)).
    unfold waits, th', with_stack in *. cbn in *. rewrite Hs. cbn. destruct K3 as [K3|K3]; rewrite K3 in He; [exact He|].
    cbn in He. rewrite <- app_assoc. apply in_app_iff. right. exact He.
  - exact G7.
  - unfold frames. cbn. intros f Hf. destruct (Hfr f Hf) as [->|Hf']; [rewrite K2; exact (G8 _ Hin)|exact (G8 _ Hf')].
  - intros t' x Hx. apply setnth_cases in Hx. destruct Hx as [(-> & -> & _)|(_ & Hx)]; [|exact (G9 _ _ Hx)].
    pose proof (G9 _ _ Ht) as Hst. rewrite Hs in Hst. cbn in *. rewrite K2. exact Hst.
  - unfold frames. cbn. intros f e k st Hf Hm f' i Hf' Hi.
    assert (exists f0, In f0 (frames s) /\ f_time f0 = f_time f /\ exists k0 st0, f_mode f0 = MEval e k0 st0) as (f0 & F1 & F2 & k0 & st0 & F3).
    { destruct (Hfr f Hf) as [->|Hf0]; [|exists f; eauto]. exists fr. split; [exact Hin|]. split; [auto|].
      unfold frame_wait in K3. rewrite Hm in K3. destruct K3 as [K3|K3]; [|discriminate].
      destruct (f_mode fr) as [p|e0 k0 st0|]; try discriminate. injection K3 as <-. eauto. }
    assert (exists f1, In f1 (frames s) /\ f_time f1 = f_time f' /\ f_task f1 = Some (e, i)) as (f1 & E1 & E2 & E3).
    { destruct (Hfr f' Hf') as [->|Hf0]; [|eauto]. exists fr. rewrite K1 in Hi. auto. }
    rewrite <- F2, <- E2. exact (G10 f0 e k0 st0 F1 F3 f1 i E1 E3).
  - unfold frames. cbn. intros f e k st Hf Hm Hpl. destruct (Hfr f Hf) as [->|Hf0]; [exact (Hpoll e k st Hm Hpl)|exact (G11 f e k st Hf0 Hm Hpl)].
Qed.

(** Steps of a thread with an empty stack. *)
Lemma gen_pc s t th p q' lk h : gen s -> nth_error (s_threads s) t = Some th -> t_stack th = [] ->
  thread_shape (at_pc th p) ->
  Permutation (qitems q' ++ match p with PLock (Some x) => [x] | _ => [] end) (qitems (s_queue s) ++ match t_pc th with PLock (Some x) => [x] | _ => [] end) ->
  gen (Sys (setnth (s_threads s) t (at_pc th p)) q' lk (s_evals s) (s_clock s) h).
Proof.
  intros [G1 G2 G3 G4 G5 G6 G7 G8 G9 G10 G11] Ht Hs Hsh Hq. set (th' := at_pc th p) in *.
  assert (t_stack th' = []) as Hs' by exact Hs.
  assert (Permutation (flat_map t_stack (setnth (s_threads s) t th')) (frames s)) as Hf by (apply (swap_same t_stack _ _ _ _ Ht); congruence).
  assert (forall f, In f (flat_map t_stack (setnth (s_threads s) t th')) -> In f (frames s)) as Hfr by (intros f; apply Permutation_in; exact Hf).
  split; cbn [s_threads s_queue s_lock s_evals s_clock s_events].
  - intros t' x Hx. apply setnth_cases in Hx. destruct Hx as [(-> & -> & _)|(_ & Hx)]; [exact Hsh|exact (G1 _ _ Hx)].
  - exact G2.
  - unfold tokens in *. cbn. refine (matches_perm _ _ _ _ G3).
    destruct (swap hand _ _ _ th' Ht) as (rest & P1 & P2). rewrite P1, P2. unfold hand. rewrite Hs, Hs'. cbn. rewrite !app_nil_r.
    rewrite (app_assoc (qitems q')). rewrite Hq. rewrite <- app_assoc. reflexivity.
  - unfold actives in *. cbn. refine (matches_perm _ _ _ _ G4). symmetry. apply (swap_same running _ _ _ _ Ht). unfold running. congruence.
  - unfold owners in *. cbn. rewrite (swap_same waits _ _ _ _ Ht); [exact G5|]. unfold waits. congruence.
  - unfold owners in *. cbn. intros e He. apply G6. rewrite (swap_same waits _ _ _ _ Ht) in He; [exact He|]. unfold waits. congruence.
  - exact G7.
  - unfold frames. cbn. intros f Hx. exact (G8 _ (Hfr f Hx)).
  - intros t' x Hx. apply setnth_cases in Hx. destruct Hx as [(-> & -> & _)|(_ & Hx)]; [rewrite Hs'; exact I|exact (G9 _ _ Hx)].
  - unfold frames. cbn. intros f e k st Hx Hm f' i Hx' Hi. exact (G10 f e k st (Hfr f Hx) Hm f' i (Hfr f' Hx') Hi).
  - unfold frames. cbn. intros f e k st Hx Hm Hpl. exact (G11 f e k st (Hfr f Hx) Hm Hpl).
Qed.

(** Where the frames of the new threads come from. *)
Lemma new_frames s t th th' f : nth_error (s_threads s) t = Some th ->
  In f (flat_map t_stack (setnth (s_threads s) t th')) ->
  In f (t_stack th') \/ exists t' x, t' <> t /\ nth_error (s_threads s) t' = Some x /\ In f (t_stack x).
Proof.
  intros Ht Hf. apply in_flat_map in Hf. destruct Hf as (x & Hx & Hf). apply In_nth_error in Hx. destruct Hx as [t' Hx].
  apply setnth_cases in Hx. destruct Hx as [(-> & -> & _)|(Hne & Hx)]; [auto|]. right. eauto.
Qed.
Lemma in_frames s t th f : nth_error (s_threads s) t = Some th -> In f (t_stack th) -> In f (frames s).
Proof. intros H1 H2. apply frames_in. eauto. Qed.
Lemma nested_hand (l : list frame) : (forall f, In f l -> exists e k, f_mode f = MEval e k SNested) -> flat_map frame_hand l = [].
Proof.
  induction l as [|f l IH]; intros H; cbn; [reflexivity|]. destruct (H f (or_introl eq_refl)) as (e & k & E).
  unfold frame_hand at 1. rewrite E. cbn. apply IH. intros f' Hf'. apply H. right. exact Hf'.
Qed.
Lemma status_kept evs evs' e :
  (forall e' v', nth_error evs' e' = Some v' -> exists v, nth_error evs e' = Some v /\ e_status (v_est v') = e_status (v_est v)) ->
  length evs' = length evs ->
  (exists v, nth_error evs e = Some v /\ e_status (v_est v) = Running) -> exists v, nth_error evs' e = Some v /\ e_status (v_est v) = Running.
Proof.
  intros H Hl (v & Hv & Hr). destruct (nth_error evs' e) as [v'|] eqn:E.
  - destruct (H _ _ E) as (v0 & E0 & Es). exists v'. split; [reflexivity|]. congruence.
  - apply nth_error_None in E. assert (e < length evs) by (apply nth_error_Some; congruence). lia.
Qed.

(** A task starts: it was in hand, and its frame comes on top of [below], the frames the
    thread had, of which only the topmost may have changed. *)
Lemma gen_start s t th below e i v evs lk h : gen s -> nth_error (s_threads s) t = Some th -> t_worker th = true ->
  hand th = [(e, i)] -> running th = flat_map frame_task below -> waits th = flat_map frame_wait below ->
  (forall f, In f below -> exists e k, f_mode f = MEval e k SNested) ->
  (forall f, In f below -> f_task f <> None) ->
  (forall f, In f below -> exists f0, In f0 (t_stack th) /\ f_task f0 = f_task f /\ f_time f0 = f_time f /\
     forall e k st, f_mode f = MEval e k st -> exists st0, f_mode f0 = MEval e k st0 /\ polling st0 = true) ->
  stacked below ->
  eval_step (s_evals s) e (LStart i) = Some evs ->
  gen (Sys (setnth (s_threads s) t
             (Th (t_worker th) (t_finished th) PStack (Fr (Some (e, i)) (s_clock s) [] (MCode (v_body v i)) :: below)))
           (s_queue s) lk evs (S (s_clock s)) h).
Proof.
  intros [G1 G2 G3 G4 G5 G6 G7 G8 G9 G10 G11] Ht Hw Hh Hru Hwa Hn Htn Hold Hst Hev.
  destruct (eval_start _ _ _ _ Hev) as (S1 & S2 & S3 & S4 & S5 & S6 & S7).
  set (fr := Fr (Some (e, i)) (s_clock s) [] (MCode (v_body v i))).
  set (th' := Th (t_worker th) (t_finished th) PStack (fr :: below)).
  assert (forall f, In f (flat_map t_stack (setnth (s_threads s) t th')) -> f = fr \/
    exists f0, In f0 (frames s) /\ f_task f0 = f_task f /\ f_time f0 = f_time f /\
     forall e k st, f_mode f = MEval e k st -> exists st0, f_mode f0 = MEval e k st0 /\ (polling st = true -> polling st0 = true)) as Hfr.
  { intros f Hf. destruct (new_frames s t th th' f Ht Hf) as [Hf'|(t' & x & _ & Hx & Hf')].
    - cbn in Hf'. destruct Hf' as [<-|Hf']; [auto|]. right. destruct (Hold f Hf') as (f0 & A1 & A2 & A3 & A4).
      exists f0. split; [exact (in_frames _ _ _ _ Ht A1)|]. split; [exact A2|]. split; [exact A3|].
      intros e0 k0 st Hm. destruct (A4 e0 k0 st Hm) as (st0 & B1 & B2). eauto.
    - right. exists f. split; [exact (in_frames _ _ _ _ Hx Hf')|]. split; [reflexivity|]. split; [reflexivity|].
      intros e0 k0 st Hm. eauto. }
  assert (In (e, i) (tokens s)) as Htok.
  { unfold tokens. apply in_app_iff. right. apply in_flat_map. exists th. split; [exact (nth_error_In _ _ Ht)|].
    rewrite Hh. left. reflexivity. }
  split; cbn [s_threads s_queue s_lock s_evals s_clock s_events].
  - intros t' x Hx. apply setnth_cases in Hx. destruct Hx as [(-> & -> & _)|(_ & Hx)]; [|exact (G1 _ _ Hx)].
    cbn. exists fr, below. split; [reflexivity|]. split; [exact Hn|]. split; [discriminate|]. rewrite Hw.
    split; [|split; discriminate]. intros f [<-|Hf]; [discriminate|auto].
  - exact (evals_ok_step _ _ _ _ G2 Hev).
  - apply matches_del with (ready_of (s_evals s)) e i; [|exact S2|exact S3]. refine (matches_perm _ _ _ _ G3).
    unfold tokens. cbn. destruct (swap hand _ _ _ th' Ht) as (rest & P1 & P2). rewrite P1, P2, Hh.
    unfold hand at 1. cbn. rewrite (nested_hand below Hn). cbn. symmetry. apply Permutation_middle.
  - assert (actives (Sys (setnth (s_threads s) t th') (s_queue s) lk evs (S (s_clock s)) h) = flat_map running (setnth (s_threads s) t th')) as -> by reflexivity.
    refine (matches_perm (map (pair e) [i] ++ actives s) _ _ _ _).
    + unfold actives. cbn. destruct (swap running _ _ _ th' Ht) as (rest & P1 & P2). rewrite P1, P2.
      unfold running at 2. cbn. rewrite Hru. reflexivity.
    + apply matches_add with (active_of (s_evals s)); [exact G4|exact S4| |].
      * rewrite S5. apply Permutation_cons_append.
      * rewrite S5. constructor.
        -- intros Hin. pose proof (evals_ok_step _ _ _ _ G2 Hev) as Hok'.
           assert (NoDup (active_of evs e)) as Hnd.
           { unfold active_of. destruct (nth_error evs e) as [v'|] eqn:E; [|constructor].
             destruct (eval_ok_inv v' (Hok' _ _ E)) as [Hc _]. pose proof (v_nodup _ _ _ Hc) as Hx. unfold pool in Hx.
             apply NoDup_app_remove_l in Hx. apply NoDup_app_remove_r in Hx. exact Hx. }
           rewrite S5 in Hnd. inversion Hnd. contradiction.
        -- unfold active_of. destruct (nth_error (s_evals s) e) as [v'|] eqn:E; [|constructor].
           destruct (eval_ok_inv v' (G2 _ _ E)) as [Hc _]. pose proof (v_nodup _ _ _ Hc) as Hx. unfold pool in Hx.
           apply NoDup_app_remove_l in Hx. apply NoDup_app_remove_r in Hx. exact Hx.
  - unfold owners in *. cbn. rewrite (swap_same waits _ _ _ th' Ht); [exact G5|]. rewrite Hwa. reflexivity.
  - unfold owners in *. cbn. intros e' He. rewrite S6. apply G6. rewrite (swap_same waits _ _ _ th' Ht) in He; [exact He|]. rewrite Hwa. reflexivity.
  - lia.
  - unfold frames. cbn. intros f Hf. destruct (Hfr f Hf) as [->|(f0 & A1 & _ & A3 & _)]; [cbn; lia|]. specialize (G8 _ A1). lia.
  - intros t' x Hx. apply setnth_cases in Hx. destruct Hx as [(-> & -> & _)|(_ & Hx)]; [|exact (G9 _ _ Hx)].
    cbn. split; [|exact Hst]. intros f Hf. destruct (Hold f Hf) as (f0 & A1 & _ & A3 & _). rewrite <- A3.
    apply G8. exact (in_frames _ _ _ _ Ht A1).
  - unfold frames. cbn. intros f e0 k0 st Hf Hm f' i' Hf' Hi'.
    destruct (Hfr f Hf) as [->|(f0 & A1 & A2 & A3 & A4)]; [discriminate|]. destruct (A4 _ _ _ Hm) as (st0 & Hm0 & _).
    rewrite <- A3. destruct (Hfr f' Hf') as [->|(f1 & B1 & B2 & B3 & _)]; [cbn; apply G8; exact A1|].
    rewrite <- B3. apply (G10 f0 e0 k0 st0 A1 Hm0 f1 i' B1). congruence.
  - unfold frames. cbn. intros f e0 k0 st Hf Hm Hpl. destruct (Hfr f Hf) as [->|(f0 & A1 & A2 & A3 & A4)]; [discriminate|].
    destruct (A4 _ _ _ Hm) as (st0 & Hm0 & Hp0). apply (status_kept (s_evals s)).
    + intros e' v' Hv'. destruct (S7 _ _ Hv') as (v0 & E1 & E2 & _). eauto.
    + exact S6.
    + exact (G11 f0 e0 k0 st0 A1 Hm0 (Hp0 Hpl)).
Qed.

(** A task ends. *)
Lemma gen_finish s t th fr below e i o evs lk h : gen s -> nth_error (s_threads s) t = Some th ->
  t_pc th = PStack -> t_stack th = fr :: below -> f_mode fr = MCode (Done o) -> f_task fr = Some (e, i) ->
  eval_step (s_evals s) e (LFinish i o) = Some evs ->
  gen (Sys (setnth (s_threads s) t (resume th below o)) (s_queue s) lk evs (s_clock s) h).
Proof.
  intros [G1 G2 G3 G4 G5 G6 G7 G8 G9 G10 G11] Ht Hp Hs Hm Hft Hev.
  destruct (eval_finish _ _ _ _ _ Hev) as (S1 & S2 & S3 & S4 & S5 & S6).
  destruct (shape_stack th fr below (G1 _ _ Ht) Hp Hs) as (H1 & H2 & H3).
  assert (t_worker th = true) as Hw by (destruct (t_worker th); [reflexivity|destruct H3 as (_ & H3 & _); congruence]).
  rewrite Hw in H3. destruct H3 as (H3 & _ & _).
  set (th' := resume th below o).
  assert (hand th = [] /\ hand th' = [] /\ running th' = flat_map frame_task below /\
    (waits th' = flat_map frame_wait below \/ exists x, flat_map frame_wait below = x :: waits th')) as (E1 & E2 & E3 & E4).
  { unfold th', resume. split; [unfold hand; rewrite Hp, Hs; cbn; unfold frame_hand at 1; rewrite Hm; apply nested_hand; exact H1|].
    destruct below as [|f below']; [cbn; auto|]. destruct (H1 f (or_introl eq_refl)) as (e1 & k1 & Ef). rewrite Ef.
    assert (flat_map frame_hand below' = []) as Hh by (apply nested_hand; intros f' Hf'; apply H1; right; exact Hf').
    destruct o; unfold hand, running, waits, frame_wait, frame_task; cbn; rewrite Ef, Hh; cbn; eauto 10. }
  assert (t_worker th' = true) as Hw'.
  { unfold th', resume. destruct below as [|f below']; [exact Hw|]. destruct (f_mode f) as [|? ? []|]; exact Hw. }
  assert (forall f, In f (flat_map t_stack (setnth (s_threads s) t th')) ->
    exists f0, In f0 (frames s) /\ f_task f0 = f_task f /\ f_time f0 = f_time f /\
     forall e k st, f_mode f = MEval e k st -> exists st0, f_mode f0 = MEval e k st0 /\ (polling st = true -> polling st0 = true)) as Hfr.
  { intros f Hf. destruct (new_frames s t th th' f Ht Hf) as [Hf'|(t' & x & _ & Hx & Hf')].
    - unfold th', resume in Hf'. destruct below as [|f0 below']; [contradiction|].
      destruct (H1 f0 (or_introl eq_refl)) as (e1 & k1 & Ef). rewrite Ef in Hf'. cbn in Hf'. destruct Hf' as [<-|Hf'].
      + exists f0. split; [apply (in_frames _ _ _ _ Ht); rewrite Hs; right; left; reflexivity|]. split; [reflexivity|]. split; [reflexivity|].
        intros e0 k0 st Hx. cbn in Hx. destruct o; try discriminate; injection Hx as <- <- <-; exists SNested; auto.
      + exists f. split; [apply (in_frames _ _ _ _ Ht); rewrite Hs; right; right; exact Hf'|]. eauto 10.
    - exists f. split; [exact (in_frames _ _ _ _ Hx Hf')|]. eauto 10. }
  split; cbn [s_threads s_queue s_lock s_evals s_clock s_events].
  - intros t' x Hx. apply setnth_cases in Hx. destruct Hx as [(-> & -> & _)|(_ & Hx)]; [|exact (G1 _ _ Hx)].
    unfold th', resume. destruct below as [|f below']; [cbn; auto|].
    destruct (H1 f (or_introl eq_refl)) as (e1 & k1 & Ef). rewrite Ef. cbn. do 2 eexists. split; [reflexivity|].
    split; [intros f' Hf'; apply H1; right; exact Hf'|]. split; [destruct o; discriminate|]. rewrite Hw. split.
    + intros f' [<-|Hf']; [apply (H3 f); right; left; reflexivity|apply H3; right; right; exact Hf'].
    + split; destruct o; discriminate.
  - exact (evals_ok_step _ _ _ _ G2 Hev).
  - apply matches_ext with (ready_of (s_evals s)); [intros e'; symmetry; apply S2|]. refine (matches_perm _ _ _ _ G3).
    unfold tokens. cbn. symmetry. apply Permutation_app_head. apply (swap_same hand _ _ _ _ Ht). congruence.
  - apply matches_del with (active_of (s_evals s)) e i; [|exact S3|exact S4]. refine (matches_perm _ _ _ _ G4).
    unfold actives. cbn. destruct (swap running _ _ _ th' Ht) as (rest & P1 & P2). rewrite P1, P2, E3.
    unfold running at 1. rewrite Hs. cbn. unfold frame_task at 1. rewrite Hft. reflexivity.
  - unfold owners in *. cbn. destruct (swap waits _ _ _ th' Ht) as (rest & P1 & P2). rewrite P2. rewrite P1 in G5.
    unfold waits at 1 in G5. rewrite Hs in G5. cbn in G5. unfold frame_wait at 1 in G5. rewrite Hm in G5. cbn in G5.
    destruct E4 as [->|[x E4]]; [exact G5|]. rewrite E4 in G5. inversion G5. assumption.
  - unfold owners in *. cbn. intros e' He. rewrite S5. apply G6. destruct (swap waits _ _ _ th' Ht) as (rest & P1 & P2).
    apply (Permutation_in _ P2) in He. apply (Permutation_in _ (Permutation_sym P1)).
    unfold waits at 1. rewrite Hs. cbn. unfold frame_wait at 1. rewrite Hm. cbn. apply in_app_iff in He. apply in_app_iff.
    destruct He as [He|He]; [|auto]. left. destruct E4 as [E4|[x E4]]; rewrite ?E4 in *; [exact He|right; exact He].
  - exact G7.
  - unfold frames. cbn. intros f Hf. destruct (Hfr f Hf) as (f0 & A1 & _ & A3 & _). rewrite <- A3. exact (G8 _ A1).
  - intros t' x Hx. apply setnth_cases in Hx. destruct Hx as [(-> & -> & _)|(_ & Hx)]; [|exact (G9 _ _ Hx)].
    pose proof (G9 _ _ Ht) as Hst. rewrite Hs in Hst. destruct Hst as [_ Hst]. unfold th', resume.
    destruct below as [|f below']; [exact I|]. destruct (H1 f (or_introl eq_refl)) as (e1 & k1 & Ef). rewrite Ef. exact Hst.
  - unfold frames. cbn. intros f e0 k0 st Hf Hx f' i' Hf' Hi'.
    destruct (Hfr f Hf) as (f0 & A1 & A2 & A3 & A4). destruct (A4 _ _ _ Hx) as (st0 & Hm0 & _).
    destruct (Hfr f' Hf') as (f1 & B1 & B2 & B3 & _). rewrite <- A3, <- B3. apply (G10 f0 e0 k0 st0 A1 Hm0 f1 i' B1). congruence.
  - unfold frames. cbn. intros f e0 k0 st Hf Hx Hpl. destruct (Hfr f Hf) as (f0 & A1 & A2 & A3 & A4).
    destruct (A4 _ _ _ Hx) as (st0 & Hm0 & Hp0). apply (status_kept (s_evals s)).
    + intros e' v' Hv'. destruct (S6 _ _ Hv') as (v0 & F1 & F2 & _). eauto.
    + exact S5.
    + exact (G11 f0 e0 k0 st0 A1 Hm0 (Hp0 Hpl)).
Qed.

(** An evaluation begins. *)
Lemma init_active n deps : e_active (init n deps) = [].
Proof.
  unfold init. assert (forall s1, e_active (check n deps s1) = e_active s1) as Hch by (intros s1; unfold check; destruct (e_count s1); reflexivity).
  rewrite Hch, offers_active. reflexivity.
Qed.
Lemma gen_spawn s t th fr below n deps body k : gen s -> nth_error (s_threads s) t = Some th ->
  t_pc th = PStack -> t_stack th = fr :: below -> f_mode fr = MCode (Spawn n deps body k) ->
  gen (spawn s t th fr below n deps body k).
Proof.
  intros [G1 G2 G3 G4 G5 G6 G7 G8 G9 G10 G11] Ht Hp Hs Hm. unfold spawn.
  set (e := length (s_evals s)). set (e0 := init n deps). set (fr' := in_mode fr (MEval e k (SPut (e_ready e0)))).
  set (th' := with_stack th (fr' :: below)). set (evs := s_evals s ++ [Ev n deps body e0]).
  destruct (shape_stack th fr below (G1 _ _ Ht) Hp Hs) as (H1 & H2 & H3).
  assert (forall x, x <> e -> nth_error evs x = nth_error (s_evals s) x) as Hold.
  { intros x Hx. unfold evs. destruct (Nat.lt_ge_cases x e) as [Hl|Hl]; [apply nth_error_app1; exact Hl|].
    assert (e < x) as Hlt by (unfold e in *; lia).
    rewrite (proj2 (nth_error_None (s_evals s) x)) by (unfold e in *; lia). apply nth_error_None. rewrite app_length. cbn. unfold e in *; lia. }
  assert (nth_error evs e = Some (Ev n deps body e0)) as Hnew.
  { unfold evs, e. rewrite nth_error_app2 by lia. rewrite Nat.sub_diag. reflexivity. }
  assert (nth_error (s_evals s) e = None) as Hnone by (apply nth_error_None; unfold e; lia).
  assert (evals_ok evs) as Hok.
  { intros x v Hv. destruct (Nat.eq_dec x e) as [->|Hne]; [|rewrite (Hold x Hne) in Hv; exact (G2 _ _ Hv)].
    rewrite Hnew in Hv. injection Hv as <-. exists []. reflexivity. }
  assert (forall f, In f (flat_map t_stack (setnth (s_threads s) t th')) -> f = fr' \/ In f (frames s)) as Hfr.
  { intros f Hf. destruct (new_frames s t th th' f Ht Hf) as [Hf'|(t' & x & _ & Hx & Hf')].
    - cbn in Hf'. destruct Hf' as [<-|Hf']; [auto|]. right. apply (in_frames _ _ _ _ Ht). rewrite Hs. right. exact Hf'.
    - right. exact (in_frames _ _ _ _ Hx Hf'). }
  assert (In fr (frames s)) as Hin by (apply (in_frames _ _ _ _ Ht); rewrite Hs; left; reflexivity).
  assert (forall f i, In f (frames s) -> f_task f <> Some (e, i)) as Hfresh.
  { intros f i Hf Hft. assert (In (e, i) (actives s)) as Ha.
    { apply frames_in in Hf. destruct Hf as (t' & x & Hx & Hf). unfold actives. apply in_flat_map. exists x. split; [exact (nth_error_In _ _ Hx)|].
      apply in_flat_map. exists f. split; [exact Hf|]. unfold frame_task. rewrite Hft. left. reflexivity. }
    apply (proj2 G4) in Ha. unfold active_of in Ha. rewrite Hnone in Ha. contradiction. }
  split; cbn [s_threads s_queue s_lock s_evals s_clock s_events].
  - intros t' x Hx. apply setnth_cases in Hx. destruct Hx as [(-> & -> & _)|(_ & Hx)]; [|exact (G1 _ _ Hx)].
    unfold thread_shape. cbn. rewrite Hp. exists fr', below. split; [reflexivity|]. split; [exact H1|]. split; [discriminate|].
    destruct (t_worker th).
    + destruct H3 as (A1 & A2 & A3). split; [|split; discriminate]. intros f [<-|Hf]; [apply (A1 fr); left; reflexivity|apply A1; right; exact Hf].
    + destruct H3 as (A1 & A2 & A3). split; [exact A1|]. split; [exact A2|]. repeat split; discriminate.
  - exact Hok.
  - apply matches_perm with (map (pair e) (e_ready e0) ++ tokens s).
    + unfold tokens. cbn. destruct (swap hand _ _ _ th' Ht) as (rest & P1 & P2). rewrite P1, P2.
      unfold hand, th', with_stack. cbn. rewrite Hp, Hs. cbn. unfold frame_hand at 1. rewrite Hm. cbn.
      rewrite !app_assoc. do 2 apply Permutation_app_tail. apply Permutation_app_comm.
    + apply matches_add with (ready_of (s_evals s)); [exact G3| | |].
      * intros x Hx. unfold ready_of. rewrite (Hold x Hx). reflexivity.
      * unfold ready_of. rewrite Hnew, Hnone. reflexivity.
      * apply ready_nodup. exact Hok.
  - apply matches_ext with (active_of (s_evals s)).
    + intros x. unfold active_of. destruct (Nat.eq_dec x e) as [->|Hx]; [rewrite Hnew, Hnone; symmetry; apply init_active|rewrite (Hold x Hx); reflexivity].
    + refine (matches_perm _ _ _ _ G4). unfold actives. cbn. symmetry. apply (swap_same running _ _ _ _ Ht).
      unfold running, th', with_stack. cbn. rewrite Hs. reflexivity.
  - unfold owners in *. cbn. destruct (swap waits _ _ _ th' Ht) as (rest & P1 & P2). rewrite P2.
    assert (~ In e (flat_map waits (s_threads s))) as Hne by (intros Hx; apply G6 in Hx; unfold e in Hx; lia).
    rewrite P1 in G5. assert (~ In e (waits th ++ rest)) as Hne' by (intros Hx; apply Hne; apply (Permutation_in _ (Permutation_sym P1)); exact Hx).
    assert (waits th = flat_map frame_wait below) as Ew by (unfold waits; rewrite Hs; cbn; unfold frame_wait at 1; rewrite Hm; reflexivity).
    rewrite Ew in G5, Hne'. constructor; assumption.
  - unfold owners in *. cbn. intros x Hx. unfold evs. rewrite app_length. cbn.
    destruct (swap waits _ _ _ th' Ht) as (rest & P1 & P2). apply (Permutation_in _ P2) in Hx.
    unfold waits, th', with_stack in Hx. cbn in Hx. destruct Hx as [<-|Hx]; [unfold e; lia|].
    assert (x < length (s_evals s)); [|lia]. apply G6. apply (Permutation_in _ (Permutation_sym P1)). unfold waits at 1. rewrite Hs. cbn.
    unfold frame_wait at 1. rewrite Hm. exact Hx.
  - exact G7.
  - unfold frames. cbn. intros f Hf. destruct (Hfr f Hf) as [->|Hf']; [exact (G8 _ Hin)|exact (G8 _ Hf')].
  - intros t' x Hx. apply setnth_cases in Hx. destruct Hx as [(-> & -> & _)|(_ & Hx)]; [|exact (G9 _ _ Hx)].
    pose proof (G9 _ _ Ht) as Hst. rewrite Hs in Hst. exact Hst.
  - unfold frames. cbn. intros f e1 k1 st Hf Hx f' i' Hf' Hi'.
    assert (In f' (frames s) \/ f' = fr' /\ f_task fr = Some (e1, i')) as Hf1.
    { destruct (Hfr f' Hf') as [->|Hf1]; auto. }
    destruct (Hfr f Hf) as [->|Hf0].
    + cbn in Hx. injection Hx as <- _ _. exfalso. destruct Hf1 as [Hf1|[_ Hf1]]; [exact (Hfresh f' i' Hf1 Hi')|exact (Hfresh fr i' Hin Hf1)].
    + destruct Hf1 as [Hf1|[-> Hf1]]; [exact (G10 f e1 k1 st Hf0 Hx f' i' Hf1 Hi')|exact (G10 f e1 k1 st Hf0 Hx fr i' Hin Hf1)].
  - unfold frames. cbn. intros f e1 k1 st Hf Hx Hpl. destruct (Hfr f Hf) as [->|Hf0].
    + cbn in Hx. injection Hx as _ _ <-. discriminate.
    + destruct (G11 f e1 k1 st Hf0 Hx Hpl) as (v & Hv & Hr). exists v. split; [|exact Hr]. rewrite Hold; [exact Hv|]. intros ->. congruence.
Qed.

(** A finished task is taken from the done queue. *)
Lemma swap_parts (l : list thread) t th th' : nth_error l t = Some th ->
  exists pre post, l = pre ++ th :: post /\ setnth l t th' = pre ++ th' :: post.
Proof.
  revert t. induction l as [|x l IH]; intros [|t] H; try discriminate; cbn in *.
  - injection H as ->. exists [], l. auto.
  - destruct (IH t H) as (pre & post & -> & E). exists (x :: pre), post. cbn. rewrite E. auto.
Qed.
Lemma gen_process s t th fr below e k st evs lk h : gen s -> nth_error (s_threads s) t = Some th ->
  t_pc th = PStack -> t_stack th = fr :: below -> f_mode fr = MEval e k st -> st = SDone \/ st = SWait ->
  eval_step (s_evals s) e LProcess = Some evs ->
  gen (Sys (setnth (s_threads s) t
             (with_stack th (in_mode fr (MEval e k (SPut (skipn (length (ready_of (s_evals s) e)) (ready_of evs e)))) :: below)))
           (s_queue s) lk evs (s_clock s) h).
Proof.
  intros [G1 G2 G3 G4 G5 G6 G7 G8 G9 G10 G11] Ht Hp Hs Hm Hst0 Hev.
  destruct (eval_process _ _ _ G2 Hev) as (S1 & S2 & S3 & S4 & S5 & S6).
  set (l := skipn (length (ready_of (s_evals s) e)) (ready_of evs e)) in *.
  set (fr' := in_mode fr (MEval e k (SPut l))). set (th' := with_stack th (fr' :: below)).
  destruct (shape_stack th fr below (G1 _ _ Ht) Hp Hs) as (H1 & H2 & H3).
  assert (In fr (frames s)) as Hin by (apply (in_frames _ _ _ _ Ht); rewrite Hs; left; reflexivity).
  assert (waits th = e :: flat_map frame_wait below) as Ew by (unfold waits; rewrite Hs; cbn; unfold frame_wait at 1; rewrite Hm; reflexivity).
  assert (hand th = []) as Eh.
  { unfold hand. rewrite Hp, Hs. cbn. unfold frame_hand at 1. rewrite Hm. rewrite (nested_hand below H1). destruct Hst0 as [-> | ->]; reflexivity. }
  assert (forall f, In f (flat_map t_stack (setnth (s_threads s) t th')) ->
    f = fr' \/ In f (frames s) /\ forall k st, f_mode f <> MEval e k st) as Hfr.
  { destruct (swap_parts _ _ _ th' Ht) as (pre & post & E1 & E2).
    unfold owners in G5. rewrite E1, flat_map_app in G5. cbn in G5. rewrite Ew in G5.
    apply (Permutation_NoDup (Permutation_sym (Permutation_middle _ _ e))) in G5.
    inversion G5 as [|? ? Hn _]; subst. intros f Hf. rewrite E2, flat_map_app in Hf. cbn in Hf.
    assert (forall lst, In f (flat_map t_stack lst) -> (forall x, In x lst -> In x (pre ++ post)) -> f = fr' \/ In f (frames s) /\ forall k st, f_mode f <> MEval e k st) as Hother.
    { intros lst Hf' Hsub. right. apply in_flat_map in Hf'. destruct Hf' as (x & Hx & Hf'). apply Hsub in Hx. split.
      - unfold frames. apply in_flat_map. exists x. split; [|exact Hf']. rewrite E1. apply in_app_iff in Hx. apply in_app_iff. cbn. tauto.
      - intros k1 st1 Ef. apply Hn. assert (In e (waits x)) as Hwx.
        { unfold waits. apply in_flat_map. exists f. split; [exact Hf'|]. unfold frame_wait. rewrite Ef. left. reflexivity. }
        apply in_app_iff in Hx. apply in_app_iff. destruct Hx as [Hx|Hx].
        + left. apply in_flat_map. eauto.
        + right. apply in_app_iff. right. apply in_flat_map. eauto. }
    apply in_app_iff in Hf. destruct Hf as [Hf|Hf]; [apply (Hother pre Hf); intros x Hx; apply in_app_iff; auto|].
    destruct Hf as [<-|Hf]; [auto|]. apply in_app_iff in Hf. destruct Hf as [Hf|Hf]; [|apply (Hother post Hf); intros x Hx; apply in_app_iff; auto].
    right. split; [apply (in_frames _ _ _ _ Ht); rewrite Hs; right; exact Hf|]. intros k1 st1 Ef. apply Hn. apply in_app_iff. right.
    apply in_app_iff. left. apply in_flat_map. exists f. split; [exact Hf|]. unfold frame_wait. rewrite Ef. left. reflexivity. }
  split; cbn [s_threads s_queue s_lock s_evals s_clock s_events].
  - intros t' x Hx. apply setnth_cases in Hx. destruct Hx as [(-> & -> & _)|(_ & Hx)]; [|exact (G1 _ _ Hx)].
    unfold thread_shape. cbn. rewrite Hp. exists fr', below. split; [reflexivity|]. split; [exact H1|]. split; [discriminate|].
    destruct (t_worker th).
    + destruct H3 as (A1 & A2 & A3). split; [|split; discriminate]. intros f [<-|Hf]; [apply (A1 fr); left; reflexivity|apply A1; right; exact Hf].
    + destruct H3 as (A1 & A2 & A3). split; [exact A1|]. split; [exact A2|]. repeat split; discriminate.
  - exact (evals_ok_step _ _ _ _ G2 Hev).
  - apply matches_perm with (map (pair e) l ++ tokens s).
    + unfold tokens. cbn. destruct (swap hand _ _ _ th' Ht) as (rest & P1 & P2). rewrite P1, P2, Eh.
      unfold hand, th', with_stack. cbn. rewrite Hp. cbn. rewrite (nested_hand below H1), app_nil_r.
      rewrite !app_assoc. apply Permutation_app_tail. apply Permutation_app_comm.
    + apply matches_add with (ready_of (s_evals s)); [exact G3|exact S2| |].
      * rewrite S3. reflexivity.
      * exact S4.
  - apply matches_ext with (active_of (s_evals s)); [intros x; symmetry; apply S1|].
    refine (matches_perm _ _ _ _ G4). unfold actives. cbn. symmetry. apply (swap_same running _ _ _ _ Ht).
    unfold running, th', with_stack. cbn. rewrite Hs. reflexivity.
  - unfold owners in *. cbn. rewrite (swap_same waits _ _ _ th' Ht); [exact G5|]. rewrite Ew. reflexivity.
  - unfold owners in *. cbn. intros x Hx. rewrite S5. apply G6. rewrite (swap_same waits _ _ _ th' Ht) in Hx; [exact Hx|]. rewrite Ew. reflexivity.
  - exact G7.
  - unfold frames. cbn. intros f Hf. destruct (Hfr f Hf) as [->|[Hf' _]]; [exact (G8 _ Hin)|exact (G8 _ Hf')].
  - intros t' x Hx. apply setnth_cases in Hx. destruct Hx as [(-> & -> & _)|(_ & Hx)]; [|exact (G9 _ _ Hx)].
    pose proof (G9 _ _ Ht) as Hst. rewrite Hs in Hst. exact Hst.
  - unfold frames. cbn. intros f e1 k1 st1 Hf Hx f' i' Hf' Hi'.
    assert (exists f0, In f0 (frames s) /\ f_time f0 = f_time f /\ exists st0, f_mode f0 = MEval e1 k1 st0) as (f0 & A1 & A2 & st0 & A3).
    { destruct (Hfr f Hf) as [->|[Hf0 _]]; [|eauto 10]. cbn in Hx. injection Hx as <- <- _. exists fr. eauto. }
    assert (exists f0, In f0 (frames s) /\ f_time f0 = f_time f' /\ f_task f0 = Some (e1, i')) as (f1 & B1 & B2 & B3).
    { destruct (Hfr f' Hf') as [->|[Hf0 _]]; [|eauto 10]. exists fr. auto. }
    rewrite <- A2, <- B2. exact (G10 f0 e1 k1 st0 A1 A3 f1 i' B1 B3).
  - unfold frames. cbn. intros f e1 k1 st1 Hf Hx Hpl. destruct (Hfr f Hf) as [->|[Hf0 Hne]].
    + cbn in Hx. injection Hx as _ _ <-. discriminate.
    + destruct (G11 f e1 k1 st1 Hf0 Hx Hpl) as (v & Hv & Hr).
      assert (e1 <> e) as Hee by (intros ->; exact (Hne _ _ Hx)).
      destruct (nth_error evs e1) as [v'|] eqn:E1.
      * destruct (S6 _ _ E1) as (v0 & F1 & F2 & _). exists v'. split; [reflexivity|]. rewrite (F2 Hee). congruence.
      * apply nth_error_None in E1. assert (e1 < length (s_evals s)) by (apply nth_error_Some; congruence). lia.
Qed.

(** A thread outside ends. *)
Lemma gen_exit s t th fr below o lk h : gen s -> nth_error (s_threads s) t = Some th -> t_pc th = PStack -> t_stack th = fr :: below ->
  f_mode fr = MCode (Done o) -> f_task fr = None ->
  gen (Sys (setnth (s_threads s) t (Th (t_worker th) (t_finished th) PExit [])) (s_queue s) lk (s_evals s) (s_clock s) h).
Proof.
  intros [G1 G2 G3 G4 G5 G6 G7 G8 G9 G10 G11] Ht Hp Hs Hm Hft. set (th' := Th (t_worker th) (t_finished th) PExit []).
  destruct (shape_stack th fr below (G1 _ _ Ht) Hp Hs) as (H1 & H2 & H3).
  assert (below = []) as -> by (destruct (t_worker th); [destruct H3 as [H3 _]; exfalso; apply (H3 fr); [left; reflexivity|exact Hft]|exact (proj1 H3)]).
  assert (forall f, In f (flat_map t_stack (setnth (s_threads s) t th')) -> In f (frames s)) as Hfr.
  { intros f Hf. destruct (new_frames s t th th' f Ht Hf) as [[]|(t' & x & _ & Hx & Hf')]. exact (in_frames _ _ _ _ Hx Hf'). }
  split; cbn [s_threads s_queue s_lock s_evals s_clock s_events].
  - intros t' x Hx. apply setnth_cases in Hx. destruct Hx as [(-> & -> & _)|(_ & Hx)]; [reflexivity|exact (G1 _ _ Hx)].
  - exact G2.
  - refine (matches_perm _ _ _ _ G3). unfold tokens. cbn. symmetry. apply Permutation_app_head. apply (swap_same hand _ _ _ _ Ht).
    unfold hand. rewrite Hp, Hs. cbn. unfold frame_hand. rewrite Hm. reflexivity.
  - refine (matches_perm _ _ _ _ G4). unfold actives. cbn. symmetry. apply (swap_same running _ _ _ _ Ht).
    unfold running. rewrite Hs. cbn. unfold frame_task. rewrite Hft. reflexivity.
  - unfold owners in *. cbn. rewrite (swap_same waits _ _ _ th' Ht); [exact G5|]. unfold waits. rewrite Hs. cbn. unfold frame_wait. rewrite Hm. reflexivity.
  - unfold owners in *. cbn. intros x Hx. apply G6. rewrite (swap_same waits _ _ _ th' Ht) in Hx; [exact Hx|]. unfold waits. rewrite Hs. cbn. unfold frame_wait. rewrite Hm. reflexivity.
  - exact G7.
  - unfold frames. cbn. intros f Hf. exact (G8 _ (Hfr f Hf)).
  - intros t' x Hx. apply setnth_cases in Hx. destruct Hx as [(-> & -> & _)|(_ & Hx)]; [exact I|exact (G9 _ _ Hx)].
  - unfold frames. cbn. intros f e1 k1 st1 Hf Hx f' i' Hf' Hi'. exact (G10 _ _ _ _ (Hfr f Hf) Hx _ _ (Hfr f' Hf') Hi').
  - unfold frames. cbn. intros f e1 k1 st1 Hf Hx Hpl. exact (G11 _ _ _ _ (Hfr f Hf) Hx Hpl).
Qed.

(** 313 changes nothing but [t_finished]. *)
Lemma tell_nth l j t th : nth_error (tell l j) t = Some th ->
  exists x, nth_error l t = Some x /\ t_worker th = t_worker x /\ t_pc th = t_pc x /\ t_stack th = t_stack x /\ (t_finished th = t_finished x \/ t = j).
Proof.
  unfold tell. destruct (nth_error l j) as [x|] eqn:E; [|intros H; exists th; auto 10]. intros H.
  apply setnth_cases in H. destruct H as [(-> & -> & _)|(Hne & H)]; [exists x|exists th]; auto 10.
Qed.
Lemma tell_nth' l j t x : nth_error l t = Some x ->
  exists th, nth_error (tell l j) t = Some th /\ t_worker th = t_worker x /\ t_pc th = t_pc x /\ t_stack th = t_stack x.
Proof.
  unfold tell. intros H. destruct (nth_error l j) as [y|] eqn:E; [|exists x; auto 10].
  destruct (Nat.eq_dec t j) as [->|Hne].
  - rewrite (setnth_same _ _ _ _ E). assert (x = y) as -> by congruence. eexists. split; [reflexivity|]. auto.
  - rewrite setnth_other by exact Hne. exists x. auto 10.
Qed.
Lemma tell_flat {X} (f : thread -> list X) l j : (forall w b b' p st, f (Th w b p st) = f (Th w b' p st)) ->
  flat_map f (tell l j) = flat_map f l.
Proof.
  intros H. unfold tell. revert j. induction l as [|x l IH]; intros [|j]; cbn; try reflexivity.
  - f_equal. destruct x. apply H.
  - specialize (IH j). destruct (nth_error l j); cbn; [|reflexivity]. f_equal. exact IH.
Qed.
Lemma gen_tell s j : gen s -> gen (Sys (tell (s_threads s) j) (s_queue s) (s_lock s) (s_evals s) (s_clock s) (s_events s)).
Proof.
  intros [G1 G2 G3 G4 G5 G6 G7 G8 G9 G10 G11].
  assert (frames (Sys (tell (s_threads s) j) (s_queue s) (s_lock s) (s_evals s) (s_clock s) (s_events s)) = frames s) as Hf
    by (apply tell_flat; reflexivity).
  split; cbn [s_threads s_queue s_lock s_evals s_clock s_events]; try assumption.
  - intros t th H. destruct (tell_nth _ _ _ _ H) as (x & Hx & E1 & E2 & E3 & _). specialize (G1 _ _ Hx).
    unfold thread_shape in *. rewrite E1, E2, E3. exact G1.
  - unfold tokens. cbn. rewrite tell_flat by reflexivity. exact G3.
  - unfold actives. cbn. rewrite tell_flat by reflexivity. exact G4.
  - unfold owners. cbn. rewrite tell_flat by reflexivity. exact G5.
  - unfold owners. cbn. rewrite tell_flat by reflexivity. exact G6.
  - rewrite Hf. exact G8.
  - intros t th H. destruct (tell_nth _ _ _ _ H) as (x & Hx & _ & _ & E & _). rewrite E. exact (G9 _ _ Hx).
  - rewrite Hf. exact G10.
  - rewrite Hf. exact G11.
Qed.

(** *** Every step keeps the invariant *)
Lemma shape_top th fr below fr' : thread_shape th -> t_pc th = PStack -> t_stack th = fr :: below -> f_task fr' = f_task fr ->
  (forall e k, f_mode fr' <> MEval e k SNested) ->
  (if t_worker th then (forall e k, f_mode fr' <> MEval e k SWait) /\ (forall p js b k, f_mode fr' <> MShut p js b k)
   else (forall e k, f_mode fr' <> MEval e k SDone) /\ (forall e k was, f_mode fr' <> MEval e k (SRead was)) /\
         (forall e k was got, f_mode fr' <> MEval e k (SAcq was got))) ->
  thread_shape (with_stack th (fr' :: below)).
Proof.
  intros Hsh Hp Hs Ht H1 H2. destruct (shape_stack th fr below Hsh Hp Hs) as (A1 & A2 & A3).
  unfold thread_shape. cbn. rewrite Hp. exists fr', below. split; [reflexivity|]. split; [exact A1|]. split; [exact H1|].
  destruct (t_worker th).
  - destruct A3 as (B1 & _ & _). destruct H2 as [C1 C2]. split; [|auto]. intros f [<-|Hf]; [rewrite Ht; apply B1; left; reflexivity|apply B1; right; exact Hf].
  - destruct A3 as (B1 & B2 & _). rewrite Ht. auto.
Qed.

Lemma gen_step s t s' : gen s -> sys_step s t = Some s' -> gen s'.
Proof.
  intros G H. destruct (step_change _ _ _ H) as (th & Ht & C). pose proof (g_shape s G _ _ Ht) as Hsh.
  destruct C as [Hp|q qs Hp Hq|Hp Hl|e i s' Hp Hl Hst|lv Hp|fr below fr' lk h Hp Hs Hm|fr below o Hp Hs Hm Hf|fr below fr' q Hp Hs Hm
    |fr below j js k Hp Hs Hm|fr below e k was q qs Hp Hs Hm Hq|fr below e k was e' i' s' Hp Hs Hm Hl Hst
    |fr below e i o s' Hp Hs Hm Hf Hst|fr below n deps body k Hp Hs Hm|fr below e k st s' Hp Hs Hm Hst0 Hst].
  - unfold thread_shape in Hsh. rewrite Hp in Hsh. apply gen_pc; auto; [apply Hsh| |].
    + unfold thread_shape, at_pc. cbn. destruct (t_finished th); [apply Hsh|exact Hsh].
    + rewrite Hp. destruct (t_finished th); reflexivity.
  - unfold thread_shape in Hsh. rewrite Hp in Hsh. apply gen_pc; auto; [apply Hsh|].
    rewrite Hp, Hq. destruct q as [x|]; cbn; [|reflexivity]. rewrite app_nil_r. symmetry. apply Permutation_cons_append.
  - unfold thread_shape in Hsh. rewrite Hp in Hsh. apply gen_pc; auto; [apply Hsh|]. rewrite Hp. reflexivity.
  - unfold thread_shape in Hsh. rewrite Hp in Hsh. destruct Hsh as [Hs Hw].
    destruct (start_inv' _ _ _ _ _ _ _ Hst) as (v & evs & Hv & Hev & ->). cbn in *.
    apply gen_start; auto; try (intros f []); try exact I.
    + unfold hand. rewrite Hp, Hs. reflexivity.
    + unfold running. rewrite Hs. reflexivity.
    + unfold waits. rewrite Hs. reflexivity.
  - unfold thread_shape in Hsh. rewrite Hp in Hsh. apply gen_pc; auto; [apply Hsh| |].
    + unfold thread_shape, at_pc. cbn. destruct (lv || negb (s_lock s)); [apply Hsh|exact Hsh].
    + rewrite Hp. destruct (lv || negb (s_lock s)); reflexivity.
  - unfold go. destruct (shape_stack th fr below Hsh Hp Hs) as (A1 & A2 & A3).
    destruct Hm; (apply gen_top with fr; [exact G|exact Ht|exact Hp|exact Hs| | | |]);
      try (unfold kept; cbn; unfold frame_wait; cbn; repeat match goal with Hx : f_mode fr = _ |- _ => rewrite Hx end; cbn; now auto);
      try (unfold frame_hand; cbn; repeat match goal with Hx : f_mode fr = _ |- _ => rewrite Hx end; cbn; rewrite ?app_nil_r; reflexivity);
      try (apply (shape_top th fr below); [exact Hsh|exact Hp|exact Hs|reflexivity|cbn; discriminate|
             repeat match goal with Hx : t_worker th = _ |- _ => rewrite Hx end; destruct (t_worker th) eqn:Ew; cbn; repeat split; try discriminate; intros; exfalso; destruct A3 as (B1 & B2 & B3); try (destruct B3 as (B3 & B4 & B5)); first [now eapply B3; eassumption|now eapply B4; eassumption|now eapply B5; eassumption|congruence]]);
      try (cbn; intros e1 k1 st1 Hx Hpl; first [discriminate Hx|injection Hx as <- <- <-; first [discriminate Hpl|now eauto|
             apply (g_poll s G fr _ _ _ ltac:(apply (in_frames _ _ _ _ Ht); rewrite Hs; left; reflexivity) ltac:(eassumption)); reflexivity]]).
    all: idtac.
    + destruct H1 as [-> | ->]; unfold frame_hand; cbn; rewrite H0; cbn; reflexivity.
  - unfold go. eapply gen_exit; eassumption.
  - destruct (shape_stack th fr below Hsh Hp Hs) as (A1 & A2 & A3).
    destruct Hm; (apply gen_top with fr; [exact G|exact Ht|exact Hp|exact Hs| | | |]).
    + unfold kept; cbn; unfold frame_wait; cbn. rewrite H0. auto.
    + apply (shape_top th fr below); [exact Hsh|exact Hp|exact Hs|reflexivity|cbn; discriminate|]. destruct (t_worker th); cbn; repeat split; discriminate.
    + unfold frame_hand; cbn. rewrite H0. cbn. symmetry. symmetry. apply Permutation_middle.
    + cbn. intros e1 k1 st1 Hx Hpl. injection Hx as <- <- <-. discriminate.
    + unfold kept; cbn; unfold frame_wait; cbn. auto.
    + apply (shape_top th fr below); [exact Hsh|exact Hp|exact Hs|reflexivity|cbn; discriminate|]. destruct (t_worker th); cbn; repeat split; try discriminate.
      intros; exfalso; destruct A3 as (B1 & B2 & B3). now eapply B3; eassumption.
    + unfold frame_hand; cbn. rewrite H0. reflexivity.
    + cbn. discriminate.
  - destruct (shape_stack th fr below Hsh Hp Hs) as (A1 & A2 & A3).
    refine (gen_tell (Sys _ _ _ _ _ _) j _). apply gen_top with fr; [exact G|exact Ht|exact Hp|exact Hs| | | |].
    + unfold kept; cbn; unfold frame_wait; cbn. auto.
    + apply (shape_top th fr below); [exact Hsh|exact Hp|exact Hs|reflexivity|cbn; discriminate|]. destruct (t_worker th); cbn; repeat split; try discriminate.
      intros; exfalso; destruct A3 as (B1 & B2 & B3). now eapply B3; eassumption.
    + unfold frame_hand; cbn. rewrite Hm. reflexivity.
    + cbn. discriminate.
  - destruct (shape_stack th fr below Hsh Hp Hs) as (A1 & A2 & A3).
    apply gen_top with fr; [exact G|exact Ht|exact Hp|exact Hs| | | |].
    + unfold kept; cbn; unfold frame_wait; cbn. rewrite Hm. auto.
    + apply (shape_top th fr below); [exact Hsh|exact Hp|exact Hs|reflexivity|cbn; discriminate|]. destruct (t_worker th); cbn; repeat split; try discriminate.
      intros; exfalso. destruct A3 as (_ & _ & _ & B3 & _). now eapply B3; eassumption.
    + unfold frame_hand; cbn. rewrite Hm, Hq. cbn. destruct q as [x|]; cbn; [|reflexivity]. rewrite app_nil_r. symmetry. apply Permutation_cons_append.
    + cbn. intros e1 k1 st1 Hx _. injection Hx as <- <- <-.
      apply (g_poll s G fr _ _ _ ltac:(apply (in_frames _ _ _ _ Ht); rewrite Hs; left; reflexivity) Hm). reflexivity.
  - destruct (shape_stack th fr below Hsh Hp Hs) as (A1 & A2 & A3).
    assert (t_worker th = true) as Hw by (destruct (t_worker th); [reflexivity|destruct A3 as (_ & _ & _ & _ & B); exfalso; now eapply B; eassumption]).
    rewrite Hw in A3. destruct A3 as (A3 & _ & _).
    destruct (start_inv' _ _ _ _ _ _ _ Hst) as (v & evs & Hv & Hev & ->). cbn in *.
    apply gen_start; auto.
    + unfold hand. rewrite Hp, Hs. cbn. unfold frame_hand at 1. rewrite Hm. cbn. f_equal. apply nested_hand. exact A1.
    + unfold running. rewrite Hs. reflexivity.
    + unfold waits. rewrite Hs. cbn. unfold frame_wait at 1. rewrite Hm. reflexivity.
    + intros f [<-|Hf]; [cbn; eauto|auto].
    + intros f [<-|Hf]; [cbn; apply A3; left; reflexivity|apply A3; right; exact Hf].
    + intros f [<-|Hf].
      * exists fr. rewrite Hs. split; [left; reflexivity|]. split; [reflexivity|]. split; [reflexivity|]. cbn. intros e1 k1 st1 Hx. injection Hx as <- <- <-.
        eexists. split; [exact Hm|reflexivity].
      * exists f. rewrite Hs. split; [right; exact Hf|]. split; [reflexivity|]. split; [reflexivity|]. intros e1 k1 st1 Hx. exists st1. split; [exact Hx|].
        destruct (A1 f Hf) as (e2 & k2 & E2). rewrite E2 in Hx. injection Hx as _ _ <-. reflexivity.
    + pose proof (g_stack s G _ _ Ht) as Hx. rewrite Hs in Hx. exact Hx.
  - destruct (finish_inv' _ _ _ _ _ _ _ _ Hst) as (evs & Hev & ->). eapply gen_finish; eassumption.
  - eapply gen_spawn; eassumption.
  - destruct (process_inv' _ _ _ _ _ _ _ _ Hst) as (evs & Hev & ->). eapply gen_process; eassumption.
Qed.

Lemma gen_runs ts : forall s s', gen s -> sys_runs s ts = Some s' -> gen s'.
Proof.
  induction ts as [|t ts IH]; intros s s' G H; cbn in H; [injection H as <-; exact G|].
  destruct (sys_step s t) as [s1|] eqn:E; [|discriminate]. exact (IH _ _ (gen_step _ _ _ G E) H).
Qed.

Lemma init_thread w mains t th : nth_error (s_threads (sys_init w mains)) t = Some th ->
  th = worker \/ exists p, In p mains /\ th = outside p.
Proof.
  cbn. intros H. apply nth_error_In in H. apply in_app_iff in H. destruct H as [H|H].
  - left. apply repeat_spec in H. exact H.
  - right. apply in_map_iff in H. destruct H as (p & <- & Hp). eauto.
Qed.
Lemma flat_map_nil {X Y} (f : X -> list Y) l : (forall x, In x l -> f x = []) -> flat_map f l = [].
Proof. induction l as [|x l IH]; intros H; [reflexivity|]. cbn. rewrite (H x (or_introl eq_refl)), IH; [reflexivity|]. intros y Hy. apply H. right. exact Hy. Qed.
Lemma gen_init w mains : gen (sys_init w mains).
Proof.
  assert (forall {Y} (f : thread -> list Y), f worker = [] -> (forall p, f (outside p) = []) -> flat_map f (s_threads (sys_init w mains)) = []) as Hnil.
  { intros Y f H1 H2. apply flat_map_nil. intros x Hx. apply In_nth_error in Hx. destruct Hx as [t Hx].
    destruct (init_thread _ _ _ _ Hx) as [->|(p & _ & ->)]; auto. }
  assert (forall fr, In fr (frames (sys_init w mains)) -> exists p, fr = Fr None 0 [] (MCode p)) as Hfr.
  { intros fr Hf. apply frames_in in Hf. destruct Hf as (t & th & Ht & Hf). destruct (init_thread _ _ _ _ Ht) as [->|(p & _ & ->)]; [contradiction|].
    cbn in Hf. destruct Hf as [<-|[]]. eauto. }
  split.
  - intros t th H. destruct (init_thread _ _ _ _ H) as [->|(p & _ & ->)]; [split; reflexivity|]. cbn.
    do 2 eexists. split; [reflexivity|]. repeat split; try discriminate. contradiction.
  - intros e v H. destruct e; discriminate.
  - unfold tokens. rewrite Hnil by reflexivity. cbn. split; [constructor|]. intros e i. unfold ready_of. destruct e; cbn; tauto.
  - unfold actives. rewrite Hnil by reflexivity. cbn. split; [constructor|]. intros e i. unfold active_of. destruct e; cbn; tauto.
  - unfold owners. rewrite Hnil by reflexivity. constructor.
  - unfold owners. rewrite Hnil by reflexivity. contradiction.
  - cbn. lia.
  - intros fr Hf. destruct (Hfr fr Hf) as [p ->]. cbn. lia.
  - intros t th H. destruct (init_thread _ _ _ _ H) as [->|(p & _ & ->)]; [exact I|]. cbn. split; [contradiction|exact I].
  - intros fr e k st Hf Hm. destruct (Hfr fr Hf) as [p ->]. discriminate.
  - intros fr e k st Hf Hm. destruct (Hfr fr Hf) as [p ->]. discriminate.
Qed.
