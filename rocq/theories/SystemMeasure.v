(** What is left to do: a multiset of programs that gets smaller with everything that
    happens, except for putting tasks on the queue and polling. *)
From Coq Require Import List Bool Arith Lia Permutation Relation_Operators Transitive_Closure.
From Verif Require Import SchedModel SchedFacts SchedThms SystemModel SystemSteps SystemFacts.
Import ListNotations.

(** *** The multiset order *)
Section Multiset.
  Context {X : Type} (R : X -> X -> Prop).
  Definition red (l' l : list X) : Prop :=
    exists a bs rest, Permutation l (a :: rest) /\ Permutation l' (bs ++ rest) /\ forall b, In b bs -> R b a.

  Lemma red_perm l1 l2 l' : Permutation l1 l2 -> red l' l1 -> red l' l2.
  Proof. intros P (a & bs & rest & H1 & H2 & H3). exists a, bs, rest. split; [rewrite <- P; exact H1|]. auto. Qed.
  Lemma red_perm_l l l1 l2 : Permutation l1 l2 -> red l1 l -> red l2 l.
  Proof. intros P (a & bs & rest & H1 & H2 & H3). exists a, bs, rest. split; [exact H1|]. split; [rewrite <- P; exact H2|exact H3]. Qed.
  Lemma acc_perm l1 l2 : Permutation l1 l2 -> Acc red l1 -> Acc red l2.
  Proof. intros P [H]. constructor. intros l' Hr. apply H. apply red_perm with l2; [symmetry; exact P|exact Hr]. Qed.

  Lemma acc_cons a : (forall b, R b a -> forall M, Acc red M -> Acc red (b :: M)) -> forall M, Acc red M -> Acc red (a :: M).
  Proof.
    intros Ha M HM. induction HM as [M HM IH]. constructor. intros N (a' & bs & rest & H1 & H2 & H3).
    assert (In a (a' :: rest)) as Hin by (apply (Permutation_in _ H1); left; reflexivity).
    destruct Hin as [<-|Hin].
    - apply Permutation_cons_inv in H1. apply acc_perm with (bs ++ M); [rewrite H2, H1; reflexivity|].
      clear H2. induction bs as [|b bs IHb]; [constructor; exact HM|]. cbn. apply Ha; [apply H3; left; reflexivity|].
      apply IHb. intros b' Hb'. apply H3. right. exact Hb'.
    - destruct (in_split _ _ Hin) as (r1 & r2 & ->).
      assert (Permutation M (a' :: r1 ++ r2)) as HM'.
      { apply Permutation_cons_inv with a. rewrite H1. rewrite <- Permutation_middle. apply perm_swap. }
      apply acc_perm with (a :: (bs ++ r1 ++ r2)).
      + rewrite H2. rewrite <- Permutation_middle. rewrite (Permutation_middle bs). reflexivity.
      + apply IH. exists a', bs, (r1 ++ r2). auto.
  Qed.
  Lemma red_wf : well_founded R -> well_founded red.
  Proof.
    intros Hwf l. induction l as [|a l IH].
    - constructor. intros N (a & bs & rest & H1 & _). apply Permutation_nil_cons in H1. contradiction.
    - revert l IH. induction a as [a IHa] using (well_founded_ind Hwf). apply acc_cons. exact IHa.
  Qed.
  Lemma red_app l' l rest : red l' l -> red (l' ++ rest) (l ++ rest).
  Proof.
    intros (a & bs & r & H1 & H2 & H3). exists a, bs, (r ++ rest). rewrite H1, H2. cbn. rewrite <- app_assoc. auto.
  Qed.
  Lemma red_one a bs : (forall b, In b bs -> R b a) -> red bs [a].
  Proof. intros H. exists a, bs, []. rewrite app_nil_r. auto. Qed.
End Multiset.

(** *** Pieces of programs *)
Inductive item := IP (p : prog) | IK (k : answer -> prog) | IT.
Inductive ilt : item -> item -> Prop :=
  | il_work k : ilt (IP k) (IP (Work k))
  | il_enter k : ilt (IP k) (IP (Enter k))
  | il_leave k : ilt (IP k) (IP (Leave k))
  | il_body n d b k i : ilt (IP (b i)) (IP (Spawn n d b k))
  | il_cont n d b k : ilt (IK k) (IP (Spawn n d b k))
  | il_answer k a : ilt (IP (k a)) (IK k)
  | il_tick p : ilt IT (IP p)
  | il_tick_k k : ilt IT (IK k).

Lemma ilt_wf : well_founded ilt.
Proof.
  assert (Acc ilt IT) as HT by (constructor; intros y Hy; inversion Hy).
  assert (forall k, (forall a, Acc ilt (IP (k a))) -> Acc ilt (IK k)) as HK.
  { intros k H. constructor. intros y Hy. inversion Hy; subst; auto. }
  assert (forall p, Acc ilt (IP p)) as HP.
  { induction p as [o|k IH|n d b IHb k IHk|k IH|k IH|k IH]; constructor; intros y Hy; inversion Hy; subst; auto. }
  intros [p|k|]; auto.
Qed.
Definition smaller : list item -> list item -> Prop := clos_trans _ (red ilt).
Lemma smaller_wf : well_founded smaller.
Proof. apply wf_clos_trans. exact (red_wf ilt ilt_wf). Qed.
Lemma smaller_red l' l : red ilt l' l -> smaller l' l.
Proof. apply t_step. Qed.
Lemma smaller_trans l1 l2 l3 : smaller l1 l2 -> smaller l2 l3 -> smaller l1 l3.
Proof. apply t_trans. Qed.
Lemma smaller_perm l' l1 l2 : Permutation l1 l2 -> smaller l' l1 -> smaller l' l2.
Proof.
  intros P H. revert l2 P. induction H as [x y H|x y z H1 IH1 H2 IH2]; intros l2 P.
  - apply t_step. exact (red_perm ilt _ _ _ P H).
  - apply t_trans with y; [exact H1|]. exact (IH2 _ P).
Qed.
Lemma smaller_perm_l l l1 l2 : Permutation l1 l2 -> smaller l1 l -> smaller l2 l.
Proof.
  intros P H. revert l2 P. induction H as [x y H|x y z H1 IH1 H2 IH2]; intros l2 P.
  - apply t_step. exact (red_perm_l ilt _ _ _ P H).
  - apply t_trans with y; [exact (IH1 _ P)|exact H2].
Qed.
Lemma smaller_app l' l rest : smaller l' l -> smaller (l' ++ rest) (l ++ rest).
Proof.
  intros H. induction H as [x y H|x y z H1 IH1 H2 IH2]; [apply t_step, red_app, H|exact (t_trans _ _ _ _ _ IH1 IH2)].
Qed.
Lemma smaller_one a bs rest : (forall b, In b bs -> ilt b a) -> smaller (bs ++ rest) (a :: rest).
Proof. intros H. apply t_step. exact (red_app ilt bs [a] rest (red_one ilt a bs H)). Qed.

Definition frame_items (fr : frame) : list item :=
  match f_mode fr with MCode p => [IP p] | MEval _ k _ => [IK k] | MShut _ _ _ k => [IP k] end.
Definition thread_items (th : thread) : list item := flat_map frame_items (t_stack th).
Definition unstarted (v : ev) : list task :=
  filter (fun i => negb (existsb (Nat.eqb i) (starts (e_trace (v_est v))))) (seq 0 (v_n v)).
Definition eval_items (v : ev) : list item :=
  flat_map (fun i => [IP (v_body v i); IT]) (unstarted v) ++ map (fun _ => IT) (e_doneq (v_est v)).
Definition mu (s : sys) : list item := flat_map thread_items (s_threads s) ++ flat_map eval_items (s_evals s).

Local Arguments mu : simpl never.
(** *** How it changes *)
Lemma mu_one s t th th' q lk c h : nth_error (s_threads s) t = Some th -> exists rest,
  Permutation (mu s) (thread_items th ++ rest) /\
  Permutation (mu (Sys (setnth (s_threads s) t th') q lk (s_evals s) c h)) (thread_items th' ++ rest).
Proof.
  intros Ht. destruct (swap thread_items _ _ _ th' Ht) as (rest & P1 & P2). exists (rest ++ flat_map eval_items (s_evals s)).
  unfold mu. cbn. rewrite P1, P2, <- !app_assoc. split; reflexivity.
Qed.
Lemma mu_two s t th th' e v x q lk c h : nth_error (s_threads s) t = Some th -> nth_error (s_evals s) e = Some v -> exists rest,
  Permutation (mu s) ((thread_items th ++ eval_items v) ++ rest) /\
  Permutation (mu (Sys (setnth (s_threads s) t th') q lk (setnth (s_evals s) e (set_est v x)) c h))
              ((thread_items th' ++ eval_items (set_est v x)) ++ rest).
Proof.
  intros Ht Hv. destruct (swap thread_items _ _ _ th' Ht) as (rest & P1 & P2).
  destruct (setnth_split eval_items _ _ _ Hv) as (rest' & Q1 & Q2). specialize (Q2 (set_est v x)).
  exists (rest ++ rest'). unfold mu. cbn. rewrite P1, P2, Q1, Q2.
  split; rewrite <- !app_assoc; apply Permutation_app_head; rewrite !app_assoc; apply Permutation_app_tail; apply Permutation_app_comm.
Qed.

Lemma unstarted_in v i : In i (unstarted v) <-> i < v_n v /\ ~ In (Started i) (e_trace (v_est v)).
Proof.
  unfold unstarted. rewrite filter_In, in_seq, negb_true_iff. split.
  - intros [H1 H2]. split; [lia|]. intros Hin. apply starts_in in Hin. apply existsb_in in Hin. congruence.
  - intros [H1 H2]. split; [lia|]. destruct (existsb _ _) eqn:E; [|reflexivity]. apply existsb_in in E. apply starts_in in E. contradiction.
Qed.
Lemma unstarted_nodup v : NoDup (unstarted v).
Proof. apply NoDup_filter. apply seq_NoDup. Qed.
Lemma unstarted_kept v x : (forall i, In (Started i) (e_trace x) <-> In (Started i) (e_trace (v_est v))) ->
  Permutation (unstarted (set_est v x)) (unstarted v).
Proof.
  intros H. apply NoDup_Permutation; try apply unstarted_nodup. intros i. rewrite !unstarted_in. cbn. rewrite H. reflexivity.
Qed.

Lemma start_items v i x : eval_ok v -> step (v_n v) (v_deps v) (v_est v) (LStart i) = Some x ->
  Permutation (eval_items v) ([IP (v_body v i); IT] ++ eval_items (set_est v x)).
Proof.
  intros Hok H. destruct (eval_ok_inv v Hok) as [Hc _]. cbn in H.
  destruct (existsb (Nat.eqb i) (e_ready (v_est v))) eqn:Er; [|discriminate]. injection H as <-. apply existsb_in in Er.
  unfold eval_items. cbn [v_body v_est set_est e_doneq]. rewrite !app_assoc. apply Permutation_app_tail.
  assert (~ In (Started i) (e_trace (v_est v))) as Hn.
  { intros Hx. apply (v_started _ _ _ Hc) in Hx. pose proof (v_nodup _ _ _ Hc) as Hnd. unfold pool in Hnd.
    destruct (in_split _ _ Er) as (l1 & l2 & El). rewrite El in Hnd. rewrite <- app_assoc in Hnd. cbn in Hnd. apply NoDup_remove_2 in Hnd.
    apply Hnd. rewrite !in_app_iff in *. tauto. }
  assert (Permutation (unstarted v) (i :: unstarted (set_est v (E (e_running (v_est v)) (e_done (v_est v)) (e_out (v_est v)) (e_count (v_est v))
           (remove Nat.eq_dec i (e_ready (v_est v))) (i :: e_active (v_est v)) (e_doneq (v_est v)) (e_results (v_est v)) (e_status (v_est v))
           (Started i :: e_trace (v_est v)))))) as P.
  { apply NoDup_Permutation; [apply unstarted_nodup| |].
    - constructor; [|apply unstarted_nodup]. rewrite unstarted_in. cbn. tauto.
    - intros j. cbn [In]. rewrite !unstarted_in. cbn. split.
      + intros [H1 H2]. destruct (Nat.eq_dec i j) as [->|Hne]; [auto|]. right. split; [exact H1|]. intros [Hx|Hx]; [injection Hx; auto|auto].
      + intros [<-|[H1 H2]]; [|tauto]. split; [|exact Hn]. apply (v_bound _ _ _ Hc). unfold pool. apply in_app_iff. auto. }
  rewrite (Permutation_flat_map _ P). reflexivity.
Qed.
Lemma finish_items v i o x : step (v_n v) (v_deps v) (v_est v) (LFinish i o) = Some x ->
  Permutation (eval_items (set_est v x)) (IT :: eval_items v).
Proof.
  intros H. cbn in H. destruct (existsb (Nat.eqb i) (e_active (v_est v))); [|discriminate]. injection H as <-.
  match goal with |- context [set_est v ?y] => assert (Permutation (unstarted (set_est v y)) (unstarted v)) as P end.
  { apply unstarted_kept. cbn. intros j. split; [intros [Hx|Hx]; [discriminate|exact Hx]|auto]. }
  unfold eval_items. cbn [v_body v_est set_est e_doneq] in *. rewrite map_app. cbn [map].
  rewrite (Permutation_flat_map _ P), app_assoc, <- Permutation_cons_append. reflexivity.
Qed.
Lemma offers_kept deps l s : e_trace (fold_left (offer deps) l s) = e_trace s /\ e_doneq (fold_left (offer deps) l s) = e_doneq s.
Proof.
  revert s. induction l as [|i l IH]; intros s; cbn; [auto|]. destruct (IH (offer deps s i)) as [H1 H2]. rewrite H1, H2.
  unfold offer. destruct (can_run deps s i); auto.
Qed.
Lemma process_trace n deps s s' : step n deps s LProcess = Some s' -> exists i q, e_doneq s = i :: q /\ e_doneq s' = q /\ e_trace s' = Processed i :: e_trace s.
Proof.
  cbn. destruct (e_status s); try discriminate. destruct (e_doneq s) as [|i q]; [discriminate|]. intros H. injection H as <-. exists i, q.
  split; [reflexivity|]. unfold process.
  assert (forall s1, e_doneq (check n deps s1) = e_doneq s1 /\ e_trace (check n deps s1) = e_trace s1) as Hch
    by (intros s1; unfold check; destruct (e_count s1); auto).
  destruct (e_out s i) as [[x|x|x]|]; auto; rewrite (proj1 (Hch _)), (proj2 (Hch _)), (proj1 (offers_kept _ _ _)), (proj2 (offers_kept _ _ _)); auto.
Qed.
Lemma process_items v x : step (v_n v) (v_deps v) (v_est v) LProcess = Some x -> Permutation (eval_items v) (IT :: eval_items (set_est v x)).
Proof.
  intros H. destruct (process_trace _ _ _ _ H) as (i & q & E1 & E2 & E3).
  assert (Permutation (unstarted v) (unstarted (set_est v x))) as P.
  { symmetry. apply unstarted_kept. rewrite E3. cbn. intros j. split; [intros [Hx|Hx]; [discriminate|exact Hx]|auto]. }
  unfold eval_items. cbn [v_body v_est set_est]. rewrite E1, E2. cbn [map].
  rewrite (Permutation_flat_map _ P).
  symmetry. apply Permutation_middle.
Qed.
Lemma init_trace n deps : e_trace (init n deps) = [] /\ e_doneq (init n deps) = [].
Proof.
  unfold init. assert (forall s1, e_doneq (check n deps s1) = e_doneq s1 /\ e_trace (check n deps s1) = e_trace s1) as Hch
    by (intros s1; unfold check; destruct (e_count s1); auto).
  rewrite (proj1 (Hch _)), (proj2 (Hch _)), (proj1 (offers_kept _ _ _)), (proj2 (offers_kept _ _ _)). auto.
Qed.

(** Nothing shuts down the scheduler. *)
Definition no_shutdown (fr : frame) : Prop :=
  match f_mode fr with MCode (Shutdown _) | MShut _ _ _ _ => False | _ => True end.

Inductive quiet (t : nat) (h h' : list happening) : Prop :=
  | q_none : h' = h -> quiet t h h'
  | q_put : h' = HPut t :: h -> quiet t h h'.

Lemma perm_up {X} (a b : X) l l' : Permutation (a :: b :: l ++ l') (l ++ b :: a :: l').
Proof. rewrite <- (Permutation_middle l (a :: l') b), <- (Permutation_middle l l' a). apply perm_swap. Qed.
Lemma items_eval fr e k st : f_mode fr = MEval e k st -> frame_items fr = [IK k].
Proof. unfold frame_items. intros ->. reflexivity. Qed.
Lemma items_code fr p : f_mode fr = MCode p -> frame_items fr = [IP p].
Proof. unfold frame_items. intros ->. reflexivity. Qed.
Ltac quiet_pc s t th Ht := left; split; [apply q_none; reflexivity|];
  unfold go; match goal with |- Permutation (mu (Sys (setnth _ t ?th') ?q ?lk _ ?c ?h)) _ =>
    let rest := fresh "rest" in let P1 := fresh "P" in let P2 := fresh "P" in
    destruct (mu_one s t th th' q lk c h Ht) as (rest & P1 & P2); rewrite P1, P2; reflexivity end.
Lemma mu_step s t s' : gen s ->
  (forall th fr below, nth_error (s_threads s) t = Some th -> t_stack th = fr :: below -> no_shutdown fr) -> sys_step s t = Some s' ->
  (quiet t (s_events s) (s_events s') /\ Permutation (mu s') (mu s)) \/
  ((exists h, s_events s' = h :: s_events s) /\ smaller (mu s') (mu s)).
Proof.
  intros G Hns H. destruct (step_change _ _ _ H) as (th & Ht & C). pose proof (g_shape s G _ _ Ht) as Hsh.
  assert (forall s1 th' rest l l', Permutation (mu s) (thread_items th ++ rest) -> Permutation (mu s1) (thread_items th' ++ rest) ->
    thread_items th = l ++ l' -> forall l1, thread_items th' = l1 ++ l' -> (Permutation l1 l -> Permutation (mu s1) (mu s)) /\ (smaller l1 l -> smaller (mu s1) (mu s))) as Hpair.
  { intros s1 th' rest l l' P1 P2 E l1 E1. rewrite E in P1. rewrite E1 in P2. split.
    - intros P. rewrite P1, P2, P. reflexivity.
    - intros Hr. apply (smaller_perm_l _ _ _ (Permutation_sym P2)). apply (smaller_perm _ _ _ (Permutation_sym P1)).
      apply smaller_app, smaller_app. exact Hr. }
  destruct C as [Hp|q qs Hp Hq|Hp Hl|e i s' Hp Hl Hst|lv Hp|fr below fr' lk h Hp Hs Hm|fr below o Hp Hs Hm Hf|fr below fr' q Hp Hs Hm
    |fr below j js k Hp Hs Hm|fr below e k was q qs Hp Hs Hm Hq|fr below e k was e' i' s' Hp Hs Hm Hl Hst
    |fr below e i o s' Hp Hs Hm Hf Hst|fr below n deps body k Hp Hs Hm|fr below e k st s' Hp Hs Hm Hst0 Hst].
  - quiet_pc s t th Ht.
  - quiet_pc s t th Ht.
  - quiet_pc s t th Ht.
  - destruct (start_inv' _ _ _ _ _ _ _ Hst) as (v & evs & Hv & Hev & ->). cbn in *.
    destruct (eval_step_inv _ _ _ _ Hev) as (v' & x & Hv' & Hx & ->). assert (v' = v) as -> by congruence.
    right. split; [eexists; reflexivity|].
    match goal with |- smaller (mu (Sys (setnth _ t ?th') ?q ?lk _ ?c ?h)) _ => destruct (mu_two s t th th' e v x q lk c h Ht Hv) as (rest & P1 & P2) end.
    unfold thread_shape in Hsh. rewrite Hp in Hsh. destruct Hsh as [Hs Hw].
    apply (smaller_perm_l _ _ _ (Permutation_sym P2)). apply (smaller_perm _ _ _ (Permutation_sym P1)). apply smaller_app.
    unfold thread_items. rewrite Hs. cbn.
    apply (smaller_perm _ ([IT] ++ IP (v_body v i) :: eval_items (set_est v x))).
    + rewrite (start_items v i x (g_evals s G _ _ Hv) Hx). cbn. apply perm_swap.
    + apply (smaller_one IT []). contradiction.
  - quiet_pc s t th Ht.
  - assert (no_shutdown fr) as Hn by (exact (Hns _ _ _ Ht Hs)).
    destruct (mu_one s t th (with_stack th (fr' :: below)) (s_queue s) lk (s_clock s) (h ++ s_events s) Ht) as (rest & P1 & P2).
    assert (thread_items th = frame_items fr ++ flat_map frame_items below) as E by (unfold thread_items; rewrite Hs; reflexivity).
    destruct (Hpair _ _ _ _ _ P1 P2 E (frame_items fr') eq_refl) as [Q1 Q2]. unfold go.
    unfold no_shutdown in Hn. unfold frame_items in *.
    destruct Hm; rewrite H0 in *; try contradiction;
      first [left; split; [apply q_none; reflexivity|apply Q1; reflexivity]
            |right; split; [eexists; reflexivity|apply Q2; cbn; apply smaller_red, red_one; intros b [<-|[]]; constructor]].
  - right. split; [eexists; reflexivity|].
    destruct (mu_one s t th (Th (t_worker th) (t_finished th) PExit []) (s_queue s) (s_lock s) (s_clock s) ([HCode t] ++ s_events s) Ht) as (rest & P1 & P2).
    destruct (shape_stack th fr below Hsh Hp Hs) as (A1 & A2 & A3).
    assert (below = []) as -> by (destruct (t_worker th); [destruct A3 as [A3 _]; exfalso; apply (A3 fr); [left; reflexivity|exact Hf]|exact (proj1 A3)]).
    assert (thread_items th = [IP (Done o)] ++ []) as E by (unfold thread_items; rewrite Hs; cbn; unfold frame_items; rewrite Hm; reflexivity).
    destruct (Hpair _ _ _ _ _ P1 P2 E [] eq_refl) as [_ Q2]. apply Q2. apply smaller_red, red_one. contradiction.
  - assert (no_shutdown fr) as Hn by (exact (Hns _ _ _ Ht Hs)).
    left. split; [apply q_put; reflexivity|].
    destruct (mu_one s t th (with_stack th (fr' :: below)) (q :: s_queue s) (s_lock s) (s_clock s) (HPut t :: s_events s) Ht) as (rest & P1 & P2).
    rewrite P1, P2. unfold thread_items. rewrite Hs. cbn. unfold frame_items, no_shutdown in *. destruct Hm; rewrite H0 in *; [reflexivity|contradiction].
  - exfalso. assert (no_shutdown fr) as Hn by (exact (Hns _ _ _ Ht Hs)).
    unfold no_shutdown in Hn. rewrite Hm in Hn. exact Hn.
  - left. split; [apply q_none; reflexivity|].
    match goal with |- Permutation (mu (Sys (setnth _ t ?th') ?q ?lk _ ?c ?h)) _ => destruct (mu_one s t th th' q lk c h Ht) as (rest & P1 & P2) end.
    rewrite P1, P2. unfold thread_items. rewrite Hs. cbn. rewrite (items_eval fr _ _ _ Hm). reflexivity.
  - destruct (start_inv' _ _ _ _ _ _ _ Hst) as (v & evs & Hv & Hev & ->). cbn in *.
    destruct (eval_step_inv _ _ _ _ Hev) as (v' & x & Hv' & Hx & ->). assert (v' = v) as -> by congruence.
    right. split; [eexists; reflexivity|].
    match goal with |- smaller (mu (Sys (setnth _ t ?th') ?q ?lk _ ?c ?h)) _ => destruct (mu_two s t th th' e' v x q lk c h Ht Hv) as (rest & P1 & P2) end.
    apply (smaller_perm_l _ _ _ (Permutation_sym P2)). apply (smaller_perm _ _ _ (Permutation_sym P1)). apply smaller_app.
    unfold thread_items. rewrite Hs. cbn. rewrite (items_eval fr _ _ _ Hm). cbn.
    apply (smaller_perm _ ([IT] ++ (IP (v_body v i') :: IK k :: flat_map frame_items below ++ eval_items (set_est v x)))).
    + rewrite (start_items v i' x (g_evals s G _ _ Hv) Hx). cbn.
      exact (perm_up IT (IP (v_body v i')) (IK k :: flat_map frame_items below) _).
    + apply (smaller_one IT []). contradiction.
  - destruct (finish_inv' _ _ _ _ _ _ _ _ Hst) as (evs & Hev & ->).
    destruct (eval_step_inv _ _ _ _ Hev) as (v & x & Hv & Hx & ->).
    right. split; [eexists; reflexivity|].
    match goal with |- smaller (mu (Sys (setnth _ t ?th') ?q ?lk _ ?c ?h)) _ => destruct (mu_two s t th th' e v x q lk c h Ht Hv) as (rest & P1 & P2) end.
    destruct (shape_stack th fr below Hsh Hp Hs) as (A1 & A2 & A3).
    apply (smaller_perm_l _ _ _ (Permutation_sym P2)). apply (smaller_perm _ _ _ (Permutation_sym P1)). apply smaller_app.
    apply (smaller_perm_l _ (IT :: thread_items (resume th below o) ++ eval_items v));
      [rewrite (finish_items v i o x Hx); apply Permutation_middle|].
    assert (thread_items th = IP (Done o) :: flat_map frame_items below) as -> by (unfold thread_items; rewrite Hs; cbn; unfold frame_items at 1; rewrite Hm; reflexivity).
    rewrite !app_comm_cons. apply smaller_app. unfold resume. destruct below as [|f below'].
    + apply (smaller_one (IP (Done o)) [IT] []). intros b [<-|[]]. constructor.
    + destruct (A1 f (or_introl eq_refl)) as (e1 & k1 & E1). rewrite E1. unfold thread_items. cbn. rewrite (items_eval f _ _ _ E1). cbn.
      assert (smaller (IT :: IK k1 :: flat_map frame_items below') (IP (Done o) :: IK k1 :: flat_map frame_items below')) as Hone.
      { apply (smaller_one (IP (Done o)) [IT]). intros b [<-|[]]. constructor. }
      destruct o as [o|o|x0]; [exact Hone|exact Hone|]. cbn. eapply smaller_trans; [|exact Hone].
      apply (smaller_perm_l _ (IP (k1 (AFatal x0)) :: IT :: flat_map frame_items below')); [apply perm_swap|].
      apply (smaller_perm _ (IK k1 :: IT :: flat_map frame_items below')); [apply perm_swap|].
      apply (smaller_one (IK k1) [IP (k1 (AFatal x0))]). intros b [<-|[]]. constructor.
  - right. split; [eexists; reflexivity|]. unfold spawn, mu. cbn.
    destruct (swap thread_items _ _ _ (with_stack th (in_mode fr (MEval (length (s_evals s)) k (SPut (e_ready (init n deps)))) :: below)) Ht) as (rest & P1 & P2).
    rewrite flat_map_app. cbn [flat_map]. rewrite app_nil_r.
    set (new := eval_items (Ev n deps body (init n deps))).
    apply (smaller_perm_l _ ((IK k :: new) ++ (flat_map frame_items below ++ rest ++ flat_map eval_items (s_evals s)))).
    { rewrite P2. unfold thread_items at 1. cbn. apply perm_skip.
      etransitivity; [apply Permutation_app_comm|]. rewrite <- !app_assoc. reflexivity. }
    apply (smaller_perm _ (IP (Spawn n deps body k) :: flat_map frame_items below ++ rest ++ flat_map eval_items (s_evals s))).
    { rewrite P1. unfold thread_items. rewrite Hs. cbn. rewrite (items_code fr _ Hm). cbn. rewrite <- app_assoc. reflexivity. }
    apply smaller_one. intros b [<-|Hb]; [constructor|]. unfold new, eval_items in Hb. cbn [v_est] in Hb. rewrite (proj2 (init_trace n deps)) in Hb.
    cbn in Hb. rewrite app_nil_r in Hb. apply in_flat_map in Hb. destruct Hb as (j & _ & [<-|[<-|[]]]); constructor.
  - destruct (process_inv' _ _ _ _ _ _ _ _ Hst) as (evs & Hev & ->).
    destruct (eval_step_inv _ _ _ _ Hev) as (v & x & Hv & Hx & ->).
    right. split; [eexists; reflexivity|].
    match goal with |- smaller (mu (Sys (setnth _ t ?th') ?q ?lk _ ?c ?h)) _ => destruct (mu_two s t th th' e v x q lk c h Ht Hv) as (rest & P1 & P2) end.
    apply (smaller_perm_l _ _ _ (Permutation_sym P2)). apply (smaller_perm _ _ _ (Permutation_sym P1)). apply smaller_app.
    unfold thread_items. rewrite Hs. cbn. rewrite (items_eval fr _ _ _ Hm). cbn.
    apply (smaller_perm _ (IT :: IK k :: flat_map frame_items below ++ eval_items (set_est v x))).
    + rewrite (process_items v x Hx). rewrite <- Permutation_middle. apply perm_swap.
    + apply (smaller_one IT []). contradiction.
Qed.
