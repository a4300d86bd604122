(** Facts about one evaluation of the scheduler. *)
From Coq Require Import List Bool Arith Lia Permutation.
From Verif Require Import SchedModel.
Import ListNotations.

Lemma upd_same {X} (f : nat -> X) k x : upd f k x k = x.
Proof. unfold upd. rewrite Nat.eqb_refl. reflexivity. Qed.
Lemma upd_other {X} (f : nat -> X) k x j : j <> k -> upd f k x j = f j.
Proof. intros H. unfold upd. destruct (Nat.eqb_spec j k); [contradiction|reflexivity]. Qed.
Lemma upd_cases {X} (f : nat -> X) k x j : j = k /\ upd f k x j = x \/ j <> k /\ upd f k x j = f j.
Proof.
  destruct (Nat.eq_dec j k) as [->|H]; [left; split; [reflexivity|apply upd_same]|right; split; [exact H|apply upd_other; exact H]].
Qed.
Lemma existsb_in i l : existsb (Nat.eqb i) l = true <-> In i l.
Proof.
  rewrite existsb_exists. split.
  - intros (j & H & E). apply Nat.eqb_eq in E. subst. exact H.
  - intros H. exists i. split; [exact H|apply Nat.eqb_refl].
Qed.

Lemma NoDup_app_remove_l {X} (l l' : list X) : NoDup (l ++ l') -> NoDup l'.
Proof. induction l as [|x l IH]; cbn; [auto|]. intros H. inversion H; auto. Qed.
Lemma NoDup_app_remove_r {X} (l l' : list X) : NoDup (l ++ l') -> NoDup l.
Proof.
  induction l as [|x l IH]; cbn; [constructor|]. intros H. inversion H; subst. constructor; [|auto].
  intros Hx. apply H2. apply in_app_iff. auto.
Qed.

(** What has been processed and what has been started, in order. *)
Fixpoint processed (tr : list event) : list task :=
  match tr with
  | [] => []
  | Processed i :: tr' => processed tr' ++ [i]
  | _ :: tr' => processed tr'
  end.
Fixpoint starts (tr : list event) : list task :=
  match tr with
  | [] => []
  | Started i :: tr' => starts tr' ++ [i]
  | _ :: tr' => starts tr'
  end.
Lemma starts_in tr i : In i (starts tr) <-> In (Started i) tr.
Proof.
  induction tr as [|e tr IH]; cbn; [tauto|]. destruct e; rewrite ?in_app_iff, IH; cbn.
  - split; [intros [H|[->|[]]]; auto|intros [H|H]; [injection H as ->; auto|auto]].
  - split; [auto|intros [H|H]; [discriminate|exact H]].
  - split; [auto|intros [H|H]; [discriminate|exact H]].
Qed.
Definition ok (o : outcome) : Prop := forall e, o <> OExc e.

Section Facts.
  Context (n : nat) (deps : task -> list task).
  Notation offer := (offer deps).
  Notation process := (process n deps).
  Notation check := (check n deps).
  Notation children := (children n deps).
  Notation step := (step n deps).
  Notation runs := (runs n deps).
  Notation init := (init n deps).
  Notation can_run := (can_run deps).

  Definition pool (s : est) : list task := e_ready s ++ e_active s ++ e_doneq s ++ processed (e_trace s).

  Local Arguments pool : simpl never.

  Record core (s : est) : Prop := Core {
    v_nodup : NoDup (pool s);
    v_bound : forall i, In i (pool s) -> i < n;
    v_running : forall i, e_running s i = true <-> In i (pool s);
    v_out : forall i o, e_out s i = Some o <-> In (Finished i o) (e_trace s);
    v_fin : forall i, e_out s i <> None <-> In i (e_doneq s ++ processed (e_trace s));
    v_started : forall i, In (Started i) (e_trace s) <-> In i (e_active s ++ e_doneq s ++ processed (e_trace s));
    v_starts : NoDup (starts (e_trace s));
    v_deps : forall i d, In i (pool s) -> In d (deps i) ->
      In d (processed (e_trace s)) /\ exists o, e_out s d = Some o /\ ok o;
    v_before : forall tr1 i tr2, e_trace s = tr1 ++ Started i :: tr2 -> forall d, In d (deps i) ->
      exists o, In (Finished d o) tr2 /\ ok o;
    v_order : forall l1 i l2, processed (e_trace s) = l1 ++ i :: l2 -> forall d, In d (deps i) -> In d l1
  }.
  (** While running (before the check for the end). *)
  Record busy (s : est) : Prop := Busy {
    b_status : e_status s = Running;
    b_count : e_count s = length (e_ready s) + length (e_active s) + length (e_doneq s);
    b_done : forall i, e_done s i = true <-> In i (e_results s);
    b_results : e_results s = processed (e_trace s);
    b_ok : forall i, In i (e_results s) -> exists o, e_out s i = Some o /\ ok o
  }.
  Definition stuck (s : est) (l : list task) : Prop :=
    forall i, i < n -> e_running s i = false -> (exists d, In d (deps i) /\ e_done s d = false) \/ In i l.

  Lemma forallb_false {X} (f : X -> bool) l : forallb f l = false -> exists x, In x l /\ f x = false.
  Proof.
    induction l as [|x l IH]; cbn; [discriminate|]. destruct (f x) eqn:Ef; cbn.
    - intros H. destruct (IH H) as (y & H1 & H2). eauto.
    - intros _. eauto.
  Qed.

  Lemma can_run_true s i : can_run s i = true <->
    e_running s i = false /\ e_done s i = false /\ forall d, In d (deps i) -> e_done s d = true.
  Proof.
    unfold SchedModel.can_run. rewrite andb_true_iff, negb_true_iff, orb_false_iff, forallb_forall. tauto.
  Qed.

  Lemma offer_core s i : core s -> busy s -> i < n -> core (offer s i) /\ busy (offer s i).
  Proof.
    intros Hc Hb Hi. unfold SchedModel.offer. destruct (can_run s i) eqn:E; [|auto].
    apply can_run_true in E. destruct E as (E1 & E2 & E3).
    pose proof Hc as [C1 C2 C3 C4 C5 C6 C7 C8 C9 C10]. pose proof Hb as [B1 B2 B3 B4 B5].
    assert (~ In i (pool s)) as Hn by (rewrite <- C3; congruence).
    set (s' := E _ _ _ _ _ _ _ _ _ _).
    assert (Permutation (pool s') (i :: pool s)) as Hperm.
    { unfold pool. cbn. rewrite <- app_assoc. cbn. apply Permutation_sym, Permutation_middle. }
    assert (forall j, In j (pool s') <-> j = i \/ In j (pool s)) as Hin.
    { intros j. split; intros H.
      - apply (Permutation_in _ Hperm) in H. destruct H; auto.
      - apply (Permutation_in _ (Permutation_sym Hperm)). destruct H; [left; auto|right; auto]. }
    split; [split|split]; cbn; auto.
    - apply (Permutation_NoDup (Permutation_sym Hperm)). constructor; assumption.
    - intros j H. apply Hin in H. destruct H as [->|H]; auto.
    - intros j. rewrite Hin. destruct (upd_cases (e_running s) i true j) as [[-> Ej]|[Hne Ej]]; rewrite Ej; [tauto|].
      rewrite C3. split; [auto|intros [?|?]; [contradiction|assumption]].
    - intros j d H Hd. apply Hin in H. destruct H as [->|H]; [|apply (C8 j); assumption].
      specialize (E3 d Hd). apply B3 in E3. split; [rewrite <- B4; exact E3|apply B5; exact E3].
    - rewrite app_length. cbn. lia.
  Qed.

  Lemma offer_stuck s i l : core s -> busy s -> stuck s (i :: l) -> stuck (offer s i) l.
  Proof.
    intros Hcore Hb Hs j Hj Hr.
    assert (e_running s j = false /\ e_done (offer s i) = e_done s) as [Hr' Hd].
    { unfold SchedModel.offer in *. destruct (can_run s i); [|auto]. cbn in *. split; [|reflexivity].
      destruct (upd_cases (e_running s) i true j) as [[-> Ej]|[_ Ej]]; rewrite Ej in Hr; [discriminate|exact Hr]. }
    rewrite Hd. destruct (Hs j Hj Hr') as [H|[->|H]]; [left; exact H| |right; exact H].
    left. unfold SchedModel.offer in Hr. destruct (can_run s j) eqn:Ec; [cbn in Hr; rewrite upd_same in Hr; discriminate|].
    unfold SchedModel.can_run in Ec. rewrite Hr' in Ec. cbn in Ec.
    destruct (e_done s j) eqn:Ed.
    - (* a done task is running *)
      exfalso. pose proof Hb as [B1 B2 B3 B4 B5]. apply B3 in Ed. rewrite B4 in Ed.
      assert (In j (pool s)) as Hp by (unfold pool; rewrite !in_app_iff; auto).
      apply (v_running _ Hcore) in Hp. congruence.
    - cbn in Ec. apply forallb_false in Ec. exact Ec.
  Qed.

  Lemma offers s l : core s -> busy s -> stuck s l -> (forall i, In i l -> i < n) ->
    core (fold_left offer l s) /\ busy (fold_left offer l s) /\ stuck (fold_left offer l s) [].
  Proof.
    revert s. induction l as [|i l IH]; intros s Hc Hb Hs Hl; [auto|]. cbn.
    destruct (offer_core s i Hc Hb (Hl i (or_introl eq_refl))) as [Hc' Hb'].
    apply IH; [exact Hc'|exact Hb'|apply offer_stuck; assumption|intros j Hj; apply Hl; right; exact Hj].
  Qed.
  Lemma offer_trace s i : e_trace (offer s i) = e_trace s.
  Proof. unfold SchedModel.offer. destruct (can_run s i); reflexivity. Qed.
  Lemma offers_trace l s : e_trace (fold_left offer l s) = e_trace s.
  Proof. revert s. induction l as [|i l IH]; intros s; cbn; [reflexivity|]. rewrite IH. apply offer_trace. Qed.

  (** The invariant. *)
  Record inv (s : est) : Prop := Inv {
    n_core : core s;
    n_status : match e_status s with
      | Running => busy s /\ e_count s <> 0 /\ stuck s []
      | Returned rs => rs = processed (e_trace s) /\ e_ready s = [] /\ e_active s = [] /\ e_doneq s = [] /\ length rs = n /\
          (forall i, In i rs -> exists o, e_out s i = Some o /\ ok o)
      | LoopError p => e_ready s = [] /\ e_active s = [] /\ e_doneq s = [] /\ length (processed (e_trace s)) <> n /\
          (forall i, In i (processed (e_trace s)) -> exists o, e_out s i = Some o /\ ok o) /\
          (forall i, i < n -> ~ In i (processed (e_trace s)) -> exists d, In d (deps i) /\ ~ In d (processed (e_trace s))) /\
          (forall t d, In (t, d) p <-> t < n /\ ~ In t (processed (e_trace s)) /\ In d (children t) /\ In d (deps t))
      | Raised e => exists i rs, processed (e_trace s) = rs ++ [i] /\ e_out s i = Some (OExc e) /\
          (forall j, In j rs -> exists o, e_out s j = Some o /\ ok o)
      end
  }.

  Lemma children_in i t : In t (children i) <-> t < n /\ In i (deps t).
  Proof.
    unfold SchedModel.children. rewrite in_flat_map. split.
    - intros (u & H1 & H2). apply in_map_iff in H2. destruct H2 as (v & <- & H2). apply filter_In in H2.
      destruct H2 as [H2 H3]. apply Nat.eqb_eq in H3. subst v. apply in_seq in H1. split; [lia|exact H2].
    - intros [H1 H2]. exists t. split; [apply in_seq; lia|]. apply in_map_iff. exists i. split; [reflexivity|].
      apply filter_In. split; [exact H2|apply Nat.eqb_refl].
  Qed.

  Lemma core_status s c st : core s ->
    core (E (e_running s) (e_done s) (e_out s) c (e_ready s) (e_active s) (e_doneq s) (e_results s) st (e_trace s)).
  Proof. intros [C1 C2 C3 C4 C5 C6 C7 C8 C9 C10]. split; auto. Qed.

  Lemma check_inv s : core s -> busy s -> stuck s [] -> inv (check s).
  Proof.
    intros Hc Hb Hs. pose proof Hb as [B1 B2 B3 B4 B5]. unfold SchedModel.check. destruct (e_count s) eqn:Ec.
    - assert (e_ready s = [] /\ e_active s = [] /\ e_doneq s = []) as (E1 & E2 & E3).
      { destruct (e_ready s), (e_active s), (e_doneq s); cbn in B2; try lia. auto. }
      split; [apply core_status; exact Hc|]. cbn [e_status].
      destruct (Nat.eqb_spec (length (e_results s)) n) as [El|El]; cbn.
      + repeat split; auto.
      + rewrite B4 in *. repeat split; auto.
        * intros i Hi Hn. assert (e_running s i = false) as Hr.
          { destruct (e_running s i) eqn:Er; [|reflexivity]. apply (v_running _ Hc) in Er. unfold pool in Er.
            rewrite E1, E2, E3 in Er. contradiction. }
          destruct (Hs i Hi Hr) as [(d & Hd & Hd')|[]]. exists d. split; [exact Hd|]. rewrite <- B3. congruence.
        * unfold loop_pairs in H. apply in_flat_map in H. destruct H as (u & Hu & H). destruct (e_done s u) eqn:Ed; [contradiction|].
          apply in_map_iff in H. destruct H as (v & Hv & _). injection Hv as <- <-. apply in_seq in Hu. lia.
        * unfold loop_pairs in H. apply in_flat_map in H. destruct H as (u & Hu & H). destruct (e_done s u) eqn:Ed; [contradiction|].
          apply in_map_iff in H. destruct H as (v & Hv & _). injection Hv as <- <-. rewrite <- B3. congruence.
        * unfold loop_pairs in H. apply in_flat_map in H. destruct H as (u & Hu & H). destruct (e_done s u) eqn:Ed; [contradiction|].
          apply in_map_iff in H. destruct H as (v & Hv & H). injection Hv as <- <-. apply filter_In in H. apply H.
        * unfold loop_pairs in H. apply in_flat_map in H. destruct H as (u & Hu & H). destruct (e_done s u) eqn:Ed; [contradiction|].
          apply in_map_iff in H. destruct H as (v & Hv & H). injection Hv as <- <-. apply filter_In in H.
          destruct H as [_ H]. apply andb_true_iff in H. apply existsb_in. apply H.
        * intros (Ht & Hn & Hd & Hdt). unfold loop_pairs. apply in_flat_map. exists t. split; [apply in_seq; lia|].
          destruct (e_done s t) eqn:Ed; [apply B3 in Ed; contradiction|].
          apply in_map_iff. exists d. split; [reflexivity|]. apply filter_In. split; [exact Hd|].
          apply andb_true_iff. rewrite !existsb_in. split; [|exact Hdt]. apply children_in in Hd. apply Hd.
    - split; [exact Hc|]. rewrite B1. rewrite Ec. split; [exact Hb|]. split; [discriminate|exact Hs].
  Qed.

  Lemma start_core : core start_state.
  Proof.
    split.
    - constructor.
    - intros i [].
    - intros i. split; [discriminate|intros []].
    - intros i o. split; [discriminate|intros []].
    - intros i. split; [intros H; destruct H; reflexivity|intros []].
    - intros i. split; intros [].
    - constructor.
    - intros i d [].
    - intros [|e tr1] i tr2 H; discriminate.
    - intros [|e tr1] i tr2 H; discriminate.
  Qed.
  Lemma start_busy : busy start_state.
  Proof. split; cbn; auto; try (intros i; split; [discriminate|intros []]). intros i []. Qed.

  Lemma init_inv : inv init.
  Proof.
    unfold SchedModel.init. destruct (offers start_state (seq 0 n) start_core start_busy) as (Hc & Hb & Hs).
    - intros i Hi _. right. apply in_seq. lia.
    - intros i Hi. apply in_seq in Hi. lia.
    - apply check_inv; assumption.
  Qed.

  Lemma remove_split i (l : list nat) : NoDup l -> In i l -> Permutation l (i :: remove Nat.eq_dec i l).
  Proof.
    induction l as [|j l IH]; intros Hn Hi; [contradiction|]. inversion Hn; subst. cbn.
    destruct (Nat.eq_dec i j) as [->|Hne].
    - rewrite notin_remove by assumption. reflexivity.
    - destruct Hi as [->|Hi]; [contradiction|]. rewrite (IH H2 Hi) at 1. apply perm_swap.
  Qed.

  (** Starting a task. *)
  Lemma start_inv s i s' : inv s -> step s (LStart i) = Some s' -> inv s'.
  Proof.
    intros [Hc Hst] H. cbn in H. destruct (existsb (Nat.eqb i) (e_ready s)) eqn:Ei; [|discriminate].
    apply existsb_in in Ei. injection H as <-. set (s' := E _ _ _ _ _ _ _ _ _ _).
    pose proof Hc as [C1 C2 C3 C4 C5 C6 C7 C8 C9 C10].
    assert (NoDup (e_ready s)) as Hnr by (unfold pool in C1; apply NoDup_app_remove_r in C1; exact C1).
    assert (Permutation (pool s') (pool s)) as Hperm.
    { unfold pool. cbn. rewrite (remove_split i (e_ready s) Hnr Ei) at 2. cbn.
      apply Permutation_sym, Permutation_middle. }
    assert (forall j, In j (pool s') <-> In j (pool s)) as Hin.
    { intros j. split; apply Permutation_in; [exact Hperm|apply Permutation_sym; exact Hperm]. }
    assert (~ In i (e_active s ++ e_doneq s ++ processed (e_trace s))) as Hni.
    { intros Hi. unfold pool in C1. apply in_split in Ei. destruct Ei as (l1 & l2 & E). rewrite E in C1.
      rewrite <- app_assoc in C1. cbn in C1. apply NoDup_remove_2 in C1. apply C1. rewrite !in_app_iff in *. tauto. }
    assert (core s') as Hc'.
    { split; cbn.
      - apply (Permutation_NoDup (Permutation_sym Hperm)). exact C1.
      - intros j Hj. apply C2, Hin, Hj.
      - intros j. rewrite C3. symmetry. apply Hin.
      - intros j o. rewrite C4. split; [auto|intros [H|H]; [discriminate|exact H]].
      - exact C5.
      - intros j. rewrite C6. split; [intros [H|H]; [injection H as ->; auto|auto]|intros [->|H]; auto].
      - assert (~ In i (starts (e_trace s))) as Hn by (rewrite starts_in, C6; exact Hni).
        rewrite <- (rev_involutive (starts (e_trace s) ++ [i])). apply NoDup_rev. rewrite rev_app_distr. cbn.
        constructor; [rewrite <- in_rev; exact Hn|apply NoDup_rev; exact C7].
      - intros j d Hj Hd. apply Hin in Hj. exact (C8 j d Hj Hd).
      - intros [|e tr1] j tr2 H d Hd; cbn in H.
        + injection H as <- <-. assert (In i (pool s)) as Hp by (unfold pool; apply in_app_iff; auto).
          destruct (C8 i d Hp Hd) as (_ & o & Ho & Hok). exists o. split; [apply C4; exact Ho|exact Hok].
        + injection H as _ H. exact (C9 _ _ _ H d Hd).
      - exact C10. }
    split; [exact Hc'|]. cbn [e_status]. destruct (e_status s).
    - destruct Hst as ([B1 B2 B3 B4 B5] & Hn & Hs). split; [split; cbn; auto|split; [exact Hn|exact Hs]].
      rewrite B2. pose proof (Permutation_length (remove_split i (e_ready s) Hnr Ei)) as Hl. cbn in Hl. lia.
    - destruct Hst as (_ & E1 & _). rewrite E1 in Ei. contradiction.
    - exact Hst.
    - destruct Hst as (E1 & _). rewrite E1 in Ei. contradiction.
  Qed.

  (** Finishing one. *)
  Lemma finish_inv s i o s' : inv s -> step s (LFinish i o) = Some s' -> inv s'.
  Proof.
    intros [Hc Hst] H. cbn in H. destruct (existsb (Nat.eqb i) (e_active s)) eqn:Ei; [|discriminate].
    apply existsb_in in Ei. injection H as <-. set (s' := E _ _ _ _ _ _ _ _ _ _).
    pose proof Hc as [C1 C2 C3 C4 C5 C6 C7 C8 C9 C10].
    assert (NoDup (e_active s)) as Hnr.
    { unfold pool in C1. apply NoDup_app_remove_l in C1. apply NoDup_app_remove_r in C1. exact C1. }
    assert (Permutation (e_active s ++ e_doneq s ++ processed (e_trace s))
              (remove Nat.eq_dec i (e_active s) ++ (e_doneq s ++ [i]) ++ processed (e_trace s))) as Hperm1.
    { rewrite (remove_split i (e_active s) Hnr Ei) at 1. cbn. rewrite <- app_assoc. cbn.
      etransitivity; [apply Permutation_middle|]. apply Permutation_app_head.
      apply Permutation_middle. }
    assert (Permutation (pool s') (pool s)) as Hperm.
    { unfold pool. cbn. apply Permutation_app_head. apply Permutation_sym. exact Hperm1. }
    assert (forall j, In j (pool s') <-> In j (pool s)) as Hin.
    { intros j. split; apply Permutation_in; [exact Hperm|apply Permutation_sym; exact Hperm]. }
    assert (~ In i (e_doneq s ++ processed (e_trace s))) as Hni.
    { intros Hi. unfold pool in C1. apply in_split in Ei. destruct Ei as (l1 & l2 & E). rewrite E in C1.
      apply NoDup_app_remove_l in C1.
      rewrite <- app_assoc in C1. cbn in C1. apply NoDup_remove_2 in C1. apply C1. rewrite !in_app_iff in *. tauto. }
    assert (e_out s i = None) as Hout.
    { destruct (e_out s i) eqn:Eo; [|reflexivity]. destruct Hni. apply C5. congruence. }
    assert (forall j, e_out s j <> None -> upd (e_out s) i (Some o) j = e_out s j) as Hkeep.
    { intros j Hj. apply upd_other. intros ->. contradiction. }
    assert (forall j, (exists o', e_out s j = Some o' /\ ok o') -> exists o', upd (e_out s) i (Some o) j = Some o' /\ ok o') as Hkeep2.
    { intros j (o' & H1 & H2). exists o'. rewrite Hkeep by congruence. auto. }
    assert (core s') as Hc'.
    { split; cbn.
      - apply (Permutation_NoDup (Permutation_sym Hperm)). exact C1.
      - intros j Hj. apply C2, Hin, Hj.
      - intros j. rewrite C3. symmetry. apply Hin.
      - intros j o'. destruct (upd_cases (e_out s) i (Some o) j) as [[-> Ej]|[Hne Ej]]; rewrite Ej.
        + split; [intros H; injection H as <-; auto|]. intros [H|H]; [injection H as ->; reflexivity|].
          apply C4 in H. congruence.
        + rewrite C4. split; [auto|intros [H|H]; [congruence|exact H]].
      - intros j. destruct (upd_cases (e_out s) i (Some o) j) as [[-> Ej]|[Hne Ej]]; rewrite Ej.
        + split; [intros _|discriminate]. rewrite !in_app_iff. cbn. auto.
        + rewrite C5, !in_app_iff. cbn. split; [tauto|intros [[H|[H|[]]]|H]; [auto|congruence|auto]].
      - intros j. split.
        + intros [H|H]; [discriminate|]. apply C6 in H. exact (Permutation_in _ Hperm1 H).
        + intros H. right. apply C6. exact (Permutation_in _ (Permutation_sym Hperm1) H).
      - exact C7.
      - intros j d Hj Hd. apply Hin in Hj. destruct (C8 j d Hj Hd) as [H1 H2]. split; [exact H1|]. apply Hkeep2. exact H2.
      - intros [|e tr1] j tr2 H d Hd; cbn in H; [discriminate|]. injection H as _ H. exact (C9 _ _ _ H d Hd).
      - exact C10. }
    split; [exact Hc'|]. cbn [e_status]. destruct (e_status s).
    - destruct Hst as ([B1 B2 B3 B4 B5] & Hn & Hs). split; [split; cbn; auto|split; [exact Hn|exact Hs]].
      rewrite B2, app_length. pose proof (Permutation_length (remove_split i (e_active s) Hnr Ei)) as Hl. cbn in Hl |- *. lia.
    - destruct Hst as (_ & _ & E1 & _). rewrite E1 in Ei. contradiction.
    - destruct Hst as (j & rs & E1 & E2 & E3). exists j, rs. split; [exact E1|]. split.
      + cbn. rewrite Hkeep by congruence. exact E2.
      + intros k Hk. apply Hkeep2. exact (E3 k Hk).
    - destruct Hst as (_ & E1 & _). rewrite E1 in Ei. contradiction.
  Qed.

  (** Processing one. *)
  Lemma process_inv s s' : inv s -> step s LProcess = Some s' -> inv s'.
  Proof.
    intros [Hc Hst] H. cbn in H. destruct (e_status s) eqn:Es; try discriminate.
    destruct (e_doneq s) as [|i q] eqn:Eq; [discriminate|]. injection H as <-.
    destruct Hst as (Hb & Hn & Hs).
    pose proof Hc as [C1 C2 C3 C4 C5 C6 C7 C8 C9 C10]. pose proof Hb as [B1 B2 B3 B4 B5].
    unfold pool in *. rewrite Eq in *.
    assert (Permutation (e_ready s ++ e_active s ++ (i :: q) ++ processed (e_trace s))
                        (e_ready s ++ e_active s ++ q ++ processed (e_trace s) ++ [i])) as Hperm.
    { do 2 apply Permutation_app_head. cbn. rewrite app_assoc.
      apply Permutation_cons_append. }
    assert (forall j, In j ((i :: q) ++ processed (e_trace s)) <-> In j (q ++ processed (e_trace s) ++ [i])) as Hin1.
    { intros j. rewrite !in_app_iff. cbn. tauto. }
    assert (i < n) as Hi by (apply C2; rewrite !in_app_iff; cbn; auto).
    assert (forall rn dn ct rs st, rn = e_running s ->
      core (E rn dn (e_out s) ct (e_ready s) (e_active s) q rs st (Processed i :: e_trace s))) as Hcore.
    { intros rn dn ct rs st ->. split; unfold pool; cbn.
      - apply (Permutation_NoDup Hperm). exact C1.
      - intros j Hj. apply C2. apply (Permutation_in _ (Permutation_sym Hperm)). exact Hj.
      - intros j. rewrite C3. split; apply Permutation_in; [exact Hperm|apply Permutation_sym; exact Hperm].
      - intros j o. rewrite C4. split; [auto|intros [H|H]; [discriminate|exact H]].
      - intros j. rewrite C5. apply Hin1.
      - intros j. split.
        + intros [H|H]; [discriminate|]. apply C6 in H. rewrite !in_app_iff in *. cbn in H |- *. tauto.
        + intros H. right. apply C6. rewrite !in_app_iff in *. cbn in H |- *. tauto.
      - exact C7.
      - intros j d Hj Hd. destruct (C8 j d) as [H1 H2].
        + apply (Permutation_in _ (Permutation_sym Hperm)). exact Hj.
        + exact Hd.
        + split; [apply in_app_iff; auto|exact H2].
      - intros [|e tr1] j tr2 H d Hd; cbn in H; [discriminate|]. injection H as _ H. exact (C9 _ _ _ H d Hd).
      - intros l1 j l2 H d Hd. destruct l2 as [|k l2] using rev_ind.
        + apply app_inj_tail in H. destruct H as [<- <-].
          destruct (C8 i d) as [H1 _]; [rewrite !in_app_iff; cbn; auto|exact Hd|exact H1].
        + clear IHl2. rewrite app_comm_cons, app_assoc in H. apply app_inj_tail in H. destruct H as [H _].
          exact (C10 _ _ _ H d Hd). }
    assert (exists o, e_out s i = Some o) as [o Ho].
    { destruct (e_out s i) as [o|] eqn:E; [eauto|]. assert (e_out s i <> None) by (apply C5; left; reflexivity). congruence. }
    unfold SchedModel.process. rewrite Ho.
    assert (ok o -> inv (check (fold_left offer (children i)
          (E (e_running s) (upd (e_done s) i true) (e_out s) (pred (e_count s)) (e_ready s) (e_active s)
             q (e_results s ++ [i]) (e_status s) (Processed i :: e_trace s))))) as Hok.
    { intros Hok. set (s1 := E _ _ _ _ _ _ _ _ _ _).
      assert (busy s1) as Hb1.
      { split; cbn; auto.
        - rewrite B2. cbn. lia.
        - intros j. rewrite in_app_iff. cbn. destruct (upd_cases (e_done s) i true j) as [[-> Ej]|[Hne Ej]]; rewrite Ej; [tauto|].
          rewrite B3. split; [auto|intros [H|[H|[]]]; [exact H|congruence]].
        - rewrite B4. reflexivity.
        - intros j Hj. apply in_app_iff in Hj. destruct Hj as [Hj|[<-|[]]]; [auto|eauto]. }
      assert (stuck s1 (children i)) as Hs1.
      { intros j Hj Hr. cbn in Hr. destruct (Hs j Hj Hr) as [(d & Hd & Hd')|[]]. cbn.
        destruct (forallb (upd (e_done s) i true) (deps j)) eqn:Ef.
        - right. apply children_in. split; [exact Hj|].
          rewrite forallb_forall in Ef. specialize (Ef d Hd).
          destruct (upd_cases (e_done s) i true d) as [[-> Ej]|[Hne Ej]]; [exact Hd|rewrite Ej in Ef; congruence].
        - left. apply forallb_false in Ef. exact Ef. }
      destruct (offers s1 (children i)) as (Hc2 & Hb2 & Hs2); auto.
      - apply Hcore. reflexivity.
      - intros j Hj. apply children_in in Hj. apply Hj.
      - apply check_inv; assumption. }
    destruct o as [v|e|e]; [apply Hok; intros ? ?; discriminate| |apply Hok; intros ? ?; discriminate].
    split; [apply Hcore; reflexivity|]. cbn. exists i, (e_results s). rewrite B4. split; [reflexivity|].
    split; [exact Ho|]. rewrite <- B4. exact B5.
  Qed.

  Lemma step_inv s l s' : inv s -> step s l = Some s' -> inv s'.
  Proof. destruct l; [apply start_inv|apply finish_inv|apply process_inv]. Qed.
  Lemma runs_inv s ls s' : inv s -> runs s ls = Some s' -> inv s'.
  Proof.
    revert s. induction ls as [|l ls IH]; intros s I H; cbn in H; [injection H as <-; exact I|].
    destruct (step s l) as [s1|] eqn:E; [|discriminate]. apply (IH s1); [|exact H]. exact (step_inv _ _ _ I E).
  Qed.
End Facts.
