(** Theorems about one evaluation, map and map_with_dependencies. *)
From Coq Require Import List Bool Arith Lia Permutation.
From Verif Require Import SchedModel SchedFacts.
Import ListNotations.

(** *** Lists *)
Lemma perm_seq (l : list nat) n : NoDup l -> (forall i, In i l -> i < n) -> length l = n -> Permutation l (seq 0 n).
Proof.
  intros H1 H2 H3. apply NoDup_Permutation_bis; [exact H1|rewrite seq_length; lia|].
  intros i Hi. apply in_seq. specialize (H2 i Hi). lia.
Qed.
Lemma not_nodup (l : list nat) : ~ NoDup l -> exists x l1 l2 l3, l = l1 ++ x :: l2 ++ x :: l3.
Proof.
  induction l as [|y l IH]; intros H; [destruct H; constructor|].
  destruct (in_dec Nat.eq_dec y l) as [Hy|Hy].
  - apply in_split in Hy. destruct Hy as (l2 & l3 & ->). exists y, [], l2, l3. reflexivity.
  - destruct IH as (x & l1 & l2 & l3 & ->).
    + intros Hn. apply H. constructor; assumption.
    + exists x, (y :: l1), l2, l3. reflexivity.
Qed.

Inductive sorted_le : list nat -> Prop :=
  | sl_nil : sorted_le []
  | sl_cons i l : (forall j, In j l -> i <= j) -> sorted_le l -> sorted_le (i :: l).
Lemma insert_perm i l : Permutation (insert i l) (i :: l).
Proof.
  induction l as [|j l IH]; cbn; [reflexivity|]. destruct (Nat.leb i j); [reflexivity|].
  rewrite IH. apply perm_swap.
Qed.
Lemma insert_sorted i l : sorted_le l -> sorted_le (insert i l).
Proof.
  intros H. induction H as [|j l Hj Hl IH]; cbn; [constructor; [intros j []|constructor]|].
  destruct (Nat.leb_spec i j).
  - constructor; [|constructor; assumption]. intros k [<-|Hk]; [lia|specialize (Hj k Hk); lia].
  - constructor; [|exact IH]. intros k Hk. apply (Permutation_in _ (insert_perm i l)) in Hk.
    destruct Hk as [<-|Hk]; [lia|auto].
Qed.
Lemma sorted_perm l : Permutation (sorted l) l.
Proof.
  induction l as [|i l IH]; cbn; [reflexivity|]. rewrite insert_perm. constructor. exact IH.
Qed.
Lemma sorted_sorted l : sorted_le (sorted l).
Proof. induction l as [|i l IH]; cbn; [constructor|apply insert_sorted; exact IH]. Qed.
Lemma sorted_unique l l' : sorted_le l -> sorted_le l' -> Permutation l l' -> l = l'.
Proof.
  intros H. revert l'. induction H as [|i l Hi Hl IH]; intros l' H' Hp.
  - apply Permutation_nil in Hp. auto.
  - destruct H' as [|j l' Hj Hl']; [apply Permutation_sym, Permutation_nil in Hp; discriminate|].
    assert (i = j) as ->.
    { assert (In i (j :: l')) as H1 by (apply (Permutation_in _ Hp); left; reflexivity).
      assert (In j (i :: l)) as H2 by (apply (Permutation_in _ (Permutation_sym Hp)); left; reflexivity).
      destruct H1 as [->|H1], H2 as [H2|H2]; auto. specialize (Hi _ H2). specialize (Hj _ H1). lia. }
    f_equal. apply IH; [exact Hl'|]. exact (Permutation_cons_inv Hp).
Qed.
Lemma seq_sorted a n : sorted_le (seq a n).
Proof.
  revert a. induction n as [|n IH]; intros a; cbn; constructor; [|apply IH].
  intros j Hj. apply in_seq in Hj. lia.
Qed.
Lemma sorted_seq l n : Permutation l (seq 0 n) -> sorted l = seq 0 n.
Proof.
  intros H. apply sorted_unique; [apply sorted_sorted|apply seq_sorted|].
  rewrite sorted_perm. exact H.
Qed.

Section One.
  Context (n : nat) (deps : task -> list task).
  Notation step := (step n deps).
  Notation runs := (runs n deps).
  Notation init := (init n deps).
  Notation inv := (inv n deps).

  Lemma reach_inv ls s : runs init ls = Some s -> inv s.
  Proof. apply runs_inv. apply init_inv. Qed.

  (** *** At most once, exactly once *)
  Lemma once ls s : runs init ls = Some s -> NoDup (starts (e_trace s)).
  Proof. intros H. apply (v_starts _ _ _ (n_core _ _ _ (reach_inv _ _ H))). Qed.
  Lemma returned_all ls s rs : runs init ls = Some s -> e_status s = Returned rs ->
    Permutation rs (seq 0 n) /\ Permutation (starts (e_trace s)) (seq 0 n).
  Proof.
    intros H E. destruct (reach_inv _ _ H) as [Hc Hs]. rewrite E in Hs. destruct Hs as (-> & E1 & E2 & E3 & E4 & E5).
    pose proof Hc as [C1 C2 C3 C4 C5 C6 C7 C8 C9 C10]. unfold pool in *. rewrite E1, E2, E3 in *. cbn in *.
    assert (Permutation (processed (e_trace s)) (seq 0 n)) as Hp by (apply perm_seq; assumption).
    split; [exact Hp|]. transitivity (processed (e_trace s)); [|exact Hp].
    apply NoDup_Permutation; [exact C7|exact C1|]. intros i. rewrite starts_in. apply C6.
  Qed.
  Lemma returned_outcomes ls s rs i : runs init ls = Some s -> e_status s = Returned rs -> i < n ->
    exists o, e_out s i = Some o /\ ok o /\ In (Finished i o) (e_trace s).
  Proof.
    intros H E Hi. destruct (returned_all _ _ _ H E) as [Hp _].
    destruct (reach_inv _ _ H) as [Hc Hs]. rewrite E in Hs. destruct Hs as (_ & _ & _ & _ & _ & E5).
    destruct (E5 i) as (o & H1 & H2); [apply (Permutation_in _ (Permutation_sym Hp)); apply in_seq; lia|].
    exists o. split; [exact H1|]. split; [exact H2|]. apply (v_out _ _ _ Hc). exact H1.
  Qed.

  (** *** Dependencies first *)
  Lemma deps_first ls s tr1 i tr2 d : runs init ls = Some s -> e_trace s = tr1 ++ Started i :: tr2 -> In d (deps i) ->
    exists o, In (Finished d o) tr2 /\ ok o.
  Proof. intros H E Hd. exact (v_before _ _ _ (n_core _ _ _ (reach_inv _ _ H)) _ _ _ E d Hd). Qed.

  (** *** Failures *)
  Lemma raised_by ls s e : runs init ls = Some s -> e_status s = Raised e -> exists i, i < n /\ In (Finished i (OExc e)) (e_trace s).
  Proof.
    intros H E. destruct (reach_inv _ _ H) as [Hc Hs]. rewrite E in Hs. destruct Hs as (i & rs & H1 & H2 & _).
    exists i. split; [|apply (v_out _ _ _ Hc); exact H2].
    apply (v_bound _ _ _ Hc). unfold pool. rewrite H1, !in_app_iff. cbn. tauto.
  Qed.
  Lemma out_fun s i o o' : core n deps s -> In (Finished i o) (e_trace s) -> In (Finished i o') (e_trace s) -> o = o'.
  Proof.
    intros Hc H H'. apply (v_out _ _ _ Hc) in H. apply (v_out _ _ _ Hc) in H'. congruence.
  Qed.
  Lemma not_failed ls s rs i e : runs init ls = Some s -> e_status s = Returned rs -> ~ In (Finished i (OExc e)) (e_trace s).
  Proof.
    intros H E Hf. destruct (reach_inv _ _ H) as [Hc _]. pose proof Hc as [C1 C2 C3 C4 C5 C6 C7 C8 C9 C10].
    assert (i < n) as Hi.
    { apply C2. unfold pool. apply C4 in Hf. assert (e_out s i <> None) as Ho by congruence. apply C5 in Ho.
      rewrite !in_app_iff in *. tauto. }
    destruct (returned_outcomes _ _ _ _ H E Hi) as (o & _ & Hok & Ho).
    rewrite (out_fun s i _ _ Hc Ho Hf) in Hok. exact (Hok e eq_refl).
  Qed.
  Lemma loop_not_failed ls s p i e : runs init ls = Some s -> e_status s = LoopError p -> ~ In (Finished i (OExc e)) (e_trace s).
  Proof.
    intros H E Hf. destruct (reach_inv _ _ H) as [Hc Hs]. rewrite E in Hs. destruct Hs as (E1 & E2 & E3 & _ & E5 & _).
    pose proof Hc as [C1 C2 C3 C4 C5 C6 C7 C8 C9 C10].
    apply C4 in Hf. assert (e_out s i <> None) as Ho by congruence. apply C5 in Ho. rewrite E3 in Ho. cbn in Ho.
    destruct (E5 i Ho) as (o & H1 & H2). rewrite Hf in H1. injection H1 as <-. exact (H2 e eq_refl).
  Qed.

  (** *** Termination and progress *)
  Lemma progress ls s : runs init ls = Some s -> e_status s = Running ->
    exists l s', step s l = Some s' /\ (forall i o, l = LFinish i o -> forall o', exists s'', step s (LFinish i o') = Some s'').
  Proof.
    intros H E. destruct (reach_inv _ _ H) as [Hc Hs]. rewrite E in Hs. destruct Hs as ([B1 B2 B3 B4 B5] & Hn & _).
    destruct (e_doneq s) as [|i q] eqn:Eq.
    - destruct (e_active s) as [|i a] eqn:Ea.
      + destruct (e_ready s) as [|i r] eqn:Er; [cbn in B2; lia|].
        exists (LStart i). eexists. split; [|discriminate]. cbn. rewrite Er. cbn. rewrite Nat.eqb_refl. reflexivity.
      + exists (LFinish i (OVal 0)). eexists. split.
        * cbn. rewrite Ea. cbn. rewrite Nat.eqb_refl. reflexivity.
        * intros j o Hj o'. injection Hj as <- _. eexists. cbn. rewrite Ea. cbn. rewrite Nat.eqb_refl. reflexivity.
    - exists LProcess. eexists. split; [|discriminate]. cbn. rewrite E, Eq. reflexivity.
  Qed.

  (** Every step starts, finishes or processes a task, each task once. *)
  Lemma step_events s l s' : step s l = Some s' -> length (e_trace s') = S (length (e_trace s)).
  Proof.
    destruct l as [i|i o|]; cbn; intros H.
    - destruct (existsb _ _); [|discriminate]. injection H as <-. reflexivity.
    - destruct (existsb _ _); [|discriminate]. injection H as <-. reflexivity.
    - destruct (e_status s); try discriminate. destruct (e_doneq s) as [|i q]; [discriminate|]. injection H as <-.
      assert (forall s1, e_trace (check n deps s1) = e_trace s1) as Hch by (intros s1; unfold check; destruct (e_count s1); reflexivity).
      unfold process. destruct (e_out s i) as [[v|e|e]|]; rewrite ?Hch, ?offers_trace; reflexivity.
  Qed.
  Fixpoint fins (tr : list event) : list task :=
    match tr with [] => [] | Finished i _ :: tr' => i :: fins tr' | _ :: tr' => fins tr' end.
  Lemma fins_in tr i : In i (fins tr) <-> exists o, In (Finished i o) tr.
  Proof.
    induction tr as [|e tr IH]; cbn; [split; [contradiction|intros [o []]]|].
    destruct e; cbn; rewrite IH; split.
    - intros [o H]; eauto.
    - intros [o [H|H]]; [discriminate|eauto].
    - intros [->|[o' H]]; eauto.
    - intros [o' [H|H]]; [injection H as -> _; auto|eauto].
    - intros [o H]; eauto.
    - intros [o [H|H]]; [discriminate|eauto].
  Qed.
  Lemma trace_parts tr : length tr = length (starts tr) + length (fins tr) + length (processed tr).
  Proof. induction tr as [|[i|i o|i] tr IH]; cbn; [reflexivity|rewrite app_length; cbn; lia|lia|rewrite app_length; cbn; lia]. Qed.

  Lemma fins_nodup ls s : runs init ls = Some s -> NoDup (fins (e_trace s)).
  Proof.
    assert (forall ls s0, inv s0 -> NoDup (fins (e_trace s0)) -> runs s0 ls = Some s -> NoDup (fins (e_trace s))) as Hg.
    { clear ls. intros ls. induction ls as [|l ls IH]; intros s0 I Hn H; cbn in H; [injection H as <-; exact Hn|].
      destruct (step s0 l) as [s1|] eqn:E; [|discriminate]. apply (IH s1); [exact (step_inv _ _ _ _ _ I E)| |exact H].
      destruct l as [i|i o|]; cbn in E.
      - destruct (existsb _ _); [|discriminate]. injection E as <-. exact Hn.
      - destruct (existsb (Nat.eqb i) (e_active s0)) eqn:Ei; [|discriminate]. injection E as <-. cbn. constructor; [|exact Hn].
        intros Hi. apply fins_in in Hi. destruct Hi as [o' Hi]. destruct I as [[C1 C2 C3 C4 C5 C6 C7 C8 C9 C10] _].
        apply C4 in Hi. assert (e_out s0 i <> None) as Ho by congruence. apply C5 in Ho.
        apply existsb_in in Ei. apply in_split in Ei. destruct Ei as (l1 & l2 & E). unfold pool in C1. rewrite E in C1.
        apply NoDup_app_remove_l in C1. rewrite <- app_assoc in C1. cbn in C1. apply NoDup_remove_2 in C1. apply C1.
        rewrite !in_app_iff in *. tauto.
      - destruct (e_status s0); try discriminate. destruct (e_doneq s0) as [|i q]; [discriminate|]. injection E as <-.
        assert (forall s1, e_trace (check n deps s1) = e_trace s1) as Hch by (intros s1; unfold check; destruct (e_count s1); reflexivity).
        unfold process. destruct (e_out s0 i) as [[v|e|e]|]; rewrite ?Hch, ?offers_trace; exact Hn. }
    intros H. apply (Hg ls init (init_inv n deps)); [|exact H].
    unfold SchedModel.init.
    assert (forall s1, e_trace (check n deps s1) = e_trace s1) as Hch by (intros s1; unfold check; destruct (e_count s1); reflexivity).
    rewrite Hch, offers_trace. constructor.
  Qed.

  Lemma bounded ls s : runs init ls = Some s -> length ls <= 3 * n.
  Proof.
    intros H.
    assert (length (e_trace s) = length ls) as Hl.
    { assert (forall ls s0, runs s0 ls = Some s -> length (e_trace s) = length ls + length (e_trace s0)) as Hg.
      { clear. intros ls. induction ls as [|l ls IH]; intros s0 H; cbn in H; [injection H as <-; reflexivity|].
        destruct (step s0 l) as [s1|] eqn:E; [|discriminate]. rewrite (IH s1 H), (step_events _ _ _ E). cbn. lia. }
      rewrite (Hg ls init H). unfold SchedModel.init.
      assert (forall s1, e_trace (check n deps s1) = e_trace s1) as Hch by (intros s1; unfold check; destruct (e_count s1); reflexivity).
      rewrite Hch, offers_trace. cbn. lia. }
    rewrite <- Hl, trace_parts.
    destruct (reach_inv _ _ H) as [[C1 C2 C3 C4 C5 C6 C7 C8 C9 C10] _].
    assert (forall l, NoDup l -> (forall i, In i l -> In i (pool s)) -> length l <= n) as Hb.
    { intros l Hn Hi. rewrite <- (seq_length n 0). apply NoDup_incl_length; [exact Hn|].
      intros i Hin. apply in_seq. specialize (C2 i (Hi i Hin)). lia. }
    assert (length (starts (e_trace s)) <= n) as H1.
    { apply Hb; [exact C7|]. intros i Hi. apply starts_in, C6 in Hi. unfold pool. rewrite !in_app_iff in *. tauto. }
    assert (length (fins (e_trace s)) <= n) as H2.
    { apply Hb; [exact (fins_nodup _ _ H)|]. intros i Hi. apply fins_in in Hi. destruct Hi as [o Hi]. apply C4 in Hi.
      assert (e_out s i <> None) as Ho by congruence. apply C5 in Ho. unfold pool. rewrite !in_app_iff in *. tauto. }
    assert (length (processed (e_trace s)) <= n) as H3.
    { apply Hb.
      - unfold pool in C1. do 3 apply NoDup_app_remove_l in C1. exact C1.
      - intros i Hi. unfold pool. rewrite !in_app_iff. auto. }
    lia.
  Qed.

  (** *** Cycles *)
  Inductive path : task -> task -> Prop :=
    | path_one i d : In d (deps i) -> path i d
    | path_more i d j : In d (deps i) -> path d j -> path i j.
  Lemma path_trans i j k : path i j -> path j k -> path i k.
  Proof. intros H. revert k. induction H; intros k Hk; [apply path_more with d; assumption|apply path_more with d; auto]. Qed.

  (** No task on a cycle, or depending on one, is ever processed. *)
  Lemma processed_down s l1 i l2 : core n deps s -> processed (e_trace s) = l1 ++ i :: l2 ->
    forall j, path i j -> In j l1.
  Proof.
    intros Hc E j Hp. revert l1 l2 E. induction Hp as [i d Hd|i d j Hd Hp IH]; intros l1 l2 E.
    - exact (v_order _ _ _ Hc _ _ _ E d Hd).
    - pose proof (v_order _ _ _ Hc _ _ _ E d Hd) as H1. apply in_split in H1. destruct H1 as (l3 & l4 & ->).
      assert (In j l3) as Hj; [|apply in_app_iff; auto].
      apply (IH l3 (l4 ++ i :: l2)). rewrite E, <- app_assoc. reflexivity.
  Qed.
  Lemma cycle_unprocessed s i : core n deps s -> path i i -> ~ In i (processed (e_trace s)).
  Proof.
    intros Hc Hp Hi. assert (NoDup (processed (e_trace s))) as Hn.
    { pose proof (v_nodup _ _ _ Hc) as C1. unfold pool in C1. do 3 apply NoDup_app_remove_l in C1. exact C1. }
    apply in_split in Hi. destruct Hi as (l1 & l2 & E). pose proof (processed_down s l1 i l2 Hc E i Hp) as Hin.
    rewrite E in Hn. apply NoDup_remove_2 in Hn. apply Hn. apply in_app_iff. auto.
  Qed.
  Lemma returned_acyclic ls s rs i : runs init ls = Some s -> e_status s = Returned rs -> i < n -> ~ path i i.
  Proof.
    intros H E Hi Hp. destruct (returned_all _ _ _ H E) as [Hperm _].
    destruct (reach_inv _ _ H) as [Hc Hs]. rewrite E in Hs. destruct Hs as (-> & _).
    apply (cycle_unprocessed s i Hc Hp). apply (Permutation_in _ (Permutation_sym Hperm)). apply in_seq. lia.
  Qed.

  Fixpoint chain (next : task -> task) (k : nat) (i : task) : list task :=
    match k with O => [i] | S k' => i :: chain next k' (next i) end.
  Lemma chain_path next (U : task -> Prop) k : forall i,
    (forall j, U j -> In (next j) (deps j) /\ U (next j)) -> U i ->
    (forall j, In j (chain next k i) -> U j) /\ (forall l1 x l2 y l3, chain next k i = l1 ++ x :: l2 ++ y :: l3 -> path x y).
  Proof.
    induction k as [|k IH]; intros i Hnext Hi; cbn.
    - split; [intros j [<-|[]]; exact Hi|]. intros [|? [|? l1]] x [|? l2] y l3 H; discriminate.
    - destruct (Hnext i Hi) as [H1 H2]. destruct (IH (next i) Hnext H2) as [IH1 IH2]. split.
      + intros j [<-|Hj]; auto.
      + intros [|z l1] x l2 y l3 H; cbn in H; injection H as -> H.
        * (* from the head *)
          destruct k as [|k]; cbn in H.
          -- destruct l2 as [|? [|? l2]]; cbn in H; [injection H as <- _; apply path_one; exact H1|discriminate|discriminate].
          -- destruct l2 as [|w l2]; cbn in H.
             ++ injection H as <- _. apply path_one. exact H1.
             ++ apply path_more with (next x); [exact H1|]. apply (IH2 [] (next x) l2 y l3). cbn. injection H as <- H. rewrite H. reflexivity.
        * exact (IH2 l1 x l2 y l3 H).
  Qed.
  Lemma chain_length next k i : length (chain next k i) = S k.
  Proof. revert i. induction k as [|k IH]; intros i; cbn; [reflexivity|rewrite IH; reflexivity]. Qed.

  Lemma loop_cycle ls s p : (forall i d, i < n -> In d (deps i) -> d < n) ->
    runs init ls = Some s -> e_status s = LoopError p -> exists i, i < n /\ path i i.
  Proof.
    intros Hin H E. destruct (reach_inv _ _ H) as [Hc Hs]. rewrite E in Hs.
    destruct Hs as (E1 & E2 & E3 & E4 & E5 & E6 & _).
    set (pr := processed (e_trace s)) in *.
    assert (exists i, i < n /\ ~ In i pr) as (i0 & Hi0 & Hn0).
    { destruct (forallb (fun i => existsb (Nat.eqb i) pr) (seq 0 n)) eqn:Ef.
      - exfalso. apply E4. rewrite forallb_forall in Ef.
        assert (NoDup pr) as Hnd.
        { pose proof (v_nodup _ _ _ Hc) as C1. unfold pool in C1. do 3 apply NoDup_app_remove_l in C1. exact C1. }
        assert (length pr <= n) as Hle.
        { rewrite <- (seq_length n 0). apply NoDup_incl_length; [exact Hnd|]. intros i Hi. apply in_seq.
          assert (i < n); [|lia]. apply (v_bound _ _ _ Hc). unfold pool. rewrite !in_app_iff. auto. }
        assert (n <= length pr) as Hge.
        { rewrite <- (seq_length n 0) at 1. apply NoDup_incl_length; [apply seq_NoDup|].
          intros i Hi. apply existsb_in. apply Ef. exact Hi. }
        lia.
      - apply forallb_false in Ef. destruct Ef as (i & Hi & Hf). exists i. apply in_seq in Hi. split; [lia|].
        intros Hp. apply existsb_in in Hp. congruence. }
    set (next := fun i => match find (fun d => negb (existsb (Nat.eqb d) pr)) (deps i) with Some d => d | None => 0 end).
    assert (forall j, j < n /\ ~ In j pr -> In (next j) (deps j) /\ (next j < n /\ ~ In (next j) pr)) as Hnext.
    { intros j [Hj Hnj]. destruct (E6 j Hj Hnj) as (d & Hd & Hnd). unfold next.
      destruct (find (fun d => negb (existsb (Nat.eqb d) pr)) (deps j)) as [d'|] eqn:Ef.
      - apply find_some in Ef. destruct Ef as [F1 F2]. apply negb_true_iff in F2. split; [exact F1|]. split; [eauto|].
        intros Hp. apply existsb_in in Hp. congruence.
      - exfalso. pose proof (find_none _ _ Ef d Hd) as F. apply negb_false_iff in F. apply existsb_in in F. contradiction. }
    destruct (chain_path next (fun j => j < n /\ ~ In j pr) n i0 Hnext (conj Hi0 Hn0)) as [H1 H2].
    destruct (not_nodup (chain next n i0)) as (x & l1 & l2 & l3 & El).
    { intros Hnd. assert (length (chain next n i0) <= n) as Hle.
      { pose proof (NoDup_incl_length Hnd (l' := seq 0 n)) as Q. rewrite seq_length in Q. apply Q.
        intros j Hj. apply in_seq. destruct (H1 j Hj). lia. }
      rewrite chain_length in Hle. lia. }
    exists x. split; [apply H1; rewrite El, in_app_iff; right; left; reflexivity|]. exact (H2 _ _ _ _ _ El).
  Qed.

  (** *** After a failure *)
  Lemma raised_stays s l s' e : e_status s = Raised e -> step s l = Some s' ->
    e_status s' = Raised e /\ (forall i, In i (e_ready s') -> In i (e_ready s)) /\
    (forall i, In (Started i) (e_trace s') -> In (Started i) (e_trace s) \/ In i (e_ready s)).
  Proof.
    intros E H. destruct l as [i|i o|]; cbn in H.
    - destruct (existsb (Nat.eqb i) (e_ready s)) eqn:Ei; [|discriminate]. injection H as <-. cbn. split; [exact E|]. split.
      + intros j Hj. apply in_remove in Hj. apply Hj.
      + intros j [Hj|Hj]; [|auto]. injection Hj as <-. right. apply existsb_in. exact Ei.
    - destruct (existsb _ _); [|discriminate]. injection H as <-. cbn. split; [exact E|]. split; [auto|].
      intros j [Hj|Hj]; [discriminate|auto].
    - rewrite E in H. discriminate.
  Qed.
  Lemma raised_runs s ls s' e : e_status s = Raised e -> runs s ls = Some s' ->
    e_status s' = Raised e /\ (forall i, In i (e_ready s') -> In i (e_ready s)) /\
    (forall i, In (Started i) (e_trace s') -> In (Started i) (e_trace s) \/ In i (e_ready s)).
  Proof.
    revert s. induction ls as [|l ls IH]; intros s E H; cbn in H; [injection H as <-; auto|].
    destruct (step s l) as [s1|] eqn:E1; [|discriminate]. destruct (raised_stays s l s1 e E E1) as (F1 & F2 & F3).
    destruct (IH s1 F1 H) as (G1 & G2 & G3). split; [exact G1|]. split; [auto|].
    intros i Hi. destruct (G3 i Hi) as [Hi'|Hi']; [apply F3; exact Hi'|right; auto].
  Qed.
End One.

(** *** map *)
Definition pure (f : task -> outcome) (tr : list event) : Prop := forall i o, In (Finished i o) tr -> o = f i.

Lemma values_all out l f : (forall i, In i l -> out i = Some (OVal (f i))) -> values_of out l = Some (map f l).
Proof.
  induction l as [|i l IH]; intros H; cbn; [reflexivity|].
  rewrite (H i (or_introl eq_refl)), IH; [reflexivity|]. intros j Hj. apply H. right. exact Hj.
Qed.
Lemma values_some out l vs : values_of out l = Some vs ->
  length vs = length l /\ forall k, k < length l -> out (nth k l 0) = Some (OVal (nth k vs 0)).
Proof.
  revert vs. induction l as [|i l IH]; intros vs; cbn.
  - intros H. injection H as <-. split; [reflexivity|]. intros k Hk. cbn in Hk. lia.
  - destruct (out i) as [[v|e|e]|] eqn:Eo; try discriminate. destruct (values_of out l) as [vs'|] eqn:Ev; [|discriminate].
    intros H. injection H as <-. destruct (IH vs' eq_refl) as [H1 H2]. split; [cbn; lia|].
    intros [|k] Hk; cbn; [exact Eo|]. apply H2. cbn in Hk. lia.
Qed.
Lemma values_none out l : values_of out l = None -> exists i, In i l /\ forall v, out i <> Some (OVal v).
Proof.
  induction l as [|i l IH]; cbn; [discriminate|]. destruct (out i) as [[v|e|e]|] eqn:Eo.
  - destruct (values_of out l); [discriminate|]. intros _. destruct (IH eq_refl) as (j & H1 & H2). eauto.
  - intros _. exists i. split; [auto|]. intros v. congruence.
  - intros _. exists i. split; [auto|]. intros v. congruence.
  - intros _. exists i. split; [auto|]. intros v. congruence.
Qed.

Definition nodeps (i : task) : list task := [].
Theorem map_list n f ls s :
  runs n nodeps (init n nodeps) ls = Some s -> pure f (e_trace s) ->
  match map_result s with
  | None => e_status s = Running
  | Some (MList vs) => length vs = n /\ forall k, k < n -> f k = OVal (nth k vs 0)
  | Some (MRaised e) => exists i, i < n /\ f i = OExc e
  | Some (MLoop _) => False
  | Some MAttributeError => exists i e, i < n /\ f i = OFatal e
  end.
Proof.
  intros H Hp. unfold map_result. destruct (e_status s) as [|rs|e|p] eqn:E.
  - reflexivity.
  - destruct (returned_all _ _ _ _ _ H E) as [Hperm _]. rewrite (sorted_seq _ _ Hperm).
    destruct (values_of (e_out s) (seq 0 n)) as [vs|] eqn:Ev.
    + destruct (values_some _ _ _ Ev) as [H1 H2]. rewrite seq_length in *. split; [exact H1|].
      intros k Hk. specialize (H2 k Hk). rewrite seq_nth in H2 by exact Hk. cbn in H2.
      apply (v_out _ _ _ (n_core _ _ _ (reach_inv _ _ _ _ H))) in H2. symmetry. exact (Hp _ _ H2).
    + apply values_none in Ev. destruct Ev as (i & Hi & Hv). apply in_seq in Hi.
      destruct (returned_outcomes _ _ _ _ _ i H E) as (o & Ho & Hok & Hf); [lia|].
      pose proof (Hp _ _ Hf) as ->. destruct (f i) as [v|e|e] eqn:Ef; [destruct (Hv v Ho)|destruct (Hok e eq_refl)|].
      exists i, e. split; [lia|exact Ef].
  - destruct (raised_by _ _ _ _ _ H E) as (i & Hi & Hf). exists i. split; [exact Hi|]. symmetry. exact (Hp _ _ Hf).
  - destruct (loop_cycle _ _ _ _ _ (fun i d (_ : i < n) (Hd : In d (nodeps i)) => match Hd with end) H E) as (i & _ & Hpath).
    destruct Hpath; contradiction.
Qed.

(** *** map_with_dependencies: the dependencies *)
Lemma index_some x l k : index_of x l = Some k -> k < length l /\ nth k l 0 = x.
Proof.
  revert k. induction l as [|y l IH]; intros k; cbn; [discriminate|]. destruct (Nat.eqb_spec x y) as [->|Hne].
  - intros H. injection H as <-. split; [lia|reflexivity].
  - destruct (index_of x l) as [j|]; [|discriminate]. cbn. intros H. injection H as <-. destruct (IH j eq_refl). split; [lia|assumption].
Qed.
Lemma index_in x l : In x l -> exists k, index_of x l = Some k.
Proof.
  induction l as [|y l IH]; cbn; [contradiction|]. intros H. destruct (Nat.eqb_spec x y) as [->|Hne]; [eauto|].
  destruct H as [->|H]; [contradiction|]. destruct (IH H) as [k ->]. cbn. eauto.
Qed.
Lemma index_nth l k : NoDup l -> k < length l -> index_of (nth k l 0) l = Some k.
Proof.
  revert k. induction l as [|y l IH]; intros k Hn Hk; cbn in Hk; [lia|]. inversion Hn; subst. destruct k as [|k]; cbn.
  - rewrite Nat.eqb_refl. reflexivity.
  - destruct (Nat.eqb_spec (nth k l 0) y) as [E|Hne].
    + exfalso. apply H1. rewrite <- E. apply nth_In. lia.
    + rewrite (IH k H2) by lia. reflexivity.
Qed.
Lemma keys_from_spec srcs : forall seen,
  NoDup (keys_from seen srcs) /\ (forall x, In x (keys_from seen srcs) <-> In x srcs /\ ~ In x seen).
Proof.
  induction srcs as [|y srcs IH]; intros seen; cbn; [split; [constructor|intros x; tauto]|].
  destruct (existsb (Nat.eqb y) seen) eqn:E.
  - destruct (IH seen) as [H1 H2]. split; [exact H1|]. intros x. rewrite H2. apply existsb_in in E.
    split; [tauto|]. intros [[->|H] Hn]; [contradiction|tauto].
  - destruct (IH (y :: seen)) as [H1 H2].
    assert (~ In y seen) as Hy by (intros H; apply existsb_in in H; congruence).
    split; [constructor; [rewrite H2; cbn; tauto|exact H1]|]. intros x. cbn. rewrite H2. cbn.
    destruct (Nat.eq_dec x y) as [->|Hne]; [tauto|]. split.
    + intros [->|[H3 H4]]; [tauto|]. tauto.
    + intros [[->|H3] H4]; [tauto|]. right. split; [exact H3|]. intros [->|H5]; [congruence|contradiction].
Qed.
Lemma keys_nodup srcs : NoDup (keys srcs).
Proof. apply (keys_from_spec srcs []). Qed.
Lemma keys_in srcs x : In x (keys srcs) <-> In x srcs.
Proof. unfold keys. rewrite (proj2 (keys_from_spec srcs []) x). cbn. tauto. Qed.

Lemma known_in ks ds k : NoDup ks -> In k (known ks ds) <-> k < length ks /\ In (nth k ks 0) ds.
Proof.
  intros Hn. unfold known. rewrite in_flat_map. split.
  - intros (d & Hd & H). destruct (index_of d ks) as [j|] eqn:E; [|contradiction]. destruct H as [->|[]].
    destruct (index_some _ _ _ E) as [H1 H2]. subst d. auto.
  - intros [H1 H2]. exists (nth k ks 0). split; [exact H2|]. rewrite (index_nth _ _ Hn H1). left. reflexivity.
Qed.

Fixpoint copies {X} (k : nat) (l : list X) : list X := match k with O => [] | S k' => l ++ copies k' l end.
Lemma copies_snoc {X} k (l : list X) : copies k l ++ l = copies (S k) l.
Proof. induction k as [|k IH]; cbn; [rewrite app_nil_r; reflexivity|]. rewrite <- app_assoc, IH. reflexivity. Qed.

Lemma graph_from srcs dep rs : (forall j, In j rs -> j < length srcs) ->
  forall k, k < length (keys srcs) ->
    graph srcs rs (fun j => dep (nth j srcs 0)) k =
    copies (count_occ Nat.eq_dec (map (fun j => nth j srcs 0) rs) (nth k (keys srcs) 0)) (known (keys srcs) (dep (nth k (keys srcs) 0))).
Proof.
  induction rs as [|j rs IH] using rev_ind; intros Hr k Hk; [reflexivity|].
  unfold graph in *. rewrite fold_left_app, map_app, count_occ_app. cbn [map fold_left count_occ].
  assert (j < length srcs) as Hj by (apply Hr, in_app_iff; right; left; reflexivity).
  assert (forall i, In i rs -> i < length srcs) as Hr' by (intros i Hi; apply Hr, in_app_iff; left; exact Hi).
  unfold add_dependencies at 1.
  destruct (index_in (nth j srcs 0) (keys srcs)) as [k' E]; [apply keys_in, nth_In; exact Hj|]. rewrite E.
  destruct (index_some _ _ _ E) as [Hk' Ek'].
  destruct (upd_cases (fold_left (add_dependencies srcs (fun j => dep (nth j srcs 0))) rs (fun _ => [])) k'
    (fold_left (add_dependencies srcs (fun j => dep (nth j srcs 0))) rs (fun _ => []) k' ++ known (keys srcs) (dep (nth j srcs 0))) k)
    as [[-> Ek]|[Hne Ek]]; rewrite Ek.
  - rewrite IH by assumption. rewrite Ek'. destruct (Nat.eq_dec (nth j srcs 0) (nth j srcs 0)) as [_|Hx]; [|contradiction].
    rewrite Nat.add_1_r. apply copies_snoc.
  - rewrite IH by assumption. destruct (Nat.eq_dec (nth j srcs 0) (nth k (keys srcs) 0)) as [Ex|Hx]; [|rewrite Nat.add_0_r; reflexivity].
    exfalso. apply Hne. assert (Some k = Some k') as Hs; [|congruence].
    rewrite <- E, Ex. symmetry. apply index_nth; [apply keys_nodup|exact Hk].
Qed.
Lemma graph_perm srcs dep rs : Permutation rs (seq 0 (length srcs)) -> forall k, k < length (keys srcs) ->
  graph srcs rs (fun j => dep (nth j srcs 0)) k =
  copies (count_occ Nat.eq_dec srcs (nth k (keys srcs) 0)) (known (keys srcs) (dep (nth k (keys srcs) 0))).
Proof.
  intros Hp k Hk. rewrite graph_from by (try exact Hk; intros j Hj; apply (Permutation_in _ Hp) in Hj; apply in_seq in Hj; lia).
  f_equal. assert (Permutation (map (fun j => nth j srcs 0) rs) srcs) as Hs.
  { rewrite Hp. assert (map (fun j => nth j srcs 0) (seq 0 (length srcs)) = srcs) as E; [|rewrite E; reflexivity].
    clear. assert (forall l a, map (fun j => nth (j - a) l 0) (seq a (length l)) = l) as Hg.
    { intros l. induction l as [|x l IH]; intros a; cbn; [reflexivity|]. rewrite Nat.sub_diag. f_equal.
      rewrite <- (IH (S a)) at 2. apply map_ext_in. intros j Hj. apply in_seq in Hj.
      replace (j - a) with (S (j - S a)) by lia. reflexivity. }
    rewrite <- (Hg srcs 0) at 2. apply map_ext. intros j. rewrite Nat.sub_0_r. reflexivity. }
  apply (Permutation_count_occ Nat.eq_dec). exact Hs.
Qed.
Lemma copies_in {X} k (l : list X) x : In x (copies (S k) l) <-> In x l.
Proof. induction k as [|k IH]; cbn [copies] in *; rewrite ?app_nil_r, ?in_app_iff in *; cbn in *; tauto. Qed.
Lemma graph_in srcs dep rs k d : Permutation rs (seq 0 (length srcs)) -> k < length (keys srcs) ->
  In d (graph srcs rs (fun j => dep (nth j srcs 0)) k) <-> d < length (keys srcs) /\ In (nth d (keys srcs) 0) (dep (nth k (keys srcs) 0)).
Proof.
  intros Hp Hk. rewrite (graph_perm srcs dep rs Hp k Hk).
  assert (In (nth k (keys srcs) 0) srcs) as Hin by (apply keys_in, nth_In; exact Hk).
  apply (count_occ_In Nat.eq_dec) in Hin. destruct (count_occ Nat.eq_dec srcs (nth k (keys srcs) 0)); [lia|].
  rewrite copies_in. apply known_in. apply keys_nodup.
Qed.

(** *** The order of results *)
Section Order.
  Context (deps : task -> list task).
  Notation visit := (visit deps).

  Fixpoint vloop (f : list task * list task -> task -> option (list task * list task)) (ds : list task)
      (st : list task * list task) : option (list task * list task) :=
    match ds with
    | [] => Some st
    | d :: ds' => match f st d with Some st' => vloop f ds' st' | None => None end
    end.
  Lemma visit_eq depth st t : visit (S depth) st t =
    if existsb (Nat.eqb t) (fst st) then Some st
    else match vloop (visit depth) (deps t) (t :: fst st, snd st) with
         | Some (visited, results) => Some (visited, results ++ [t])
         | None => None
         end.
  Proof.
    cbn [SchedModel.visit]. destruct (existsb (Nat.eqb t) (fst st)); [reflexivity|].
    assert (forall ds st0, (fix loop (ds : list task) (st : list task * list task) : option (list task * list task) :=
                   match ds with
                   | [] => Some st
                   | d :: ds' => match visit depth st d with Some st' => loop ds' st' | None => None end
                   end) ds st0 = vloop (visit depth) ds st0) as ->; [|reflexivity].
    intros ds. induction ds as [|d ds IH]; intros st0; cbn; [reflexivity|]. destruct (visit depth st0 d); [apply IH|reflexivity].
  Qed.
  Lemma visit_all_eq depth ts st : visit_all deps depth st ts = vloop (visit depth) ts st.
  Proof. revert st. induction ts as [|t ts IH]; intros st; cbn; [reflexivity|]. destruct (visit depth st t); [apply IH|reflexivity]. Qed.

  (** [g]: visited but not yet in the results (being visited). *)
  Record visited_ok (g : list task) (st : list task * list task) : Prop := VOk {
    k_nodup : NoDup (snd st);
    k_sub : forall x, In x (fst st) <-> In x (snd st) \/ In x g;
    k_disj : forall x, In x (snd st) -> ~ In x g;
    k_topo : forall l1 x l2, snd st = l1 ++ x :: l2 -> forall d, In d (deps x) -> In d l1
  }.
  Notation path := (path deps).
  Lemma vloop_ok (f : list task * list task -> task -> option (list task * list task)) g ds : forall st st',
    (forall st t st', (forall x, In x g -> path x t) -> visited_ok g st -> f st t = Some st' ->
       visited_ok g st' /\ In t (snd st') /\ (forall x, In x (snd st) -> In x (snd st'))) ->
    (forall d x, In d ds -> In x g -> path x d) ->
    visited_ok g st -> vloop f ds st = Some st' ->
    visited_ok g st' /\ (forall d, In d ds -> In d (snd st')) /\ (forall x, In x (snd st) -> In x (snd st')).
  Proof.
    induction ds as [|d ds IH]; intros st st' Hf Hd Hv Hl; cbn in Hl.
    - injection Hl as <-. split; [exact Hv|]. split; [intros d []|auto].
    - destruct (f st d) as [st1|] eqn:E; [|discriminate].
      destruct (Hf st d st1) as (H1 & H2 & H3); [intros x Hx; apply Hd; [left; reflexivity|exact Hx]|exact Hv|exact E|].
      destruct (IH st1 st' Hf) as (G1 & G2 & G3); [intros d' x Hd' Hx; apply Hd; [right; exact Hd'|exact Hx]|exact H1|exact Hl|].
      split; [exact G1|]. split; [intros d' [<-|Hd']; auto|auto].
  Qed.
  Lemma visit_ok depth : forall g st t st',
    (forall x, ~ path x x) -> (forall x, In x g -> path x t) -> visited_ok g st -> visit depth st t = Some st' ->
    visited_ok g st' /\ In t (snd st') /\ (forall x, In x (snd st) -> In x (snd st')).
  Proof.
    induction depth as [|depth IH]; intros g st t st' Hac Hg Hv H; [discriminate|].
    rewrite visit_eq in H. destruct (existsb (Nat.eqb t) (fst st)) eqn:Et.
    - injection H as <-. split; [exact Hv|]. split; [|auto]. apply existsb_in in Et. apply (k_sub _ _ Hv) in Et.
      destruct Et as [Et|Et]; [exact Et|]. destruct (Hac t (Hg t Et)).
    - assert (~ In t (fst st)) as Hnt by (intros Hi; apply existsb_in in Hi; congruence).
      destruct (vloop (visit depth) (deps t) (t :: fst st, snd st)) as [[vis res]|] eqn:El; [|discriminate].
      injection H as <-. destruct Hv as [V1 V2 V3 V4].
      assert (~ In t (snd st) /\ ~ In t g) as [Hns Hng] by (split; intros Hi; apply Hnt, V2; auto).
      assert (visited_ok (t :: g) (t :: fst st, snd st)) as Hv0.
      { split; cbn; [exact V1| | |exact V4].
        - intros x. rewrite V2. tauto.
        - intros x Hx [<-|Hi]; [contradiction|exact (V3 x Hx Hi)]. }
      destruct (vloop_ok (visit depth) (t :: g) (deps t) (t :: fst st, snd st) (vis, res)) as (G1 & G2 & G3); try assumption.
      { intros st0 t0 st0' Hp Hok Hvis. exact (IH (t :: g) st0 t0 st0' Hac Hp Hok Hvis). }
      { intros d x Hd [<-|Hx]; [apply path_one; exact Hd|]. apply (path_trans _ x t d (Hg x Hx)). apply path_one. exact Hd. }
      cbn in G2, G3. destruct G1 as [W1 W2 W3 W4]. cbn in *.
      assert (~ In t res) as Htr by (intros Hi; apply (W3 t Hi); left; reflexivity).
      split; [split; cbn|split].
      + rewrite <- (rev_involutive (res ++ [t])). apply NoDup_rev. rewrite rev_app_distr. cbn.
        constructor; [rewrite <- in_rev; exact Htr|apply NoDup_rev; exact W1].
      + intros x. rewrite W2, in_app_iff. cbn. tauto.
      + intros x Hx Hi. apply in_app_iff in Hx. destruct Hx as [Hx|[<-|[]]]; [apply (W3 x Hx); right; exact Hi|contradiction].
      + intros l1 x l2 E d Hd. destruct l2 as [|y l2] using rev_ind.
        * apply app_inj_tail in E. destruct E as [<- <-]. apply G2. exact Hd.
        * clear IHl2. rewrite app_comm_cons, app_assoc in E. apply app_inj_tail in E. destruct E as [E _]. exact (W4 _ _ _ E d Hd).
      + apply in_app_iff. right. left. reflexivity.
      + intros x Hx. apply in_app_iff. left. apply G3. exact Hx.
  Qed.

  (** Enough stack: one frame more than there are unvisited tasks. *)
  Definition fresh (n : nat) (vis : list task) : nat := length (filter (fun i => negb (existsb (Nat.eqb i) vis)) (seq 0 n)).
  Lemma filter_le {X} (f g : X -> bool) l : (forall x, In x l -> f x = true -> g x = true) -> length (filter f l) <= length (filter g l).
  Proof.
    induction l as [|x l IH]; intros H; cbn; [lia|].
    assert (length (filter f l) <= length (filter g l)) by (apply IH; intros y Hy; apply H; right; exact Hy).
    destruct (f x) eqn:Ef; [rewrite (H x (or_introl eq_refl) Ef); cbn; lia|]. destruct (g x); cbn; lia.
  Qed.
  Lemma filter_lt {X} (f g : X -> bool) l x : (forall x, In x l -> f x = true -> g x = true) -> In x l -> g x = true -> f x = false ->
    length (filter f l) < length (filter g l).
  Proof.
    induction l as [|y l IH]; intros H Hx Hg Hf; [contradiction|]. cbn.
    assert (forall z, In z l -> f z = true -> g z = true) as Hl by (intros z Hz; apply H; right; exact Hz).
    pose proof (filter_le f g l Hl) as Hle.
    destruct Hx as [->|Hx]; [rewrite Hf, Hg; cbn; lia|]. specialize (IH Hl Hx Hg Hf).
    destruct (f y) eqn:Ef; [rewrite (H y (or_introl eq_refl) Ef); cbn; lia|]. destruct (g y); cbn; lia.
  Qed.
  Lemma fresh_mono n vis vis' : (forall x, In x vis -> In x vis') -> fresh n vis' <= fresh n vis.
  Proof.
    intros H. apply filter_le. intros x _ Hx. apply negb_true_iff in Hx. apply negb_true_iff.
    destruct (existsb (Nat.eqb x) vis) eqn:E; [|reflexivity]. apply existsb_in, H, existsb_in in E. congruence.
  Qed.
  Lemma fresh_lt n t vis : t < n -> ~ In t vis -> fresh n (t :: vis) < fresh n vis.
  Proof.
    intros Ht Hn. apply filter_lt with t.
    - intros x _ Hx. apply negb_true_iff in Hx. cbn in Hx. apply orb_false_iff in Hx. apply negb_true_iff. apply Hx.
    - apply in_seq. lia.
    - apply negb_true_iff. destruct (existsb (Nat.eqb t) vis) eqn:E; [apply existsb_in in E; contradiction|reflexivity].
    - cbn. rewrite Nat.eqb_refl. reflexivity.
  Qed.
  Lemma visit_mono depth : forall st t st', visit depth st t = Some st' -> forall x, In x (fst st) -> In x (fst st').
  Proof.
    induction depth as [|depth IH]; intros st t st' H x Hx; [discriminate|]. rewrite visit_eq in H.
    destruct (existsb _ _); [injection H as <-; exact Hx|].
    assert (forall ds st st', vloop (visit depth) ds st = Some st' -> forall x, In x (fst st) -> In x (fst st')) as Hl.
    { intros ds. induction ds as [|d ds IHd]; intros st1 st2 H1 y Hy; cbn in H1; [injection H1 as <-; exact Hy|].
      destruct (visit depth st1 d) as [st3|] eqn:E; [|discriminate]. apply (IHd st3 st2 H1). exact (IH _ _ _ E y Hy). }
    destruct (vloop (visit depth) (deps t) (t :: fst st, snd st)) as [[vis res]|] eqn:El; [|discriminate].
    injection H as <-. cbn. apply (Hl _ _ _ El x). right. exact Hx.
  Qed.
  Lemma visit_total n depth : (forall i d, i < n -> In d (deps i) -> d < n) -> forall st t,
    t < n -> fresh n (fst st) < depth -> exists st', visit depth st t = Some st'.
  Proof.
    intros Hin. induction depth as [|depth IH]; intros st t Ht Hd; [lia|]. rewrite visit_eq.
    destruct (existsb (Nat.eqb t) (fst st)) eqn:Et; [eauto|].
    assert (~ In t (fst st)) as Hnt by (intros Hi; apply existsb_in in Hi; congruence).
    pose proof (fresh_lt n t (fst st) Ht Hnt) as Hlt.
    assert (forall ds st0, (forall d, In d ds -> d < n) -> fresh n (fst st0) < depth -> exists st', vloop (visit depth) ds st0 = Some st') as Hl.
    { intros ds. induction ds as [|d ds IHd]; intros st0 Hds Hf; cbn; [eauto|].
      destruct (IH st0 d (Hds d (or_introl eq_refl)) Hf) as [st1 E]. rewrite E. apply IHd.
      - intros d' Hd'. apply Hds. right. exact Hd'.
      - pose proof (fresh_mono n (fst st0) (fst st1) (visit_mono _ _ _ _ E)). lia. }
    destruct (Hl (deps t) (t :: fst st, snd st)) as [[vis res] E]; [intros d Hd'; exact (Hin t d Ht Hd')|cbn; lia|].
    rewrite E. eauto.
  Qed.
  Lemma vloop_total n depth ds : (forall i d, i < n -> In d (deps i) -> d < n) -> (forall d, In d ds -> d < n) -> forall st,
    fresh n (fst st) < depth -> exists st', vloop (visit depth) ds st = Some st'.
  Proof.
    intros Hin. induction ds as [|d ds IH]; intros Hds st Hf; cbn; [eauto|].
    destruct (visit_total n depth Hin st d (Hds d (or_introl eq_refl)) Hf) as [st1 E]. rewrite E. apply IH.
    - intros d' Hd'. apply Hds. right. exact Hd'.
    - pose proof (fresh_mono n (fst st) (fst st1) (visit_mono _ _ _ _ E)). lia.
  Qed.
  Lemma vloop_from depth ts (P : task -> Prop) : (forall i d, P i -> In d (deps i) -> P d) -> (forall t, In t ts -> P t) ->
    forall st st', (forall x, In x (snd st) -> P x) -> vloop (visit depth) ts st = Some st' -> forall x, In x (snd st') -> P x.
  Proof.
    intros Hcl. revert ts. induction depth as [|depth IH]; intros ts Hts st st' Hst H x Hx.
    - destruct ts; cbn in H; [injection H as <-; auto|discriminate].
    - revert st st' Hst H x Hx. induction ts as [|t ts IHt]; intros st st' Hst H x Hx; cbn [vloop] in H; [injection H as <-; auto|].
      destruct (visit (S depth) st t) as [st1|] eqn:E; [|discriminate].
      apply (IHt (fun t' Ht' => Hts t' (or_intror Ht')) st1 st'); [|exact H|exact Hx].
      rewrite visit_eq in E. destruct (existsb (Nat.eqb t) (fst st)); [injection E as <-; exact Hst|].
      destruct (vloop (visit depth) (deps t) (t :: fst st, snd st)) as [[vis res]|] eqn:El; [|discriminate].
      injection E as <-. cbn. intros y Hy. apply in_app_iff in Hy. destruct Hy as [Hy|[<-|[]]]; [|apply Hts; left; reflexivity].
      apply (IH (deps t) (fun d Hd => Hcl t d (Hts t (or_introl eq_refl)) Hd) (t :: fst st, snd st) (vis, res) Hst El). exact Hy.
  Qed.
End Order.

Theorem result_order_ok deps srcs depth :
  (forall i d, i < length (keys srcs) -> In d (deps i) -> d < length (keys srcs)) ->
  (forall i, ~ path deps i i) ->
  length (keys srcs) < depth ->
  exists order, result_order deps depth srcs = Some order /\ Permutation order (seq 0 (length (keys srcs))) /\
    forall l1 x l2, order = l1 ++ x :: l2 -> forall d, In d (deps x) -> In d l1.
Proof.
  intros Hin Hac Hd. unfold result_order. rewrite visit_all_eq.
  set (ts := flat_map _ srcs).
  assert (forall t, In t ts <-> t < length (keys srcs)) as Hts.
  { intros t. unfold ts. rewrite in_flat_map. split.
    - intros (x & Hx & H). destruct (index_of x (keys srcs)) as [k|] eqn:E; [|contradiction]. destruct H as [<-|[]].
      apply (index_some _ _ _ E).
    - intros Ht. exists (nth t (keys srcs) 0). split; [apply keys_in, nth_In; exact Ht|].
      rewrite (index_nth _ _ (keys_nodup srcs) Ht). left. reflexivity. }
  destruct (vloop_total deps (length (keys srcs)) depth ts Hin (fun t Ht => proj1 (Hts t) Ht) ([], [])) as [[vis res] E].
  { cbn. unfold fresh. cbn. assert (length (filter (fun _ => true) (seq 0 (length (keys srcs)))) <= length (keys srcs)) as Hle.
    { rewrite <- (seq_length (length (keys srcs)) 0) at 2. generalize (seq 0 (length (keys srcs))). clear.
      intros l. induction l as [|x l IH]; cbn; lia. }
    lia. }
  rewrite E. exists res. split; [reflexivity|].
  destruct (vloop_ok deps (visit deps depth) [] ts ([], []) (vis, res)) as (H1 & H2 & _); try assumption.
  { intros st t st' _ Hok Hv. exact (visit_ok deps depth [] st t st' Hac (fun x Hx => match Hx with end) Hok Hv). }
  { intros d x _ []. }
  { split; cbn; [constructor|tauto|auto|]. intros [|? l1] x l2 Hx; discriminate. }
  cbn in *. destruct H1 as [K1 K2 K3 K4]. cbn in *. split; [|exact K4].
  assert (forall x, In x res -> x < length (keys srcs)) as Hb.
  { apply (vloop_from deps depth ts (fun x => x < length (keys srcs)) Hin (fun t Ht => proj1 (Hts t) Ht) ([], []) (vis, res)); [intros x []|exact E]. }
  apply NoDup_Permutation; [exact K1|apply seq_NoDup|]. intros x. rewrite in_seq. split; [intros Hx; specialize (Hb x Hx); lia|].
  intros Hx. apply H2, Hts. lia.
Qed.
