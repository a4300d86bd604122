(** C97: waiting for a child with a timeout. *)
From Coq Require Import List ZArith Bool Lia.
From Verif Require Import WaitModel WaitSpec.
Import ListNotations.
Open Scope Z_scope.

Lemma ended_iff p t : ended p t = true <-> exists e, p_ends p = Some e /\ e <= t.
Proof.
  unfold ended. destruct (p_ends p) as [e|]; [rewrite Z.leb_le|].
  - split; [intros H; exists e; auto|]. intros (e' & [= <-] & H). exact H.
  - split; [discriminate|]. intros (e & H & _). discriminate.
Qed.

(** A code that is known is returned, and nothing is done. *)
Definition C97_known_claim : Prop := forall fuel p sl timeout s c, rc s = Some c -> wait fuel p sl timeout s = Some s.
Theorem C97_known : C97_known_claim.
Proof. intros fuel p sl timeout s c H. unfold wait. rewrite H. reflexivity. Qed.

(** Without a timeout, which -1 s stands for, waiting ends when the child does, with its code. *)
Definition C97_forever_claim : Prop :=
  forall fuel p sl timeout s, timeout = None \/ timeout = Some (-1000) -> running s ->
  (forall e, p_ends p = Some e -> exists s', wait fuel p sl timeout s = Some s' /\ finished p s' /\ now s' = Z.max (now s) e /\ sigchld s' = Before) /\
  (p_ends p = None -> wait fuel p sl timeout s = None).
Theorem C97_forever : C97_forever_claim.
Proof.
  intros fuel p sl timeout s Ht (H1 & H2 & H3 & H4).
  assert (wait fuel p sl timeout s = block p s) as -> by (unfold wait; rewrite H1; destruct Ht as [->| ->]; reflexivity).
  unfold block. rewrite H1. split.
  - intros e E. rewrite E. eexists. split; [reflexivity|]. split; [|split; [reflexivity|exact H4]].
    split; [reflexivity|]. split; [reflexivity|]. split; [exact H3|]. exists e. split; [exact E|]. simpl. lia.
  - intros E. rewrite E. reflexivity.
Qed.

Lemma poll_ok p sl start timeout : forward sl -> forall fuel s s' b, rc s = None -> reaped s = false -> killed s = None -> start <= now s ->
  poll fuel p sl start timeout s = Some (s', b) ->
  now s <= now s' /\ killed s' = None /\
  (if b then finished p s' /\ sigchld s' = Before /\ now s' < start + timeout - 10
   else rc s' = None /\ reaped s' = false /\ start + timeout - 10 <= now s').
Proof.
  intros Hf. induction fuel as [|fuel IH]; intros s s' b H1 H2 H3 Hs H; [discriminate|]. simpl in H.
  destruct (Z.ltb_spec (now s) (start + timeout - 10)) as [Hlt|Hge].
  - destruct (ended p (now s)) eqn:E.
    + injection H as <- <-. simpl. split; [lia|]. split; [exact H3|]. split; [|split; [reflexivity|exact Hlt]].
      split; [reflexivity|]. split; [reflexivity|]. split; [exact H3|]. apply ended_iff. exact E.
    + destruct (Z.ltb_spec (timeout - now s + start) 0); [lia|].
      assert (now s <= sl (sl (now s) (timeout - now s + start)) 100) as Hn
        by (etransitivity; [apply (Hf (now s) (timeout - now s + start))|apply Hf]).
      apply IH in H; simpl; try assumption; [|lia]. simpl in H. destruct H as [K1 K2]. split; [lia|exact K2].
  - injection H as <- <-. split; [lia|]. tauto.
Qed.

(** With a timeout: the child has finished in time and its code is returned, or it is killed, and not more than 10 ms too
    early.  Either way the handler of SIGCHLD is what it was. *)
Definition C97_timeout_claim : Prop :=
  forall fuel p sl timeout s s', forward sl -> running s -> timeout <> -1000 -> wait fuel p sl (Some timeout) s = Some s' ->
  sigchld s' = Before /\ now s <= now s' /\
  (finished p s' /\ now s' < now s + timeout - 10 \/ timed_out (now s + timeout) s').
Theorem C97_timeout : C97_timeout_claim.
Proof.
  intros fuel p sl timeout s s' Hf (H1 & H2 & H3 & H4) Hm H. unfold wait in H. rewrite H1 in H. cbv zeta in H.
  destruct (Z.eqb_spec timeout (-1000)); [contradiction|].
  destruct (poll fuel p sl (now (set_handler s DoNothing)) timeout (set_handler s DoNothing)) as [[s1 b]|] eqn:E; [|discriminate].
  apply poll_ok in E; simpl; try assumption; [|simpl; lia]. simpl in E. destruct E as (Hn & Hk & E). destruct b.
  - injection H as <-. destruct E as (E1 & E2 & E3). split; [exact E2|]. split; [exact Hn|]. left. tauto.
  - destruct E as (E1 & E2 & E3). injection H as <-. simpl. split; [reflexivity|]. split; [exact Hn|]. right.
    split; [reflexivity|]. simpl. rewrite E2. split; [reflexivity|exact E3].
Qed.

Lemma poll_late p sl start timeout : forward sl -> punctual sl -> forall fuel s s' b, start <= now s ->
  poll fuel p sl start timeout s = Some (s', b) -> now s' <= Z.max (now s) (start + timeout + 100).
Proof.
  intros Hf Hp. induction fuel as [|fuel IH]; intros s s' b Hs H; [discriminate|]. simpl in H.
  destruct (Z.ltb_spec (now s) (start + timeout - 10)) as [Hlt|Hge].
  - destruct (ended p (now s)); [injection H as <- <-; simpl; lia|].
    destruct (Z.ltb_spec (timeout - now s + start) 0); [lia|].
    pose proof (Hp (now s) (timeout - now s + start) ltac:(lia)) as P1. pose proof (Hp (sl (now s) (timeout - now s + start)) 100 ltac:(lia)) as P2.
    pose proof (Hf (now s) (timeout - now s + start)) as F1. pose proof (Hf (sl (now s) (timeout - now s + start)) 100) as F2.
    apply IH in H; simpl in *; lia.
  - injection H as <- <-. lia.
Qed.
(** Waiting takes at most a tenth of a second more than asked for, if sleeping is punctual. *)
Definition C97_soon_claim : Prop :=
  forall fuel p sl timeout s s', forward sl -> punctual sl -> running s -> 0 <= timeout -> wait fuel p sl (Some timeout) s = Some s' ->
  now s' <= now s + timeout + 100.
Theorem C97_soon : C97_soon_claim.
Proof.
  intros fuel p sl timeout s s' Hf Hp (H1 & H2 & H3 & H4) Ht H. unfold wait in H. rewrite H1 in H. cbv zeta in H.
  destruct (Z.eqb_spec timeout (-1000)); [lia|].
  destruct (poll fuel p sl (now (set_handler s DoNothing)) timeout (set_handler s DoNothing)) as [[s1 b]|] eqn:E; [|discriminate].
  apply poll_late in E; try assumption; [|simpl; lia]. simpl in E.
  destruct b; injection H as <-; simpl; lia.
Qed.

Lemma poll_own p sl start timeout e : forward sl -> woken p sl -> punctual sl -> p_ends p = Some e -> e + 100 < start + timeout - 10 ->
  forall fuel s s' b, start <= now s -> now s <= Z.max start (e + 100) -> poll fuel p sl start timeout s = Some (s', b) -> now s < start + timeout - 10 -> b = true.
Proof.
  intros Hf Hw Hp He Hlt. induction fuel as [|fuel IH]; intros s s' b Hs Hb H Hin; [discriminate|]. simpl in H.
  destruct (Z.ltb_spec (now s) (start + timeout - 10)) as [_|Hge]; [|lia].
  destruct (ended p (now s)) eqn:E; [injection H as <- <-; reflexivity|].
  destruct (Z.ltb_spec (timeout - now s + start) 0); [lia|].
  assert (now s < e) as Hne.
  { destruct (Z.lt_ge_cases (now s) e) as [K|K]; [exact K|]. exfalso. assert (ended p (now s) = true) by (apply ended_iff; exists e; auto). congruence. }
  pose proof (Hf (now s) (timeout - now s + start)) as F1. pose proof (Hf (sl (now s) (timeout - now s + start)) 100) as F2.
  pose proof (Hw (now s) (timeout - now s + start) e He ltac:(lia)) as W1.
  pose proof (Hp (sl (now s) (timeout - now s + start)) 100 ltac:(lia)) as P2.
  apply IH in H; simpl in *; try lia. exact H.
Qed.
(** A child that has ended is never killed, if there is any time; and if its end wakes up sleepers, neither is one that
    ends more than 110 ms before the time is up. *)
Definition C97_own_claim : Prop :=
  forall fuel p sl timeout s s' e, forward sl -> running s -> p_ends p = Some e -> wait fuel p sl (Some timeout) s = Some s' ->
  (e <= now s /\ 10 < timeout \/ woken p sl /\ punctual sl /\ e + 110 < now s + timeout /\ 10 < timeout) -> finished p s'.
Theorem C97_own : C97_own_claim.
Proof.
  intros fuel p sl timeout s s' e Hf Hr He H Hc. assert (10 < timeout) as Hm by tauto.
  pose proof (C97_timeout fuel p sl timeout s s' Hf Hr ltac:(lia) H) as (_ & _ & [[K _]|_]); [exact K|].
  destruct Hr as (H1 & H2 & H3 & H4). unfold wait in H. rewrite H1 in H. cbv zeta in H.
  destruct (Z.eqb_spec timeout (-1000)); [lia|].
  destruct (poll fuel p sl (now (set_handler s DoNothing)) timeout (set_handler s DoNothing)) as [[s1 b]|] eqn:E; [|discriminate].
  assert (b = true) as ->.
  { destruct Hc as [[Ha Hb]|(Hw & Hp & Hlt & Ht)].
    - destruct fuel as [|fuel]; [discriminate|]. simpl in E. destruct (Z.ltb_spec (now s) (now s + timeout - 10)); [|lia].
      assert (ended p (now s) = true) as X by (apply ended_iff; exists e; auto). rewrite X in E. injection E as _ <-. reflexivity.
    - eapply (poll_own p sl (now s) timeout e Hf Hw Hp He ltac:(lia)); [| |exact E|]; simpl; lia. }
  apply poll_ok in E; simpl; try assumption; [|simpl; lia]. destruct E as (_ & _ & E & _). injection H as <-. exact E.
Qed.

(** A child that does not end in time is killed. *)
Definition C97_killed_claim : Prop :=
  forall fuel p sl timeout s s', forward sl -> running s -> timeout <> -1000 -> wait fuel p sl (Some timeout) s = Some s' ->
  (forall e, p_ends p = Some e -> now s + timeout - 10 <= e) -> timed_out (now s + timeout) s'.
Theorem C97_killed : C97_killed_claim.
Proof.
  intros fuel p sl timeout s s' Hf Hr Hm H Hl. pose proof (C97_timeout fuel p sl timeout s s' Hf Hr Hm H) as (_ & _ & [[(_ & _ & _ & e & He & Hle) K]|K]); [|exact K].
  specialize (Hl e He). lia.
Qed.

(** Waiting with a timeout ends, and not with an error. *)
Definition C97_ends_claim : Prop :=
  forall p sl timeout s, passes sl -> forward sl -> running s -> timeout <> -1000 ->
  exists fuel s', wait fuel p sl (Some timeout) s = Some s'.
Lemma poll_ends p sl start timeout : passes sl -> forward sl -> forall fuel s, start + timeout - 10 - now s < Z.of_nat fuel -> 0 < Z.of_nat fuel ->
  poll fuel p sl start timeout s <> None.
Proof.
  intros Hp Hf. induction fuel as [|fuel IH]; intros s H H0; [lia|]. simpl.
  destruct (Z.ltb_spec (now s) (start + timeout - 10)) as [Hlt|]; [|discriminate].
  destruct (ended p (now s)); [discriminate|].
  destruct (Z.ltb_spec (timeout - now s + start) 0); [lia|].
  pose proof (Hf (now s) (timeout - now s + start)). pose proof (Hp (sl (now s) (timeout - now s + start)) 100 ltac:(lia)).
  apply IH; simpl; lia.
Qed.
Theorem C97_ends : C97_ends_claim.
Proof.
  intros p sl timeout s Hp Hf (H1 & H2 & H3 & H4) Hm. exists (S (Z.to_nat timeout)). unfold wait. rewrite H1. cbv zeta.
  destruct (Z.eqb_spec timeout (-1000)); [contradiction|].
  pose proof (poll_ends p sl (now s) timeout Hp Hf (S (Z.to_nat timeout)) (set_handler s DoNothing) ltac:(simpl now; lia) ltac:(lia)) as H.
  change (now (set_handler s DoNothing)) with (now s).
  destruct (poll (S (Z.to_nat timeout)) p sl (now s) timeout (set_handler s DoNothing)) as [[s1 b]|]; [|congruence].
  destruct b; eexists; reflexivity.
Qed.

Definition fresh : state := State 0 None false None Before.
Lemma fresh_running : running fresh. Proof. repeat split. Qed.
(** Sleeps that signals do not interrupt, as since Python 3.5. *)
Definition sound_sleep : sleeper := fun t d => t + Z.max 0 d.
(** Sleeps that the end of a child at [e] interrupts. *)
Definition light_sleep (e : Z) : sleeper := fun t d => if (t <? e) && (e <=? t + d) then e else t + Z.max 0 d.

(** FALSE: a child that ends within the timeout is not killed.  Its end is looked for once and then only after the whole
    timeout, when it is taken for one that runs. *)
Definition C97_in_time_claim : Prop :=
  forall fuel p sl timeout s s' e, forward sl -> punctual sl -> passes sl -> running s -> p_ends p = Some e ->
  wait fuel p sl (Some timeout) s = Some s' -> e + 1000 <= now s + timeout -> rc s' = Some (p_code p).
Theorem C97_in_time_refuted : ~ C97_in_time_claim.
Proof.
  intros H. specialize (H 5%nat (Proc (Some 20) 0) sound_sleep 60000 fresh (State 60100 (Some (-9)) false (Some 60100) Before) 20).
  assert (Some (-9) = Some 0); [|discriminate].
  apply H; try reflexivity; try (simpl; lia); try apply fresh_running; intros t d; unfold sound_sleep; lia.
Qed.
(** FALSE: at least if its end wakes up sleepers. *)
Definition C97_woken_claim : Prop :=
  forall fuel p sl timeout s s' e, forward sl -> punctual sl -> woken p sl -> running s -> p_ends p = Some e ->
  wait fuel p sl (Some timeout) s = Some s' -> e <= now s + timeout - 50 -> rc s' = Some (p_code p).
Theorem C97_woken_refuted : ~ C97_woken_claim.
Proof.
  intros H. specialize (H 5%nat (Proc (Some 940) 0) (light_sleep 940) 1000 fresh (State 1040 (Some (-9)) false (Some 1040) Before) 940).
  assert (Some (-9) = Some 0); [|discriminate].
  apply H; try reflexivity; try (simpl; lia); try apply fresh_running.
  - intros t d. unfold light_sleep. destruct (Z.ltb_spec t 940); simpl; [destruct (Z.leb_spec 940 (t + d))|]; lia.
  - intros t d Hd. unfold light_sleep. destruct (Z.ltb_spec t 940); simpl; [destruct (Z.leb_spec 940 (t + d))|]; lia.
  - intros t d e [= <-] Hd. unfold light_sleep. destruct (Z.ltb_spec t 940); simpl; [destruct (Z.leb_spec 940 (t + d))|]; lia.
Qed.
(** FALSE: a child that was killed is waited for; its entry stays in the table of processes. *)
Definition C97_reaped_claim : Prop :=
  forall fuel p sl timeout s s', forward sl -> running s -> wait fuel p sl (Some timeout) s = Some s' -> reaped s' = true.
Theorem C97_reaped_refuted : ~ C97_reaped_claim.
Proof.
  intros H. specialize (H 5%nat (Proc None 0) sound_sleep 1000 fresh (State 1100 (Some (-9)) false (Some 1100) Before)).
  assert (false = true); [|discriminate]. apply H; try reflexivity; [|apply fresh_running]. intros t d. unfold sound_sleep. lia.
Qed.

Example C97_example :
  running fresh /\ forward (light_sleep 300) /\ punctual (light_sleep 300) /\ woken (Proc (Some 300) 7) (light_sleep 300) /\ passes sound_sleep /\
  wait 5 (Proc (Some 300) 7) (light_sleep 300) (Some 1000) fresh = Some (State 400 (Some 7) true None Before) /\
  wait 5 (Proc None 7) sound_sleep (Some 1000) fresh = Some (State 1100 (Some (-9)) false (Some 1100) Before) /\
  wait 5 (Proc (Some 300) 7) sound_sleep None fresh = Some (State 300 (Some 7) true None Before).
Proof.
  split; [apply fresh_running|]. split; [|split; [|split; [|split; [|split; [reflexivity|split; reflexivity]]]]].
  - intros t d. unfold light_sleep. destruct (Z.ltb_spec t 300); simpl; [destruct (Z.leb_spec 300 (t + d))|]; lia.
  - intros t d Hd. unfold light_sleep. destruct (Z.ltb_spec t 300); simpl; [destruct (Z.leb_spec 300 (t + d))|]; lia.
  - intros t d e [= <-] Hd. unfold light_sleep. destruct (Z.ltb_spec t 300); simpl; [destruct (Z.leb_spec 300 (t + d))|]; lia.
  - intros t d Hd. unfold sound_sleep. lia.
Qed.

Print Assumptions C97_known.
Print Assumptions C97_forever.
Print Assumptions C97_timeout.
Print Assumptions C97_soon.
Print Assumptions C97_own.
Print Assumptions C97_killed.
Print Assumptions C97_ends.
Print Assumptions C97_in_time_refuted.
Print Assumptions C97_woken_refuted.
Print Assumptions C97_reaped_refuted.
