(** Properties of remote procedure calls (lib/fbuild/rpc.py), of every interleaving. *)
From Coq Require Import List Bool Arith Lia.
From Verif Require Import RpcModel RpcFacts RpcLive.
Import ListNotations.

(** C34: requests are handled in the order they were queued. *)
Theorem C34_order ls s : runs init ls = Some s ->
  exists waiting, puts (s_trace s) = handles (s_trace s) ++ waiting.
Proof.
  intros H. pose proof (inv_runs _ _ _ inv_init H) as I. eexists. exact (i_order _ I).
Qed.

(** Each caller is answered with the outcome of its own request, which is handled once. *)
Theorem C34_own ls s t c r : runs init ls = Some s -> In (EAnswer t c r) (s_trace s) ->
  exists a o, In (EPut t c a) (s_trace s) /\ In (EHandle c a o) (s_trace s) /\ r = answer_of (Some o) /\
    (forall a' o', In (EHandle c a' o') (s_trace s) -> a' = a /\ o' = o) /\
    (forall t' a', In (EPut t' c a') (s_trace s) -> t' = t /\ a' = a).
Proof.
  intros H Hr. pose proof (inv_runs _ _ _ inv_init H) as I.
  destruct (i_answer _ I _ _ _ Hr) as (a & o & H1 & H2 & ->). exists a, o.
  split; [exact H1|]. split; [exact H2|]. split; [reflexivity|]. split.
  - intros a' o' H3.
    assert (In (c, a') (puts (s_trace s))) as H4.
    { rewrite (i_order _ I). apply in_app_iff. left. apply handles_in. eauto. }
    apply puts_in in H4. destruct H4 as [t' H4]. destruct (i_owner _ I _ _ _ _ _ H1 H4) as [_ <-].
    split; [reflexivity|].
    assert (s_result s c = Some o) as E1 by (apply (i_result _ I); eauto).
    assert (s_result s c = Some o') as E2 by (apply (i_result _ I); eauto). congruence.
  - intros t' a' H3. destruct (i_owner _ I _ _ _ _ _ H1 H3) as [-> ->]. auto.
Qed.

(** The claim: what the handler returns is returned, what it raises is raised. *)
Definition delivers (o : outcome) (r : answer) : Prop :=
  match o with
  | RValue v => r = AReturn v
  | RExc n | RFatal n => r = ARaise n
  end.
Definition C34_faithful : Prop := forall ls s t c r, runs init ls = Some s ->
  In (EAnswer t c r) (s_trace s) -> exists a o, In (EHandle c a o) (s_trace s) /\ delivers o r.
(** A returned exception instance is raised. *)
Definition ex_start : list label := [LStart 0; LServer (RExc 0); LServer (RExc 0); LClient 0].
Definition ex_call (t : tid) (a : arg) : list label := [LCall t a; LClient t; LClient t; LClient t; LClient t].
Definition ex_serve (o : outcome) : list label := [LServer o; LServer o; LServer o; LServer o].
Theorem C34_faithful_refuted : ~ C34_faithful.
Proof.
  intros H.
  destruct (runs init (ex_start ++ ex_call 0 7 ++ ex_serve (RValue (ExcInstance 5)) ++ [LClient 0])) as [s|] eqn:E;
    [|vm_compute in E; discriminate].
  destruct (H _ s 0 0 (ARaise 5) E) as (a & o & H1 & H2).
  - vm_compute in E. injection E as <-. cbn. auto.
  - vm_compute in E. injection E as <-. cbn in H1. destruct H1 as [H1|[H1|[H1|[H1|[]]]]]; try discriminate.
    injection H1 as <- <-. cbn in H2. discriminate.
Qed.
Theorem C34_faithful_partial ls s t c r : runs init ls = Some s -> In (EAnswer t c r) (s_trace s) ->
  (forall a n, ~ In (EHandle c a (RValue (ExcInstance n))) (s_trace s)) ->
  exists a o, In (EHandle c a o) (s_trace s) /\ delivers o r.
Proof.
  intros H Hr Hn. destruct (C34_own ls s t c r H Hr) as (a & o & _ & H2 & -> & _). exists a, o. split; [exact H2|].
  destruct o as [[n|n]|n|n]; cbn; try reflexivity. destruct (Hn a n H2).
Qed.
(** Two callers, the second queued first. *)
Example C34_ex : exists s,
  runs init (ex_start ++ ex_call 1 8 ++ ex_call 0 7 ++ ex_serve (RExc 3) ++ ex_serve (RValue (Plain 4)) ++
             [LClient 0; LClient 1]) = Some s /\
  In (EAnswer 1 0 (ARaise 3)) (s_trace s) /\ In (EAnswer 0 1 (AReturn (Plain 4))) (s_trace s) /\
  handles (s_trace s) = [(0, 8); (1, 7)].
Proof. eexists. split; [vm_compute; reflexivity|]. cbn. auto 10. Qed.

(** C35, the claim: after start() returned and before join() no call is refused. *)
Definition C35_accepts : Prop := forall ls s tr1 t tr2, runs init ls = Some s ->
  s_trace s = tr1 ++ ENotRunning t :: tr2 -> (exists u, In (EStarted u) tr2) ->
  exists u, In (EJoin u) tr2.
(** _started is set before _running. *)
Theorem C35_accepts_refuted : ~ C35_accepts.
Proof.
  intros H.
  destruct (runs init [LStart 0; LServer (RExc 0); LClient 0; LCall 0 7; LClient 0; LClient 0]) as [s|] eqn:E;
    [|vm_compute in E; discriminate].
  destruct (H _ s [] 0 [EStarted 0] E) as [u Hu].
  - vm_compute in E. injection E as <-. reflexivity.
  - exists 0. left. reflexivity.
  - destruct Hu as [Hu|[]]; discriminate.
Qed.
(** After a call was accepted, calls are refused only if join was called or a handler ended
    with an exception that is not an Exception. *)
Theorem C35_accepts_partial ls s tr1 t tr2 u c a : runs init ls = Some s ->
  s_trace s = tr1 ++ ENotRunning t :: tr2 -> In (EPut u c a) tr2 ->
  ~ (forall e, In e tr2 -> ~ (match e with EHandle _ _ (RFatal _) => True | _ => False end) /\
                           ~ (match e with EJoin _ => True | _ => False end)).
Proof.
  intros H E Hp Hc. exact (a_refused _ (accepts_runs _ _ _ accepts_init H) tr1 t tr2 E Hc u c a Hp).
Qed.
Example C35_ex : exists s,
  runs init (ex_start ++ ex_call 0 7 ++ ex_serve (RFatal 2) ++ [LServer (RExc 0); LClient 0; LCall 1 8; LClient 1; LClient 1]) = Some s /\
  s_trace s = [ENotRunning 1; EAnswer 0 0 (ARaise 2); EHandle 0 7 (RFatal 2); EPut 0 0 7; EStarted 0].
Proof. eexists. split; vm_compute; reflexivity. Qed.

(** C36, the claim: a queued request can always still be answered. *)
Definition C36_answered : Prop := forall ls s t c a, runs init ls = Some s -> In (EPut t c a) (s_trace s) ->
  exists ls' s' r, runs s ls' = Some s' /\ In (EAnswer t c r) (s_trace s').
(** After a fatal handler nobody takes the next requests. *)
Definition stranded (s : state) (t : tid) (c : call) : Prop :=
  s_server s = SDead /\ s_client s t = CWait c /\ s_event s t = false /\
  (forall r, ~ In (EAnswer t c r) (s_trace s)).
Lemma stranded_step s l s' t c : step s l = Some s' -> stranded s t c -> stranded s' t c.
Proof.
  intros E (H1 & H2 & H3 & H4).
  destruct l as [u|u a|u|u|o].
  5: cbn in E; unfold server_step in E; rewrite H1 in E; discriminate.
  all: destruct (Nat.eq_dec t u) as [<-|Hne].
  1,3,5: cbn in E; rewrite H2 in E; discriminate.
  - cbn in E. rewrite H1 in E. destruct (s_client s u); discriminate.
  - cbn in E. destruct (s_client s u); try discriminate. injection E as <-. repeat split; cbn; auto.
    rewrite upd_other by exact Hne. exact H2.
  - cbn in E. destruct (s_client s u); try discriminate. injection E as <-. repeat split; cbn; auto.
    + rewrite upd_other by exact Hne. exact H2.
    + intros r [H|H]; [discriminate|exact (H4 r H)].
  - cbn in E. unfold client_step in E. rewrite H2, H3 in E. discriminate.
  - cbn in E. unfold client_step in E. rewrite H1 in E.
    repeat match type of E with context [match ?x with _ => _ end] => destruct x; try discriminate end;
      injection E as <-; repeat split; cbn; rewrite ?upd_other by exact Hne; auto;
      intros r [H|H]; try (injection H as <- _ _; congruence); try discriminate; exact (H4 r H).
Qed.
Theorem C36_answered_refuted : ~ C36_answered.
Proof.
  intros H.
  destruct (runs init (ex_start ++ ex_call 0 7 ++ ex_call 1 8 ++ ex_serve (RFatal 2) ++ [LServer (RExc 0)])) as [s|] eqn:E;
    [|vm_compute in E; discriminate].
  destruct (H _ s 1 1 8 E) as (ls' & s' & r & Hr & Ha).
  - vm_compute in E. injection E as <-. cbn. auto.
  - assert (stranded s 1 1) as Hst.
    { vm_compute in E. injection E as <-. repeat split; cbn; auto.
      intros r' [H'|[H'|[H'|[H'|[]]]]]; discriminate. }
    clear E. assert (forall ls s, stranded s 1 1 -> runs s ls = Some s' -> stranded s' 1 1) as Hall.
    { intros ls. induction ls as [|l ls IH]; intros s0 H0 H1; cbn in H1; [injection H1 as <-; exact H0|].
      destruct (step s0 l) as [s1|] eqn:E; [|discriminate]. apply (IH s1); [|exact H1].
      apply (stranded_step s0 l); assumption. }
    destruct (Hall _ _ Hst Hr) as (_ & _ & _ & Hn). exact (Hn r Ha).
Qed.

(** Two joins: the second waits for a dead server with the lock held, and so does every
    later caller. *)
Definition C36_caller : Prop := forall ls s t a, runs init ls = Some s -> s_client s t = CLock a ->
  exists ls' s', runs s ls' = Some s' /\ s_client s' t = CIdle.
Definition locked (s : state) (t : tid) (a : arg) : Prop :=
  s_server s = SDead /\ s_lock s = Some 9 /\ s_client s 9 = JQueue /\ s_unfinished s <> 0 /\ s_client s t = CLock a /\
  (forall u, u <> 9 -> holds (s_client s u) = false).
Lemma locked_step s l s' t a : step s l = Some s' -> locked s t a -> locked s' t a.
Proof.
  intros E (H1 & H2 & H3 & H4 & H5 & H6).
  assert (t <> 9) as Ht by (intros ->; congruence).
  assert (forall u x, u <> 9 -> u <> t -> holds x = false -> s_server s' = s_server s -> s_lock s' = s_lock s ->
            s_client s' = upd (s_client s) u x -> s_unfinished s' = s_unfinished s -> locked s' t a) as Hmove.
  { intros u x Hu Hut Hx E1 E2 E3 E4. unfold locked. rewrite E1, E2, E3, E4.
    rewrite (upd_other _ u x 9) by congruence. rewrite (upd_other _ u x t) by congruence.
    repeat split; auto. intros v Hv. destruct (upd_cases (s_client s) u x v) as [[-> Ev]|[_ Ev]]; rewrite Ev; auto. }
  destruct l as [u|u b|u|u|o].
  5: cbn in E; unfold server_step in E; rewrite H1 in E; discriminate.
  1-3: destruct (Nat.eq_dec u 9) as [->|Hu]; [cbn in E; rewrite H3 in E; discriminate|];
       destruct (Nat.eq_dec u t) as [->|Hut]; [cbn in E; rewrite H5 in E; discriminate|].
  - cbn in E. rewrite H1 in E. destruct (s_client s u); discriminate.
  - cbn in E. destruct (s_client s u); try discriminate. injection E as <-.
    apply (Hmove u (CLock b)); auto.
  - cbn in E. destruct (s_client s u); try discriminate. injection E as <-.
    apply (Hmove u JCheck); auto.
  - destruct (Nat.eq_dec u 9) as [->|Hu].
    { cbn in E. unfold client_step in E. rewrite H3 in E. destruct (s_unfinished s); [congruence|discriminate]. }
    destruct (Nat.eq_dec u t) as [->|Hut].
    { cbn in E. unfold client_step in E. rewrite H5, H2 in E. discriminate. }
    specialize (H6 u Hu). cbn in E. unfold client_step in E. rewrite H1, H2 in E.
    destruct (s_client s u) eqn:Eu; try discriminate.
    + destruct (s_started s); [|discriminate]. injection E as <-. apply (Hmove u CIdle); auto.
    + destruct (s_event s u); [|discriminate]. injection E as <-. apply (Hmove u CIdle); auto.
    + destruct (s_running s); injection E as <-; [apply (Hmove u JLock)|apply (Hmove u CIdle)]; auto.
Qed.
Theorem C36_caller_refuted : ~ C36_caller.
Proof.
  intros H.
  destruct (runs init (ex_start ++ [LJoin 8; LClient 8; LJoin 9; LClient 9; LClient 8; LClient 8] ++
    ex_serve (RExc 0) ++ [LClient 8; LClient 8; LClient 9; LClient 9; LCall 1 7])) as [s|] eqn:E;
    [|vm_compute in E; discriminate].
  assert (locked s 1 7) as Hl.
  { vm_compute in E. injection E as <-. repeat split; cbn; auto.
    intros u Hu. do 9 (destruct u as [|u]; [reflexivity|]). destruct u as [|u]; [congruence|reflexivity]. }
  destruct (H _ s 1 7 E) as (ls' & s' & Hr & Hi); [apply Hl|].
  assert (forall ls s, locked s 1 7 -> runs s ls = Some s' -> locked s' 1 7) as Hall.
  { intros ls. induction ls as [|l ls IH]; intros s0 H0 H1; cbn in H1; [injection H1 as <-; exact H0|].
    destruct (step s0 l) as [s1|] eqn:E1; [|discriminate]. apply (IH s1); [|exact H1].
    apply (locked_step s0 l); assumption. }
  destruct (Hall _ _ Hl Hr) as (_ & _ & _ & _ & H5 & _). congruence.
Qed.

(** While every handler ends with a value or an Exception: a queued request is answered
    (the caller has its answer or only needs to take its next step) after a bounded number
    of the server's steps, whatever the other threads do, and until then the server is
    not blocked. *)
Theorem C36_bounded_partial ls s t c a : runs init ls = Some s -> Forall nonfatal ls -> In (EPut t c a) (s_trace s) ->
  exists n, forall ls' s', runs s ls' = Some s' -> Forall nonfatal ls' -> n <= count_server ls' ->
    (exists r, In (EAnswer t c r) (s_trace s')) \/
    (s_client s' t = CPut c \/ s_client s' t = CWait c) /\ s_event s' t = true.
Proof.
  intros H Hn Hp. exists (remaining s c). intros ls' s' Hr Hn' Hc.
  exact (answered_eventually s ls' s' t c a (inv_runs _ _ _ inv_init H) (live_runs _ _ _ live_init Hn H) Hp Hr Hn' Hc).
Qed.
Theorem C36_unblocked_partial ls s t c a : runs init ls = Some s -> Forall nonfatal ls -> In (EPut t c a) (s_trace s) ->
  (exists r, In (EAnswer t c r) (s_trace s)) \/
  (s_client s t = CPut c \/ s_client s t = CWait c) /\ s_event s t = true \/
  forall o, step s (LServer o) <> None.
Proof.
  intros H Hn Hp. destruct (unanswered s t c a (inv_runs _ _ _ inv_init H) Hp) as [[Ha|Ha]|Ha]; auto.
  right. right. intros o. exact (server_enabled s t c o (live_runs _ _ _ live_init Hn H) Ha).
Qed.
Example C36_partial_ex : exists s,
  runs init (ex_start ++ ex_call 0 7 ++ ex_call 1 8 ++ [LJoin 8; LClient 8; LClient 8; LClient 8]) = Some s /\
  Forall nonfatal (ex_start ++ ex_call 0 7 ++ ex_call 1 8 ++ [LJoin 8; LClient 8; LClient 8; LClient 8]) /\
  In (EPut 1 1 8) (s_trace s) /\ s_event s 1 = false.
Proof.
  eexists. split; [vm_compute; reflexivity|]. split; [repeat constructor|]. split; [cbn; auto|reflexivity].
Qed.

Print Assumptions C34_order.
Print Assumptions C34_own.
Print Assumptions C34_faithful_refuted.
Print Assumptions C34_faithful_partial.
Print Assumptions C35_accepts_refuted.
Print Assumptions C35_accepts_partial.
Print Assumptions C36_answered_refuted.
Print Assumptions C36_caller_refuted.
Print Assumptions C36_bounded_partial.
Print Assumptions C36_unblocked_partial.
