(** Property C64: joining the RPC service (lib/fbuild/rpc.py:123-132), of every interleaving in
    which no handler ends with an exception that is not an Exception and one thread joins. *)
From Coq Require Import List Bool Arith Lia.
From Verif Require Import RpcModel RpcFacts RpcLive RpcJoin PropsRpc.
Import ListNotations.

Lemma trace_one s l s' : step s l = Some s' -> s_trace s' = s_trace s \/ exists e, s_trace s' = e :: s_trace s.
Proof.
  intros Hs. destruct l as [u|u a|u|u|o]; cbn in Hs.
  - destruct (s_client s u); try discriminate. destruct (s_server s); try discriminate. injection Hs as <-. left. reflexivity.
  - destruct (s_client s u); try discriminate. injection Hs as <-. left. reflexivity.
  - destruct (s_client s u); try discriminate. injection Hs as <-. right. exists (EJoin u). reflexivity.
  - unfold client_step in Hs. destruct (s_client s u); try discriminate;
      try (destruct (s_started s); [|discriminate]); try (destruct (s_lock s); [discriminate|]); try (destruct (s_event s u); [|discriminate]);
      try (destruct (s_unfinished s); [|discriminate]); try (destruct (s_server s); try discriminate; []); try destruct (s_running s);
      injection Hs as <-; cbn; (left; reflexivity) || (right; eexists; reflexivity).
  - unfold server_step in Hs. destruct (s_server s) as [| | | |[|]| | | |]; try discriminate; try (destruct (s_queue s); [discriminate|]);
      injection Hs as <-; cbn; (left; reflexivity) || (right; eexists; reflexivity).
Qed.
(** The state just after an event. *)
Lemma moment ls : forall s s' tr1 e tr2, runs s ls = Some s' -> s_trace s' = tr1 ++ e :: tr2 ->
  length (s_trace s) <= length tr2 ->
  exists ls1 ls2 s1, ls = ls1 ++ ls2 /\ runs s ls1 = Some s1 /\ s_trace s1 = e :: tr2 /\ runs s1 ls2 = Some s'.
Proof.
  induction ls as [|l ls IH]; intros s s' tr1 e tr2 H Et Hl; cbn in H.
  - injection H as <-. exfalso. apply f_equal with (f := @length _) in Et. rewrite app_length in Et. cbn in Et. lia.
  - destruct (step s l) as [s1|] eqn:E; [|discriminate].
    assert (length (s_trace s1) <= length tr2 \/ length (s_trace s1) = S (length tr2)) as [Hl1|Hl1].
    { destruct (trace_one _ _ _ E) as [->|[e' ->]]; cbn; lia. }
    + destruct (IH s1 s' tr1 e tr2 H Et Hl1) as (ls1 & ls2 & s2 & H1 & H2 & H3 & H4).
      exists (l :: ls1), ls2, s2. subst ls. cbn. rewrite E. auto.
    + exists [l], ls, s1. cbn. rewrite E. repeat split; auto.
      destruct (trace_runs _ _ _ H) as [tr Ht]. rewrite Et in Ht. clear -Ht Hl1. revert tr1 Ht. induction tr as [|x tr IH]; intros tr1 Ht.
      * destruct tr1 as [|y tr1]; cbn in Ht; [auto|]. rewrite <- Ht in Hl1. cbn in Hl1. rewrite app_length in Hl1. cbn in Hl1. lia.
      * destruct tr1 as [|y tr1]; cbn in Ht; injection Ht as _ Ht; [|exact (IH _ Ht)]. rewrite Ht, app_length in Hl1. lia.
Qed.
Lemma runs_app ls1 ls2 : forall s, runs s (ls1 ++ ls2) = match runs s ls1 with Some s1 => runs s1 ls2 | None => None end.
Proof. induction ls1 as [|l ls1 IH]; intros s; cbn; [reflexivity|]. destruct (step s l); auto. Qed.
(** A dead service accepts and handles nothing. *)
Lemma dead_step s l s' : live s -> s_server s = SDead -> step s l = Some s' ->
  s_server s' = SDead /\ puts (s_trace s') = puts (s_trace s) /\ handles (s_trace s') = handles (s_trace s).
Proof.
  intros [L1 L2] Hd Hs. rewrite Hd in L2. cbn in L2. destruct L2 as (Hr & _ & Hg).
  destruct l as [u|u a|u|u|o]; cbn in Hs.
  - destruct (s_client s u); try discriminate. rewrite Hd in Hs. discriminate.
  - destruct (s_client s u); try discriminate. injection Hs as <-. auto.
  - destruct (s_client s u); try discriminate. injection Hs as <-. auto.
  - unfold client_step in Hs. specialize (Hg u). destruct (s_client s u) as [| |a|a|a|c|c| | | | |]; try discriminate; try (destruct (Hg a eq_refl));
      try (destruct (s_started s); [|discriminate]); try (destruct (s_lock s); [discriminate|]); try (destruct (s_event s u); [|discriminate]);
      try (destruct (s_unfinished s); [|discriminate]); try rewrite Hd in Hs; try rewrite Hr in Hs;
      injection Hs as <-; cbn; auto.
  - unfold server_step in Hs. rewrite Hd in Hs. discriminate.
Qed.
Lemma dead_runs ls : forall s s', live s -> s_server s = SDead -> Forall nonfatal ls -> runs s ls = Some s' ->
  puts (s_trace s') = puts (s_trace s) /\ handles (s_trace s') = handles (s_trace s).
Proof.
  induction ls as [|l ls IH]; intros s s' L Hd Hn H; cbn in H; [injection H as <-; auto|].
  apply Forall_cons_iff in Hn. destruct Hn as [Hn1 Hn]. destruct (step s l) as [s1|] eqn:E; [|discriminate].
  destruct (dead_step s l s1 L Hd E) as (H1 & H2 & H3). destruct (IH s1 s' (live_step s l s1 L Hn1 E) H1 Hn H) as [H4 H5]. split; congruence.
Qed.

Lemma puts_app tr1 tr2 : puts (tr1 ++ tr2) = puts tr2 ++ puts tr1.
Proof. induction tr1 as [|e tr1 IH]; cbn; [symmetry; apply app_nil_r|]. destruct e; cbn; auto. rewrite IH. symmetry. apply app_assoc. Qed.
Lemma handles_app tr1 tr2 : handles (tr1 ++ tr2) = handles tr2 ++ handles tr1.
Proof. induction tr1 as [|e tr1 IH]; cbn; [symmetry; apply app_nil_r|]. destruct e; cbn; auto. rewrite IH. symmetry. apply app_assoc. Qed.

(** C64: when join returns and a request was accepted before, then every accepted request has
    been handled before, and afterwards none is accepted or handled. *)
Theorem C64_drained t ls s tr1 tr2 : Forall nonfatal ls -> Forall (only_joins t) ls -> runs init ls = Some s ->
  s_trace s = tr1 ++ EJoined t :: tr2 -> (exists u c a, In (EPut u c a) tr2) ->
  (forall u c a, In (EPut u c a) tr2 -> exists o, In (EHandle c a o) tr2) /\
  (forall u c a, ~ In (EPut u c a) tr1) /\ (forall c a o, ~ In (EHandle c a o) tr1).
Proof.
  intros Hn Ho H Et (u0 & c0 & a0 & Hp).
  destruct (moment ls init s tr1 (EJoined t) tr2 H Et (Nat.le_0_l _)) as (ls1 & ls2 & s1 & -> & H1 & Et1 & H2).
  apply Forall_app in Hn. apply Forall_app in Ho. destruct Hn as [Hn1 Hn2], Ho as [Ho1 Ho2].
  destruct (alone_runs t ls1 init s1 live_init (alone_init t) Hn1 Ho1 H1) as [L A].
  assert (puts tr2 <> []) as Hne.
  { intros E. assert (In (c0, a0) (puts tr2)) as Hin by (apply puts_in; eauto). rewrite E in Hin. destruct Hin. }
  destruct (o_joined t s1 A [] tr2 Et1 Hne) as [Hd Hq].
  pose proof (inv_runs init ls1 s1 inv_init H1) as I. pose proof (i_order _ I) as Hord. rewrite Hd, Hq, Et1 in Hord. cbn in Hord. rewrite app_nil_r in Hord.
  destruct (dead_runs ls2 s1 s L Hd Hn2 H2) as [H3 H4].
  rewrite Et1, Et, puts_app in H3. rewrite Et1, Et, handles_app in H4. cbn in H3, H4.
  assert (puts tr1 = []) as Hp1 by (apply (app_inv_head (puts tr2)); rewrite app_nil_r; exact H3).
  assert (handles tr1 = []) as Hh1 by (apply (app_inv_head (handles tr2)); rewrite app_nil_r; exact H4).
  split; [|split].
  - intros u c a Hin. apply handles_in. rewrite <- Hord. apply puts_in. eauto.
  - intros u c a Hin. assert (In (c, a) (puts tr1)) as Hx by (apply puts_in; eauto). rewrite Hp1 in Hx. destruct Hx.
  - intros c a o Hin. assert (In (c, a) (handles tr1)) as Hx by (apply handles_in; eauto). rewrite Hh1 in Hx. destruct Hx.
Qed.

(** Once join holds the lock, a bounded number of steps of its thread and of the server ends it,
    whatever the other threads do in between ... *)
Theorem C64_bounded t ls s ls' s' : Forall nonfatal ls -> Forall (only_joins t) ls -> runs init ls = Some s ->
  s_lock s = Some t -> (s_client s t = JPut \/ s_client s t = JQueue \/ s_client s t = JThread) ->
  Forall nonfatal ls' -> Forall (only_joins t) ls' -> runs s ls' = Some s' ->
  4 * length (s_queue s) + 10 <= length (filter (drives t) ls') ->
  exists tr, s_trace s' = tr ++ s_trace s /\ In (EJoined t) tr.
Proof.
  intros Hn Ho H _ Hc Hn' Ho' H' Hb.
  destruct (alone_runs t ls init s live_init (alone_init t) Hn Ho H) as [L A].
  assert (inside (s_client s t) = true) as Hi by (destruct Hc as [->|[->| ->]]; reflexivity).
  destruct (inside_runs t ls' s s' L A Hn' Ho' Hi H') as [[H1 H2]|H1]; [exfalso|exact H1].
  apply inside_left in H1. revert H2 H1. unfold left_over at 2.
  assert (left_server (s_server s) <= 3) as Hs by (destruct (s_server s) as [| | | | | |[|]| |]; cbn; lia).
  assert (left_client (s_client s t) <= 7) as Hcl by (destruct (s_client s t); cbn; lia). lia.
Qed.
(** ... and such a step can always be taken; before that, whoever has the lock can go on. *)
Theorem C64_unblocked t ls s o : Forall nonfatal ls -> Forall (only_joins t) ls -> runs init ls = Some s ->
  match s_client s t with
  | JCheck => step s (LClient t) <> None
  | JPut | JQueue | JThread => step s (LClient t) <> None \/ step s (LServer o) <> None
  | JLock => step s (LClient t) <> None \/ exists u, s_lock s = Some u /\ step s (LClient u) <> None
  | _ => True
  end.
Proof.
  intros Hn Ho H. destruct (alone_runs t ls init s live_init (alone_init t) Hn Ho H) as [L A].
  destruct (s_client s t) eqn:E; try exact I.
  - cbn. unfold client_step. rewrite E. destruct (s_running s); discriminate.
  - exact (waiting_enabled t s L A E).
  - apply inside_enabled; auto. rewrite E. reflexivity.
  - apply inside_enabled; auto. rewrite E. reflexivity.
  - apply inside_enabled; auto. rewrite E. reflexivity.
Qed.
(** task_done is called once for every message taken from the queue, so that queue.join waits
    for exactly those queued and the one being handled. *)
Theorem C64_unfinished t ls s : Forall nonfatal ls -> Forall (only_joins t) ls -> runs init ls = Some s ->
  s_unfinished s = length (s_queue s) + match s_server s with SGot _ | SRan _ _ _ | SSet _ => 1 | _ => 0 end.
Proof.
  intros Hn Ho H. destruct (alone_runs t ls init s live_init (alone_init t) Hn Ho H) as [_ A]. exact (o_count _ _ A).
Qed.

(** Without an accepted request the claim fails: join called right after start() has returned
    may return while the service goes on and accepts calls. *)
Definition C64_stops : Prop := forall t ls s tr1 tr2, Forall nonfatal ls -> Forall (only_joins t) ls -> runs init ls = Some s ->
  s_trace s = tr1 ++ EJoined t :: tr2 -> (exists u, In (EStarted u) tr2) -> forall u c a, ~ In (EPut u c a) tr1.
Theorem C64_stops_refuted : ~ C64_stops.
Proof.
  intros H.
  pose (ls := [LStart 0; LServer (RExc 0); LClient 0; LJoin 0; LClient 0; LServer (RExc 0)] ++ ex_call 0 7).
  destruct (runs init ls) as [s|] eqn:E; [|vm_compute in E; discriminate].
  apply (H 0 ls s [EPut 0 0 7] [EJoin 0; EStarted 0]) with (u := 0) (c := 0) (a := 7).
  - repeat constructor.
  - repeat constructor.
  - exact E.
  - vm_compute in E. injection E as <-. reflexivity.
  - exists 0. right. left. reflexivity.
  - left. reflexivity.
Qed.

(** Two requests queued, then join by another thread; its bound is 4 * 2 + 10 steps. *)
Definition ex_joining : list label := ex_start ++ ex_call 0 7 ++ ex_call 1 8 ++ [LJoin 2; LClient 2; LClient 2].
Definition ex_finish : list label :=
  [LClient 2] ++ ex_serve (RValue (Plain 4)) ++ ex_serve (RExc 3) ++
  [LServer (RExc 0); LServer (RExc 0); LServer (RExc 0); LClient 2; LServer (RExc 0); LClient 2].
Example C64_ex : exists s s',
  runs init ex_joining = Some s /\ s_lock s = Some 2 /\ s_client s 2 = JPut /\ length (s_queue s) = 2 /\
  runs s ex_finish = Some s' /\ length (filter (drives 2) ex_finish) = 15 /\
  s_trace s' = [EJoined 2; EHandle 1 8 (RExc 3); EHandle 0 7 (RValue (Plain 4)); EJoin 2; EPut 1 1 8; EPut 0 0 7; EStarted 0] /\
  Forall nonfatal (ex_joining ++ ex_finish) /\ Forall (only_joins 2) (ex_joining ++ ex_finish).
Proof. eexists. eexists. split; [vm_compute; reflexivity|]. repeat (split; [vm_compute; reflexivity|]). split; repeat constructor. Qed.
(** After it, a call is refused and a further join returns at once. *)
Example C64_ex_after : exists s,
  runs init (ex_joining ++ ex_finish ++ [LCall 3 9; LClient 3; LClient 3; LJoin 2; LClient 2]) = Some s /\
  firstn 3 (s_trace s) = [EJoined 2; EJoin 2; ENotRunning 3].
Proof. eexists. split; vm_compute; reflexivity. Qed.

Print Assumptions C64_drained.
Print Assumptions C64_bounded.
Print Assumptions C64_unblocked.
Print Assumptions C64_unfinished.
Print Assumptions C64_stops_refuted.
