(** Joining the RPC service while no handler ends fatally and one thread joins. *)
From Coq Require Import List Bool Arith Lia.
From Verif Require Import RpcModel RpcFacts RpcLive.
Import ListNotations.

Definition joins (x : client) : bool :=
  match x with JCheck | JLock | JPut | JQueue | JThread => true | _ => false end.
Definition busy (x : server) : nat :=
  match x with SGot _ | SRan _ _ _ | SSet _ => 1 | _ => 0 end.

(** Where the service can be, by the place of the joining thread. *)
Definition open (x : server) (q : list msg) : Prop := phase_of x = Loop /\ forallb req q = true.
Definition shut (x : server) (q : list msg) : Prop := x = SDead /\ q = [].
Definition fits (c : client) (x : server) (q : list msg) : Prop :=
  match c with
  | JQueue => (phase_of x = Loop /\ exists q0, q = q0 ++ [Null] /\ forallb req q0 = true) \/
              ((phase_of x = Ending \/ x = SDead) /\ q = [])
  | JThread => (x = SFinal \/ x = SDead) /\ q = []
  | JLock | JPut => open x q
  | _ => (phase_of x = Before /\ q = []) \/ open x q \/ shut x q
  end.

Record alone (t : tid) (s : state) : Prop := Alone {
  o_count : s_unfinished s = length (s_queue s) + busy (s_server s);
  o_others : forall u, u <> t -> joins (s_client s u) = false;
  o_before : phase_of (s_server s) = Before -> puts (s_trace s) = [];
  o_fits : fits (s_client s t) (s_server s) (s_queue s);
  o_joined : forall tr1 tr2, s_trace s = tr1 ++ EJoined t :: tr2 -> puts tr2 <> [] -> shut (s_server s) (s_queue s)
}.
Definition only_joins (t : tid) (l : label) : Prop := match l with LJoin u => u = t | _ => True end.

Lemma alone_init t : alone t init.
Proof.
  split; cbn; auto. intros [|e tr1] tr2 H; discriminate H.
Qed.

(** A client's step that touches neither server nor queue. *)
Lemma alone_client t s u x lk es :
  alone t s -> (u <> t -> joins x = false) -> (u = t -> fits x (s_server s) (s_queue s)) ->
  puts (es ++ s_trace s) = puts (s_trace s) ->
  (forall v, In (EJoined v) es -> v = t -> es = [EJoined t] /\ (puts (s_trace s) <> [] -> shut (s_server s) (s_queue s))) ->
  alone t (St (s_server s) (upd (s_client s) u x) lk (s_queue s) (s_unfinished s) (s_started s) (s_running s)
         (s_event s) (s_result s) (s_next s) (es ++ s_trace s)).
Proof.
  intros [A1 A2 A3 A4 A5] Ho Ht Hp Hj. split; cbn [s_unfinished s_queue s_server s_client s_trace].
  - exact A1.
  - intros v Hv. destruct (upd_cases (s_client s) u x v) as [[-> E]|[_ E]]; rewrite E; auto.
  - rewrite Hp. exact A3.
  - destruct (upd_cases (s_client s) u x t) as [[-> E]|[_ E]]; rewrite E; auto.
  - intros tr1 tr2 E Hn.
    assert (In (EJoined t) es \/ exists tr0, s_trace s = tr0 ++ EJoined t :: tr2) as [Hin|[tr0 E0]].
    { clear -E. revert tr1 E. induction es as [|e es IH]; intros tr1 E; [right; exists tr1; exact E|].
      destruct tr1 as [|e1 tr1]; cbn in E; [injection E as -> _; left; left; reflexivity|injection E as _ E].
      destruct (IH _ E) as [H|H]; [left; right; exact H|right; exact H]. }
    + destruct (Hj t Hin eq_refl) as [-> Hs]. destruct tr1 as [|e1 tr1]; cbn in E.
      * injection E as E. apply Hs. rewrite E. exact Hn.
      * injection E as _ E. exact (A5 _ _ E Hn).
    + exact (A5 _ _ E0 Hn).
Qed.

Lemma fits_idle c x q : joins c = false -> fits c x q -> forall c', joins c' = false -> fits c' x q.
Proof. destruct c; try discriminate; cbn; intros _ H c'; destruct c'; try discriminate; cbn; auto. Qed.
Lemma puts_none tr : puts tr = [] -> forall tr1 t tr2, tr = tr1 ++ EJoined t :: tr2 -> puts tr2 = [].
Proof.
  intros H tr1 t tr2 ->. induction tr1 as [|e tr1 IH]; [exact H|]. apply IH. destruct e; cbn in *; auto.
  destruct (puts (tr1 ++ EJoined t :: tr2)); [reflexivity|discriminate].
Qed.

Lemma alone_step t s l s' :
  live s -> alone t s -> nonfatal l -> only_joins t l -> step s l = Some s' -> alone t s'.
Proof.
  intros L A Hn Ho Hs. pose proof L as [L1 L2]. pose proof A as [A1 A2 A3 A4 A5].
  destruct l as [u|u a|u|u|o]; cbn in Hs.
  - destruct (s_client s u) eqn:E; try discriminate. destruct (s_server s) eqn:Es; try discriminate. injection Hs as <-.
    assert (forall v, upd (s_client s) u CStart v = s_client s v \/ s_client s v = CIdle /\ upd (s_client s) u CStart v = CStart) as Hu.
    { intros v. destruct (upd_cases (s_client s) u CStart v) as [[-> Ev]|[_ Ev]]; rewrite Ev; auto. }
    split; cbn.
    + exact A1.
    + intros v Hv. destruct (Hu v) as [->|[_ ->]]; [auto|reflexivity].
    + intros _. apply A3. reflexivity.
    + destruct (Hu t) as [->|[E' ->]].
      * destruct (s_client s t) eqn:Et; cbn in *; try (left; split; [reflexivity|]; destruct A4 as [[_ H]|[[H _]|[H _]]]; [exact H|discriminate H|discriminate H]).
        -- destruct A4; discriminate.
        -- destruct A4; discriminate.
        -- destruct A4 as [[H _]|[[H|H] _]]; discriminate.
        -- destruct A4 as [[H|H] _]; discriminate.
      * rewrite E' in A4. cbn in *. left. split; [reflexivity|]. destruct A4 as [[_ H]|[[H _]|[H _]]]; [exact H|discriminate H|discriminate H].
    + intros tr1 tr2 Et Hp. destruct Hp. apply (puts_none _ (A3 eq_refl) _ _ _ Et).
  - destruct (s_client s u) eqn:E; try discriminate. injection Hs as <-.
    apply (alone_client t s u (CLock a) (s_lock s) []); try reflexivity; [exact A| |intros v []].
    intros ->. apply (fits_idle (s_client s t)); [rewrite E; reflexivity|exact A4|reflexivity].
  - cbn in Ho. subst u. destruct (s_client s t) eqn:E; try discriminate. injection Hs as <-.
    apply (alone_client t s t JCheck (s_lock s) [EJoin t]); try reflexivity; [exact A|congruence| |intros v [H|[]]; discriminate H].
    intros _. exact A4.
  - unfold client_step in Hs. pose proof (A2 u) as Au. destruct (s_client s u) as [| |a|a|a|c|c| | | | |] eqn:E; try discriminate.
    + destruct (s_started s) eqn:Es; [|discriminate]. injection Hs as <-. unfold note, set_client; cbn. rewrite Es.
      pose proof (alone_client t s u CIdle (s_lock s) [EStarted u]) as H. rewrite Es in H. apply H; try reflexivity; [exact A| |intros v [H'|[]]; discriminate H'].
      intros ->. apply (fits_idle (s_client s t)); [rewrite E; reflexivity|exact A4|reflexivity].
    + destruct (s_lock s) eqn:El; [discriminate|]. injection Hs as <-.
      apply (alone_client t s u (CCheck a) (Some u) []); try reflexivity; [exact A| |intros v []].
      intros ->. apply (fits_idle (s_client s t)); [rewrite E; reflexivity|exact A4|reflexivity].
    + destruct (s_running s) eqn:Er; injection Hs as <-.
      * pose proof (alone_client t s u (CGo a) (s_lock s) []) as H. rewrite Er in H. unfold set_client. rewrite Er.
        apply H; try reflexivity; [exact A| |intros v []].
        intros ->. apply (fits_idle (s_client s t)); [rewrite E; reflexivity|exact A4|reflexivity].
      * pose proof (alone_client t s u CIdle None [ENotRunning u]) as H. rewrite Er in H. unfold note, set_lock, set_client; cbn. rewrite Er.
        apply H; try reflexivity; [exact A| |intros v [H'|[]]; discriminate H'].
        intros ->. apply (fits_idle (s_client s t)); [rewrite E; reflexivity|exact A4|reflexivity].
    + injection Hs as <-.
      assert (s_lock s = Some u) as Hl by (apply L1; rewrite E; reflexivity).
      assert (open (s_server s) (s_queue s)) as [Hop Hq].
      { destruct (phase_of (s_server s)) eqn:Ep.
        - destruct L2 as (_ & _ & H). specialize (H u). rewrite E in H. discriminate H.
        - split; [exact Ep|]. destruct L2 as (_ & [H|[(v & H1 & H2) _]]); [exact H|].
          assert (v = u) as -> by congruence. rewrite E in H2. destruct H2; discriminate.
        - destruct L2 as (_ & _ & v & H1 & H2). assert (v = u) as -> by congruence. rewrite E in H2. destruct H2; discriminate.
        - destruct L2 as (_ & _ & H). destruct (H u a E).
        - destruct L2. }
      assert (forallb req (s_queue s ++ [Req u (s_next s) a]) = true) as Hq' by (rewrite forallb_app, Hq; reflexivity).
      assert (s_client s t <> JQueue /\ s_client s t <> JThread) as [Hnq Hnt].
      { split; intros Et; assert (s_lock s = Some t) as Hl' by (apply L1; rewrite Et; reflexivity); assert (u = t) as -> by congruence; congruence. }
      split; cbn [s_unfinished s_queue s_server s_client s_trace].
      * rewrite A1, app_length. cbn. lia.
      * intros v Hv. destruct (upd_cases (s_client s) u (CPut (s_next s)) v) as [[-> Ev]|[_ Ev]]; rewrite Ev; auto.
      * intros H. congruence.
      * destruct (upd_cases (s_client s) u (CPut (s_next s)) t) as [[-> Ev]|[_ Ev]]; rewrite Ev; [right; left; split; assumption|].
        destruct (s_client s t); try (right; left; split; assumption); try (split; assumption); congruence.
      * intros [|e tr1] tr2 Et Hp; [discriminate Et|]. injection Et as _ Et. destruct (A5 _ _ Et Hp) as [H _]. rewrite H in Hop. discriminate Hop.
    + injection Hs as <-. apply (alone_client t s u (CWait c) None []); try reflexivity; [exact A| |intros v []].
      intros ->. apply (fits_idle (s_client s t)); [rewrite E; reflexivity|exact A4|reflexivity].
    + destruct (s_event s u) eqn:Ee; [|discriminate]. injection Hs as <-.
      apply (alone_client t s u CIdle (s_lock s) [EAnswer u c (answer_of (s_result s c))]); try reflexivity; [exact A| |intros v [H'|[]]; discriminate H'].
      intros ->. apply (fits_idle (s_client s t)); [rewrite E; reflexivity|exact A4|reflexivity].
    + assert (u = t) as -> by (destruct (Nat.eq_dec u t) as [H|H]; [exact H|discriminate (Au H)]). rewrite E in A4. cbn in A4.
      destruct (s_running s) eqn:Er; injection Hs as <-.
      * pose proof (alone_client t s t JLock (s_lock s) []) as H. rewrite Er in H. unfold set_client. rewrite Er.
        apply H; try reflexivity; [exact A|congruence| |intros v []]. intros _. cbn.
        destruct A4 as [[H1 H2]|[H1|[H1 H2]]]; [|exact H1|].
        -- rewrite H1 in L2. destruct L2; discriminate.
        -- rewrite H1 in L2. cbn in L2. destruct L2; discriminate.
      * pose proof (alone_client t s t CIdle (s_lock s) [EJoined t]) as H. rewrite Er in H. unfold note, set_client; cbn. rewrite Er.
        apply H; try reflexivity; [exact A|intros _; exact A4|].
        intros v _ _. split; [reflexivity|]. intros Hp. destruct A4 as [[H1 H2]|[[H1 H2]|H1]]; [|rewrite H1 in L2; destruct L2; congruence|exact H1].
        destruct Hp. exact (A3 H1).
    + assert (u = t) as -> by (destruct (Nat.eq_dec u t) as [H|H]; [exact H|discriminate (Au H)]). rewrite E in A4.
      destruct (s_lock s) eqn:El; [discriminate|]. injection Hs as <-.
      apply (alone_client t s t JPut (Some t) []); try reflexivity; [exact A|congruence|intros _; exact A4|intros v []].
    + assert (u = t) as -> by (destruct (Nat.eq_dec u t) as [H|H]; [exact H|discriminate (Au H)]). rewrite E in A4.
      injection Hs as <-. destruct A4 as [H1 H2]. split; cbn [s_unfinished s_queue s_server s_client s_trace].
      * rewrite A1, app_length. cbn. lia.
      * intros v Hv. rewrite upd_other by exact Hv. auto.
      * exact A3.
      * rewrite upd_same. left. split; [exact H1|]. exists (s_queue s). auto.
      * intros tr1 tr2 Et Hp. destruct (A5 _ _ Et Hp) as [H _]. rewrite H in H1. discriminate H1.
    + assert (u = t) as -> by (destruct (Nat.eq_dec u t) as [H|H]; [exact H|discriminate (Au H)]). rewrite E in A4.
      destruct (s_unfinished s) eqn:Eu; [|discriminate]. injection Hs as <-. unfold set_client. rewrite Eu.
      pose proof (alone_client t s t JThread (s_lock s) []) as H. rewrite Eu in H.
      apply H; try reflexivity; [exact A|congruence| |intros v []]. intros _. cbn. cbn in A4.
      destruct A4 as [[H1 (q0 & H2 & H3)]|[[H1|H1] H2]].
      * rewrite H2, app_length in A1. cbn in A1. lia.
      * split; [|exact H2]. left. destruct (s_server s) as [| | | |[|]|? ? [|]|[|]| |]; try discriminate H1; cbn in A1; try lia. reflexivity.
      * split; [right; exact H1|exact H2].
    + assert (u = t) as -> by (destruct (Nat.eq_dec u t) as [H|H]; [exact H|discriminate (Au H)]). rewrite E in A4.
      destruct (s_server s) eqn:Es; try discriminate. injection Hs as <-. unfold note, set_lock, set_client; cbn. rewrite Es.
      pose proof (alone_client t s t CIdle None [EJoined t]) as H. rewrite Es in H.
      destruct A4 as [_ A4].
      apply H; try reflexivity; [exact A|intros _; right; right; split; [reflexivity|exact A4]|].
      intros v _ _. split; [reflexivity|]. intros _. split; [reflexivity|exact A4].
  - unfold server_step in Hs. cbn in Hn.
    assert (forall tr1 tr2, s_trace s = tr1 ++ EJoined t :: tr2 -> puts tr2 <> [] -> s_server s = SDead) as A5' by (intros tr1 tr2 H1 H2; exact (proj1 (A5 _ _ H1 H2))).
    destruct (s_server s) as [| | | |[|t' c a]|t' c [|]|[|]| |] eqn:Es; try discriminate.
    + injection Hs as <-. split; cbn [s_unfinished s_queue s_server s_client s_trace busy phase_of]; [exact A1|exact A2| | |].
      * intros _. exact (A3 eq_refl).
      * destruct (s_client s t); unfold fits, open, shut in *; cbn [phase_of] in *; intuition discriminate.
      * intros tr1 tr2 H1 H2. discriminate (A5' _ _ H1 H2).
    + injection Hs as <-. split; cbn [s_unfinished s_queue s_server s_client s_trace busy phase_of]; [exact A1|exact A2|discriminate| |].
      * assert (s_queue s = [] /\ match s_client s t with JLock | JPut | JQueue | JThread => False | _ => True end) as [Eq Ht].
        { destruct (s_client s t); unfold fits, open, shut in *; cbn [phase_of] in *; intuition discriminate. }
        rewrite Eq. destruct (s_client s t); try contradiction; right; left; split; reflexivity.
      * intros tr1 tr2 H1 H2. discriminate (A5' _ _ H1 H2).
    + destruct (s_queue s) as [|m q] eqn:Eq; [discriminate|]. injection Hs as <-.
      split; cbn [s_unfinished s_queue s_server s_client s_trace].
      * rewrite A1. cbn. lia.
      * exact A2.
      * destruct m; discriminate.
      * assert (open SGet (m :: q) -> open (SGot m) q) as Hop.
        { intros [_ H]. cbn in H. destruct m; [discriminate H|]. split; [reflexivity|exact H]. }
        assert ((phase_of SGet = Before /\ m :: q = []) \/ open SGet (m :: q) \/ shut SGet (m :: q) -> (phase_of (SGot m) = Before /\ q = []) \/ open (SGot m) q \/ shut (SGot m) q) as Hid.
        { intros [[H _]|[H|[H _]]]; [discriminate H|right; left; exact (Hop H)|discriminate H]. }
        destruct (s_client s t); cbn [fits] in *; auto.
        -- destruct A4 as [[_ (q0 & H1 & H2)]|[_ H]]; [|discriminate H]. destruct q0 as [|m0 q0]; cbn in H1; injection H1 as -> ->.
           ++ right. split; [left; reflexivity|reflexivity].
           ++ cbn in H2. apply andb_prop in H2. destruct H2 as [H2 H3]. destruct m0; [discriminate H2|]. left. split; [reflexivity|]. exists q0. auto.
        -- destruct A4 as [[H|H] _]; discriminate H.
      * intros tr1 tr2 H1 H2. discriminate (A5' _ _ H1 H2).
    + injection Hs as <-. split; cbn [s_unfinished s_queue s_server s_client s_trace set_server busy phase_of]; [exact A1|exact A2|discriminate| |].
      * destruct (s_client s t); unfold fits, open, shut in *; cbn [phase_of] in *; intuition discriminate.
      * intros tr1 tr2 H1 H2. discriminate (A5' _ _ H1 H2).
    + injection Hs as <-. rewrite Hn. split; cbn [s_unfinished s_queue s_server s_client s_trace busy phase_of]; [exact A1|exact A2|discriminate| |].
      * destruct (s_client s t); unfold fits, open, shut in *; cbn [phase_of] in *; intuition discriminate.
      * intros [|e tr1] tr2 H1 H2; [discriminate H1|]. injection H1 as _ H1. discriminate (A5' _ _ H1 H2).
    + destruct L2.
    + injection Hs as <-. split; cbn [s_unfinished s_queue s_server s_client s_trace busy phase_of]; [exact A1|exact A2|discriminate| |].
      * destruct (s_client s t); unfold fits, open, shut in *; cbn [phase_of] in *; intuition discriminate.
      * intros tr1 tr2 H1 H2. discriminate (A5' _ _ H1 H2).
    + injection Hs as <-. split; cbn [s_unfinished s_queue s_server s_client s_trace busy phase_of]; [|exact A2|discriminate| |].
      * rewrite A1. cbn. lia.
      * destruct (s_client s t); unfold fits, open, shut in *; cbn [phase_of] in *; intuition discriminate.
      * intros tr1 tr2 H1 H2. discriminate (A5' _ _ H1 H2).
    + injection Hs as <-. split; cbn [s_unfinished s_queue s_server s_client s_trace busy phase_of]; [|exact A2|discriminate| |].
      * rewrite A1. cbn. lia.
      * destruct (s_client s t); unfold fits, open, shut in *; cbn [phase_of] in *; intuition discriminate.
      * intros tr1 tr2 H1 H2. discriminate (A5' _ _ H1 H2).
    + injection Hs as <-. split; cbn [s_unfinished s_queue s_server s_client s_trace busy phase_of]; [exact A1|exact A2|discriminate| |].
      * destruct (s_client s t); unfold fits, open, shut in *; cbn [phase_of] in *; intuition discriminate.
      * intros tr1 tr2 H1 H2. discriminate (A5' _ _ H1 H2).
Qed.
Lemma alone_runs t ls : forall s s', live s -> alone t s -> Forall nonfatal ls -> Forall (only_joins t) ls ->
  runs s ls = Some s' -> live s' /\ alone t s'.
Proof.
  induction ls as [|l ls IH]; intros s s' L A Hn Ho H; cbn in H; [injection H as <-; auto|].
  apply Forall_cons_iff in Hn. apply Forall_cons_iff in Ho. destruct Hn as [Hn1 Hn], Ho as [Ho1 Ho].
  destruct (step s l) as [s1|] eqn:E; [|discriminate]. apply (IH s1 s'); auto; [exact (live_step s l s1 L Hn1 E)|exact (alone_step t s l s1 L A Hn1 Ho1 E)].
Qed.

(** * How long it takes *)
Definition inside (x : client) : bool := match x with JPut | JQueue | JThread => true | _ => false end.
Definition left_server (x : server) : nat :=
  match x with
  | SGot _ => 3 | SRan _ _ _ => 2 | SSet false => 1 | SSet true => 2 | SFinal => 1 | _ => 0
  end.
Definition left_client (x : client) : nat := match x with JPut => 7 | JQueue => 2 | JThread => 1 | _ => 0 end.
Definition left_over (t : tid) (s : state) : nat :=
  4 * length (s_queue s) + left_server (s_server s) + left_client (s_client s t).
Definition drives (t : tid) (l : label) : bool :=
  match l with LServer _ => true | LClient u => Nat.eqb u t | _ => false end.
Lemma inside_step t s l s' :
  live s -> alone t s -> nonfatal l -> inside (s_client s t) = true -> step s l = Some s' ->
  (inside (s_client s' t) = true /\ (if drives t l then S (left_over t s') else left_over t s') = left_over t s) \/
  s_trace s' = EJoined t :: s_trace s.
Proof.
  intros L A Hn Hi Hs. pose proof L as [L1 L2]. pose proof A as [A1 A2 A3 A4 A5].
  assert (s_lock s = Some t) as Hl by (apply L1; destruct (s_client s t); try discriminate Hi; reflexivity).
  assert (phase_of (s_server s) <> Before) as Hb.
  { intros Hb. clear - A4 Hb Hi. destruct (s_client s t); try discriminate Hi; unfold fits, open in A4; destruct (s_server s) as [| | | |[|]|? ? [|]|[|]| |]; try discriminate Hb; cbn [phase_of] in A4; intuition discriminate. }
  destruct l as [u|u a|u|u|o]; cbn in Hs.
  - destruct (s_client s u); try discriminate. destruct (s_server s); try discriminate. destruct (Hb eq_refl).
  - destruct (s_client s u) eqn:E; try discriminate. injection Hs as <-. left. assert (t <> u) as Hne by (intros ->; rewrite E in Hi; discriminate).
    cbn. unfold left_over. cbn. rewrite !upd_other by exact Hne. auto.
  - destruct (s_client s u) eqn:E; try discriminate. injection Hs as <-. left. assert (t <> u) as Hne by (intros ->; rewrite E in Hi; discriminate).
    cbn. unfold left_over. cbn. rewrite !upd_other by exact Hne. auto.
  - destruct (Nat.eq_dec u t) as [->|Hne].
    + cbn [drives]. rewrite Nat.eqb_refl. unfold client_step in Hs. unfold left_over. destruct (s_client s t) eqn:E; try discriminate Hi.
      * injection Hs as <-. left. cbn [s_client s_queue s_server]. rewrite upd_same, app_length. cbn. split; [reflexivity|lia].
      * destruct (s_unfinished s); [|discriminate]. injection Hs as <-. left. cbn [s_client s_queue s_server set_client]. rewrite upd_same. cbn. split; [reflexivity|lia].
      * destruct (s_server s); try discriminate. injection Hs as <-. right. reflexivity.
    + left. cbn [drives]. destruct (Nat.eqb_spec u t) as [|_]; [contradiction|]. assert (t <> u) as Hne' by congruence.
      unfold client_step in Hs. assert (holds (s_client s u) = false) as Hh.
      { destruct (holds (s_client s u)) eqn:E; [|reflexivity]. apply L1 in E. congruence. }
      pose proof (A2 u Hne) as Hj. unfold left_over. destruct (s_client s u) as [| |a|a|a|c|c| | | | |] eqn:E; try discriminate.
      * destruct (s_started s); [|discriminate]. injection Hs as <-. cbn. rewrite !upd_other by exact Hne'. auto.
      * rewrite Hl in Hs. discriminate.
      * destruct (s_event s u); [|discriminate]. injection Hs as <-. cbn. rewrite !upd_other by exact Hne'. auto.
  - left. unfold server_step in Hs. cbn in Hn. unfold left_over. cbn [drives].
    destruct (s_server s) as [| | | |[|t' c a]|t' c [|]|[|]| |] eqn:Es; try discriminate; try (destruct (Hb eq_refl)).
    + destruct (s_queue s) as [|m q] eqn:Eq; [discriminate|]. injection Hs as <-. cbn. split; [exact Hi|lia].
    + injection Hs as <-. cbn. split; [exact Hi|lia].
    + injection Hs as <-. cbn. split; [exact Hi|lia].
    + destruct L2.
    + injection Hs as <-. cbn. split; [exact Hi|lia].
    + injection Hs as <-. cbn. split; [exact Hi|lia].
    + injection Hs as <-. cbn. split; [exact Hi|lia].
    + injection Hs as <-. cbn. split; [exact Hi|lia].
Qed.
Lemma trace_grows s l s' : step s l = Some s' -> exists tr, s_trace s' = tr ++ s_trace s.
Proof.
  intros Hs. destruct l as [u|u a|u|u|o]; cbn in Hs.
  - destruct (s_client s u); try discriminate. destruct (s_server s); try discriminate. injection Hs as <-. exists []. reflexivity.
  - destruct (s_client s u); try discriminate. injection Hs as <-. exists []. reflexivity.
  - destruct (s_client s u); try discriminate. injection Hs as <-. exists [EJoin u]. reflexivity.
  - unfold client_step in Hs. destruct (s_client s u); try discriminate;
      try (destruct (s_started s); [|discriminate]); try (destruct (s_lock s); [discriminate|]); try (destruct (s_event s u); [|discriminate]);
      try (destruct (s_unfinished s); [|discriminate]); try (destruct (s_server s); try discriminate; []); try destruct (s_running s);
      injection Hs as <-; cbn; (exists []; reflexivity) || (eexists [_]; reflexivity).
  - unfold server_step in Hs. destruct (s_server s) as [| | | |[|]| | | |]; try discriminate; try (destruct (s_queue s); [discriminate|]);
      injection Hs as <-; cbn; (exists []; reflexivity) || (eexists [_]; reflexivity).
Qed.
Lemma trace_runs ls : forall s s', runs s ls = Some s' -> exists tr, s_trace s' = tr ++ s_trace s.
Proof.
  induction ls as [|l ls IH]; intros s s' H; cbn in H; [injection H as <-; exists []; reflexivity|].
  destruct (step s l) as [s1|] eqn:E; [|discriminate]. destruct (trace_grows _ _ _ E) as [tr1 E1]. destruct (IH _ _ H) as [tr2 E2].
  exists (tr2 ++ tr1). rewrite E2, E1. apply app_assoc.
Qed.
Lemma inside_runs t ls : forall s s', live s -> alone t s -> Forall nonfatal ls -> Forall (only_joins t) ls ->
  inside (s_client s t) = true -> runs s ls = Some s' ->
  (inside (s_client s' t) = true /\ left_over t s' + length (filter (drives t) ls) = left_over t s) \/
  exists tr, s_trace s' = tr ++ s_trace s /\ In (EJoined t) tr.
Proof.
  induction ls as [|l ls IH]; intros s s' L A Hn Ho Hi H; cbn [runs] in H; [injection H as <-; left; split; [exact Hi|cbn; lia]|].
  apply Forall_cons_iff in Hn. apply Forall_cons_iff in Ho. destruct Hn as [Hn1 Hn], Ho as [Ho1 Ho].
  destruct (step s l) as [s1|] eqn:E; [|discriminate].
  destruct (inside_step t s l s1 L A Hn1 Hi E) as [[Hi1 Hd]|Hj].
  - destruct (IH s1 s' (live_step s l s1 L Hn1 E) (alone_step t s l s1 L A Hn1 Ho1 E) Hn Ho Hi1 H) as [[H1 H2]|(tr & H1 & H2)].
    + left. split; [exact H1|]. cbn [filter]. destruct (drives t l); cbn [length]; lia.
    + right. destruct (trace_grows _ _ _ E) as [tr1 E1]. exists (tr ++ tr1). rewrite H1, E1, app_assoc. split; [reflexivity|]. apply in_or_app. auto.
  - right. destruct (trace_runs _ _ _ H) as [tr Et]. exists (tr ++ [EJoined t]). rewrite Et, Hj, <- app_assoc. split; [reflexivity|].
    apply in_or_app. right. left. reflexivity.
Qed.
Lemma inside_left t s : inside (s_client s t) = true -> 0 < left_over t s.
Proof. unfold left_over. destruct (s_client s t); try discriminate; cbn; lia. Qed.
Lemma inside_enabled t s o : live s -> alone t s -> inside (s_client s t) = true ->
  step s (LClient t) <> None \/ step s (LServer o) <> None.
Proof.
  intros [L1 L2] [A1 A2 A3 A4 A5] Hi. cbn. unfold client_step. destruct (s_client s t) eqn:E; try discriminate Hi.
  - left. discriminate.
  - destruct (s_unfinished s) eqn:Eu; [left; discriminate|]. right. cbn in A4. unfold server_step.
    destruct A4 as [[H1 (q0 & H2 & H3)]|[H1 H2]].
    + destruct (s_server s) as [| | | |[|]|? ? [|]|[|]| |]; try discriminate H1; try discriminate.
      destruct (s_queue s); [destruct q0; discriminate H2|discriminate].
    + rewrite H2 in A1. destruct (s_server s) as [| | | |[|]|? ? [|]|[|]| |]; try (destruct H1; discriminate); try discriminate; cbn in A1; lia.
  - cbn in A4. destruct A4 as [[H|H] _]; rewrite H; [right; unfold server_step; rewrite H; discriminate|left; discriminate].
Qed.
(** Before that: whoever holds the lock can go on. *)
Lemma waiting_enabled t s : live s -> alone t s -> s_client s t = JLock ->
  step s (LClient t) <> None \/ exists u, s_lock s = Some u /\ step s (LClient u) <> None.
Proof.
  intros [L1 L2] [A1 A2 A3 A4 A5] E. cbn. destruct (s_lock s) as [u|] eqn:El.
  - right. exists u. split; [reflexivity|]. pose proof (proj1 (L1 u) eq_refl) as Hh. assert (u <> t) as Hne by (intros ->; rewrite E in Hh; discriminate).
    pose proof (A2 u Hne) as Hj. unfold client_step. destruct (s_client s u); try discriminate. destruct (s_running s); discriminate.
  - left. unfold client_step. rewrite E, El. discriminate.
Qed.
