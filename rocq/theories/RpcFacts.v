(** Facts about the RPC model. *)
From Coq Require Import List Bool Arith Lia.
From Verif Require Import RpcModel.
Import ListNotations.

Lemma upd_same {X} (f : nat -> X) k x : upd f k x k = x.
Proof. unfold upd. rewrite Nat.eqb_refl. reflexivity. Qed.
Lemma upd_other {X} (f : nat -> X) k x j : j <> k -> upd f k x j = f j.
Proof. intros H. unfold upd. destruct (Nat.eqb_spec j k); [contradiction|reflexivity]. Qed.
Lemma upd_cases {X} (f : nat -> X) k x j : j = k /\ upd f k x j = x \/ j <> k /\ upd f k x j = f j.
Proof.
  destruct (Nat.eq_dec j k) as [->|H]; [left; split; [reflexivity|apply upd_same]|right; split; [exact H|apply upd_other; exact H]].
Qed.

(** Chronological lists of what was queued and handled. *)
Fixpoint puts (tr : list event) : list (call * arg) :=
  match tr with
  | [] => []
  | EPut _ c a :: tr' => puts tr' ++ [(c, a)]
  | _ :: tr' => puts tr'
  end.
Fixpoint handles (tr : list event) : list (call * arg) :=
  match tr with
  | [] => []
  | EHandle c a _ :: tr' => handles tr' ++ [(c, a)]
  | _ :: tr' => handles tr'
  end.
Fixpoint reqs (q : list msg) : list (call * arg) :=
  match q with
  | [] => []
  | Null :: q' => reqs q'
  | Req _ c a :: q' => (c, a) :: reqs q'
  end.
Lemma reqs_app q q' : reqs (q ++ q') = reqs q ++ reqs q'.
Proof. induction q as [|[|t c a] q IH]; cbn; [reflexivity|exact IH|rewrite IH; reflexivity]. Qed.
Definition current (x : server) : list (call * arg) :=
  match x with SGot (Req _ c a) => [(c, a)] | _ => [] end.

(** Requests whose event is not set yet. *)
Definition pending (s : state) (t : tid) (c : call) : Prop :=
  (exists a, In (Req t c a) (s_queue s)) \/
  (exists a, s_server s = SGot (Req t c a)) \/ (exists f, s_server s = SRan t c f).
Definition waits (x : client) (c : call) : Prop := x = CPut c \/ x = CWait c.

Record inv (s : state) : Prop := Inv {
  i_order : puts (s_trace s) = handles (s_trace s) ++ current (s_server s) ++ reqs (s_queue s);
  i_fresh : forall t c a, In (EPut t c a) (s_trace s) -> c < s_next s;
  i_nodup : NoDup (map fst (puts (s_trace s)));
  i_owner : forall t t' c a a', In (EPut t c a) (s_trace s) -> In (EPut t' c a') (s_trace s) -> t = t' /\ a = a';
  i_result : forall c o, s_result s c = Some o <-> exists a, In (EHandle c a o) (s_trace s);
  i_pend : forall t c, pending s t c -> waits (s_client s t) c /\ s_event s t = false;
  i_pend_put : forall t c, pending s t c -> exists a, In (EPut t c a) (s_trace s);
  i_ran : forall t c f, s_server s = SRan t c f -> s_result s c <> None;
  i_wait : forall t c, waits (s_client s t) c ->
    (exists a, In (EPut t c a) (s_trace s)) /\
    (s_event s t = true /\ s_result s c <> None \/ s_event s t = false /\ pending s t c);
  i_put : forall t c a, In (EPut t c a) (s_trace s) ->
    (exists r, In (EAnswer t c r) (s_trace s)) \/ waits (s_client s t) c;
  i_answer : forall t c r, In (EAnswer t c r) (s_trace s) ->
    exists a o, In (EPut t c a) (s_trace s) /\ In (EHandle c a o) (s_trace s) /\ r = answer_of (Some o)
}.

Lemma puts_in tr c a : In (c, a) (puts tr) <-> exists t, In (EPut t c a) tr.
Proof.
  induction tr as [|e tr IH]; cbn; [split; [contradiction|intros [t []]]|].
  destruct e; try (rewrite IH; split; intros [t' H]; exists t'; [right; exact H|destruct H as [H|H]; [discriminate|exact H]]).
  rewrite in_app_iff, IH. cbn. split.
  - intros [[t' H]|[H|[]]]; [exists t'; right; exact H|]. injection H as <- <-. exists t. left. reflexivity.
  - intros [t' [H|H]]; [injection H as <- <- <-; right; left; reflexivity|left; exists t'; exact H].
Qed.
Lemma handles_in tr c a : In (c, a) (handles tr) <-> exists o, In (EHandle c a o) tr.
Proof.
  induction tr as [|e tr IH]; cbn; [split; [contradiction|intros [t []]]|].
  destruct e; try (rewrite IH; split; intros [t' H]; exists t'; [right; exact H|destruct H as [H|H]; [discriminate|exact H]]).
  rewrite in_app_iff, IH. cbn. split.
  - intros [[t' H]|[H|[]]]; [exists t'; right; exact H|]. injection H as <- <-. exists o. left. reflexivity.
  - intros [t' [H|H]]; [injection H as <- <- <-; right; left; reflexivity|left; exists t'; exact H].
Qed.

Lemma inv_init : inv init.
Proof.
  split; cbn; try (intros; contradiction); try reflexivity.
  - constructor.
  - intros c o. split; [discriminate|intros [a []]].
  - intros t c [[a []]|[[a H]|[f H]]]; discriminate.
  - intros t c [[a []]|[[a H]|[f H]]]; discriminate.
  - intros; discriminate.
  - intros t c [H|H]; discriminate.
Qed.

(** Steps that change only the client's place, the lock and the notes. *)
Lemma inv_client s t x l es :
  inv s ->
  (forall c, waits (s_client s t) c <-> waits x c) ->
  (forall e, In e es -> match e with EStarted _ | ENotRunning _ | EJoin _ | EJoined _ => True | _ => False end) ->
  inv (St (s_server s) (upd (s_client s) t x) l (s_queue s) (s_unfinished s) (s_started s) (s_running s)
         (s_event s) (s_result s) (s_next s) (es ++ s_trace s)).
Proof.
  intros I Hw He.
  assert (forall t' c a, In (EPut t' c a) (es ++ s_trace s) <-> In (EPut t' c a) (s_trace s)) as Hp.
  { intros t' c a. rewrite in_app_iff. split; [|auto]. intros [H|H]; [destruct (He _ H)|exact H]. }
  assert (forall c a o, In (EHandle c a o) (es ++ s_trace s) <-> In (EHandle c a o) (s_trace s)) as Hh.
  { intros c a o. rewrite in_app_iff. split; [|auto]. intros [H|H]; [destruct (He _ H)|exact H]. }
  assert (forall t' c r, In (EAnswer t' c r) (es ++ s_trace s) <-> In (EAnswer t' c r) (s_trace s)) as Ha.
  { intros t' c r. rewrite in_app_iff. split; [|auto]. intros [H|H]; [destruct (He _ H)|exact H]. }
  assert (puts (es ++ s_trace s) = puts (s_trace s) /\ handles (es ++ s_trace s) = handles (s_trace s)) as [Ep Eh].
  { clear -He. induction es as [|e es IH]; [auto|]. destruct IH as [IH1 IH2]; [intros e' H; apply He; right; exact H|].
    specialize (He e (or_introl eq_refl)). destruct e; try contradiction; cbn; auto. }
  assert (forall t' c, waits (upd (s_client s) t x t') c <-> waits (s_client s t') c) as Hw'.
  { intros t' c. destruct (upd_cases (s_client s) t x t') as [[-> E]|[_ E]]; rewrite E; [symmetry; apply Hw|tauto]. }
  destruct I as [I1 I2 I3 I4 I5 I6 I7 I8 I9 I10 I11]. split; cbn.
  - rewrite Ep, Eh. exact I1.
  - intros t' c a H. apply Hp in H. eauto.
  - rewrite Ep. exact I3.
  - intros t1 t2 c a a' H1 H2. apply Hp in H1. apply Hp in H2. eauto.
  - intros c o. rewrite I5. split; intros [a H]; exists a; apply Hh; exact H.
  - intros t' c H. destruct (I6 t' c H) as [H1 H2]. split; [apply Hw'; exact H1|exact H2].
  - intros t' c H. destruct (I7 t' c H) as [a H1]. exists a. apply Hp. exact H1.
  - exact I8.
  - intros t' c H. apply Hw' in H. destruct (I9 t' c H) as [[a H1] H2]. split; [exists a; apply Hp; exact H1|exact H2].
  - intros t' c a H. apply Hp in H. destruct (I10 t' c a H) as [[r H1]|H1]; [left; exists r; apply Ha; exact H1|].
    right. apply Hw'. exact H1.
  - intros t' c r H. apply Ha in H. destruct (I11 t' c r H) as (a & o & H1 & H2 & H3). exists a, o.
    split; [apply Hp; exact H1|split; [apply Hh; exact H2|exact H3]].
Qed.

Lemma waits_fun x c c' : waits x c -> waits x c' -> c = c'.
Proof. intros [->| ->] [H|H]; congruence. Qed.

Lemma inv_put s t a :
  inv s -> s_client s t = CGo a ->
  inv (St (s_server s) (upd (s_client s) t (CPut (s_next s))) (s_lock s) (s_queue s ++ [Req t (s_next s) a])
         (S (s_unfinished s)) (s_started s) (s_running s) (upd (s_event s) t false) (s_result s)
         (S (s_next s)) (EPut t (s_next s) a :: s_trace s)).
Proof.
  intros I Hc. pose proof I as [I1 I2 I3 I4 I5 I6 I7 I8 I9 I10 I11].
  assert (forall c, ~ waits (s_client s t) c) as Hnw by (intros c [H|H]; congruence).
  assert (forall t' c, pending s t' c -> t' <> t) as Hpt.
  { intros t' c H ->. destruct (I6 _ _ H) as [H1 _]. exact (Hnw c H1). }
  set (s' := St _ _ _ _ _ _ _ _ _ _ _).
  assert (forall t' c, pending s' t' c <-> pending s t' c \/ t' = t /\ c = s_next s) as Hp.
  { intros t' c. unfold pending. cbn. split.
    - intros [[a' H]|H]; [|auto]. apply in_app_iff in H. destruct H as [H|[H|[]]]; [eauto|].
      injection H as <- <- <-. auto.
    - intros [[[a' H]|H]|[-> ->]]; [left; exists a'; apply in_app_iff; auto|auto|].
      left. exists a. apply in_app_iff. right. left. reflexivity. }
  assert (forall c, (exists t, In (EPut t c a) (s_trace s)) -> c < s_next s) as Hlt by (intros c [t' H]; eauto).
  split; cbn.
  - rewrite I1, reqs_app. cbn. rewrite !app_assoc. reflexivity.
  - intros t' c a' [H|H]; [injection H as <- <- <-; lia|]. specialize (I2 _ _ _ H). lia.
  - rewrite map_app. cbn. apply NoDup_rev in I3. rewrite <- (rev_involutive (map fst (puts (s_trace s)) ++ [s_next s])).
    apply NoDup_rev. rewrite rev_app_distr. cbn. constructor; [|exact I3].
    intros H. apply in_rev in H. apply in_map_iff in H. destruct H as ([c a'] & E & H). cbn in E. subst c.
    apply puts_in in H. destruct H as [t' H]. specialize (I2 _ _ _ H). lia.
  - intros t1 t2 c a1 a2 [H1|H1] [H2|H2].
    + injection H1 as <- <- <-. injection H2 as <- <-. auto.
    + injection H1 as <- <- <-. specialize (I2 _ _ _ H2). lia.
    + injection H2 as <- <- <-. specialize (I2 _ _ _ H1). lia.
    + eauto.
  - intros c o. rewrite I5. split; intros [a' H]; exists a'; [right; exact H|].
    destruct H as [H|H]; [discriminate|exact H].
  - intros t' c H. apply Hp in H. destruct H as [H|[-> ->]].
    + pose proof (Hpt _ _ H) as Hne. rewrite !upd_other by exact Hne. apply I6. exact H.
    + rewrite !upd_same. split; [left; reflexivity|reflexivity].
  - intros t' c H. apply Hp in H. destruct H as [H|[-> ->]].
    + destruct (I7 _ _ H) as [a' H']. exists a'. right. exact H'.
    + exists a. left. reflexivity.
  - exact I8.
  - intros t' c H. destruct (upd_cases (s_client s) t (CPut (s_next s)) t') as [[-> E]|[Hne E]]; rewrite E in H.
    + assert (c = s_next s) as -> by (destruct H as [H|H]; congruence).
      split; [exists a; left; reflexivity|]. right. rewrite upd_same. split; [reflexivity|]. apply Hp. auto.
    + destruct (I9 t' c H) as [[a' H1] H2]. split; [exists a'; right; exact H1|].
      rewrite upd_other by exact Hne. destruct H2 as [H2|[H2 H3]]; [left; exact H2|right].
      split; [exact H2|]. apply Hp. auto.
  - intros t' c a' [H|H].
    + injection H as <- <- <-. right. rewrite upd_same. left. reflexivity.
    + destruct (I10 _ _ _ H) as [[r H1]|H1]; [left; exists r; right; exact H1|].
      destruct (Nat.eq_dec t' t) as [->|Hne]; [destruct (Hnw c H1)|].
      right. rewrite upd_other by exact Hne. exact H1.
  - intros t' c r [H|H]; [discriminate|]. destruct (I11 _ _ _ H) as (a' & o & H1 & H2 & H3).
    exists a', o. auto.
Qed.

Lemma inv_answer s t c :
  inv s -> s_client s t = CWait c -> s_event s t = true ->
  inv (note (set_client s t CIdle) (EAnswer t c (answer_of (s_result s c)))).
Proof.
  intros I Hc He. pose proof I as [I1 I2 I3 I4 I5 I6 I7 I8 I9 I10 I11].
  assert (forall t' c', pending s t' c' -> t' <> t) as Hpt.
  { intros t' c' H ->. destruct (I6 _ _ H) as [_ H1]. congruence. }
  destruct (I9 t c (or_intror Hc)) as [[a Ha] [[_ Hr]|[Hr _]]]; [|congruence].
  split; cbn.
  - exact I1.
  - intros t' c' a' [H|H]; [discriminate|eauto].
  - exact I3.
  - intros t1 t2 c' a1 a2 [H1|H1] [H2|H2]; try discriminate. eauto.
  - intros c' o. rewrite I5. split; intros [a' H]; exists a'; [right; exact H|].
    destruct H as [H|H]; [discriminate|exact H].
  - intros t' c' H. pose proof (Hpt _ _ H) as Hne. rewrite upd_other by exact Hne. apply I6. exact H.
  - intros t' c' H. destruct (I7 _ _ H) as [a' H']. exists a'. right. exact H'.
  - exact I8.
  - intros t' c' H. destruct (upd_cases (s_client s) t CIdle t') as [[-> E]|[Hne E]]; rewrite E in H.
    + destruct H as [H|H]; discriminate.
    + destruct (I9 t' c' H) as [[a' H1] H2]. split; [exists a'; right; exact H1|exact H2].
  - intros t' c' a' [H|H]; [discriminate|].
    destruct (I10 _ _ _ H) as [[r H1]|H1]; [left; exists r; right; exact H1|].
    destruct (Nat.eq_dec t' t) as [->|Hne]; [|right; rewrite upd_other by exact Hne; exact H1].
    left. assert (c' = c) as -> by (rewrite Hc in H1; destruct H1 as [H1|H1]; congruence).
    eexists. left. reflexivity.
  - intros t' c' r [H|H].
    + injection H as <- <- <-. destruct (s_result s c) as [o|] eqn:E; [|contradiction].
      apply I5 in E. destruct E as [a' E]. exists a', o. split; [|split; [right; exact E|reflexivity]].
      right. assert (In (c, a') (puts (s_trace s))) as Hp.
      { rewrite I1. apply in_app_iff. left. apply handles_in. eauto. }
      apply puts_in in Hp. destruct Hp as [t2 Hp]. destruct (I4 _ _ _ _ _ Ha Hp) as [<- <-]. exact Hp.
    + destruct (I11 _ _ _ H) as (a' & o & H1 & H2 & H3). exists a', o. auto.
Qed.

(** Server steps. *)
Lemma inv_server s o s' : inv s -> server_step s o = Some s' -> inv s'.
Proof.
  intros I Hs. pose proof I as [I1 I2 I3 I4 I5 I6 I7 I8 I9 I10 I11]. unfold server_step in Hs.
  assert (forall x, (s_server s = SBegin \/ s_server s = SSetRunning \/ s_server s = SGet \/
      s_server s = SGot Null \/ (exists f, s_server s = SSet f) \/ s_server s = SFinal) ->
      (x = SSetRunning \/ x = SGet \/ (exists f, x = SSet f) \/ x = SFinal \/ x = SDead) ->
      forall u st ru, inv (St x (s_client s) (s_lock s) (s_queue s) u st ru (s_event s) (s_result s) (s_next s) (s_trace s))) as Hquiet.
  { intros x H1 H2 u st ru.
    assert (current (s_server s) = [] /\ current x = []) as [C1 C2].
    { split; [destruct H1 as [->|[->|[->|[->|[[f ->]| ->]]]]]; reflexivity|].
      destruct H2 as [->|[->|[[f ->]|[->| ->]]]]; reflexivity. }
    set (s1 := St _ _ _ _ _ _ _ _ _ _ _).
    assert (forall t c, pending s1 t c <-> pending s t c) as Hp.
    { intros t c. unfold pending. cbn. split; (intros [H|[[a H]|[f H]]]; [left; exact H|exfalso..]).
      - rewrite H in H2. destruct H2 as [E|[E|[[f E]|[E|E]]]]; discriminate.
      - rewrite H in H2. destruct H2 as [E|[E|[[f' E]|[E|E]]]]; discriminate.
      - rewrite H in H1. destruct H1 as [E|[E|[E|[E|[[f E]|E]]]]]; discriminate.
      - rewrite H in H1. destruct H1 as [E|[E|[E|[E|[[f' E]|E]]]]]; discriminate. }
    split; cbn; auto.
    - rewrite C2. rewrite C1 in I1. exact I1.
    - intros t c H. apply I6, Hp, H.
    - intros t c H. apply I7, Hp, H.
    - intros t c f H. subst x. destruct H2 as [E|[E|[[f' E]|[E|E]]]]; discriminate.
    - intros t c H. destruct (I9 t c H) as [H3 [H4|[H4 H5]]]; (split; [exact H3|]); [left; exact H4|right].
      split; [exact H4|]. apply Hp. exact H5. }
  destruct (s_server s) as [| | | |[|t c a]|t c f|f| |] eqn:E; try discriminate.
  - injection Hs as <-. apply Hquiet; eauto.
  - injection Hs as <-. apply Hquiet; eauto.
  - destruct (s_queue s) as [|m q] eqn:Eq; [discriminate|]. injection Hs as <-.
    set (s1 := St _ _ _ _ _ _ _ _ _ _ _).
    assert (forall t c, pending s1 t c <-> pending s t c) as Hp.
    { intros t c. unfold pending. cbn. rewrite E, Eq. split.
      - intros [[a H]|[[a H]|[f H]]]; [|injection H as ->|discriminate]; left; exists a; [right; exact H|left; reflexivity].
      - intros [[a [H|H]]|[[a H]|[f H]]]; try discriminate; [right; left; exists a; congruence|left; exists a; exact H]. }
    split; cbn; auto.
    + rewrite I1. cbn. destruct m; reflexivity.
    + intros t c H. apply I6, Hp, H.
    + intros t c H. apply I7, Hp, H.
    + intros; discriminate.
    + intros t c H. destruct (I9 t c H) as [H3 [H4|[H4 H5]]]; (split; [exact H3|]); [left; exact H4|right].
      split; [exact H4|]. apply Hp. exact H5.
  - injection Hs as <-. apply Hquiet; eauto.
  - injection Hs as <-. set (s1 := St _ _ _ _ _ _ _ _ _ _ _).
    assert (forall t' c', pending s1 t' c' <-> pending s t' c') as Hp.
    { intros t' c'. unfold pending. cbn. rewrite E. split.
      - intros [H|[[a' H]|[f H]]]; [left; exact H|discriminate|]. injection H as -> -> _. right. left. exists a. reflexivity.
      - intros [H|[[a' H]|[f H]]]; [left; exact H| |discriminate]. injection H as -> -> _. right. right. eauto. }
    assert (~ exists o, s_result s c = Some o) as Hnone.
    { intros [o' H]. apply I5 in H. destruct H as [a' H].
      assert (In c (map fst (handles (s_trace s)))) as Hc.
      { apply in_map_iff. exists (c, a'). split; [reflexivity|]. apply handles_in. eauto. }
      rewrite I1 in I3. rewrite map_app in I3. cbn in I3.
      apply NoDup_remove_2 in I3. apply I3. apply in_app_iff. left. exact Hc. }
    split; cbn.
    + rewrite I1. cbn. rewrite <- app_assoc. reflexivity.
    + intros t' c' a' [H|H]; [discriminate|eauto].
    + exact I3.
    + intros t1 t2 c' a1 a2 [H1|H1] [H2|H2]; try discriminate. eauto.
    + intros c' o'. destruct (upd_cases (s_result s) c (Some o) c') as [[-> E']|[Hne E']]; rewrite E'.
      * split.
        -- intros H. injection H as <-. exists a. left. reflexivity.
        -- intros [a' [H|H]]; [congruence|]. destruct Hnone. exists o'. apply I5. eauto.
      * rewrite I5. split; intros [a' H]; exists a'; [right; exact H|]. destruct H as [H|H]; [congruence|exact H].
    + intros t' c' H. apply I6, Hp, H.
    + intros t' c' H. apply Hp, I7 in H. destruct H as [a' H]. exists a'. right. exact H.
    + intros t' c' f H. injection H as <- <- _. rewrite upd_same. discriminate.
    + intros t' c' H. destruct (I9 t' c' H) as [[a' H1] H2]. split; [exists a'; right; exact H1|].
      destruct H2 as [[H2 H3]|[H2 H3]]; [left|right]; (split; [exact H2|]).
      * destruct (upd_cases (s_result s) c (Some o) c') as [[-> E']|[Hne E']]; rewrite E'; [discriminate|exact H3].
      * apply Hp. exact H3.
    + intros t' c' a' [H|H]; [discriminate|]. destruct (I10 _ _ _ H) as [[r H1]|H1]; [left; exists r; right; exact H1|auto].
    + intros t' c' r [H|H]; [discriminate|]. destruct (I11 _ _ _ H) as (a' & o' & H1 & H2 & H3). exists a', o'. auto.
  - injection Hs as <-. set (s1 := St _ _ _ _ _ _ _ _ _ _ _).
    assert (pending s t c) as Hpc by (right; right; exists f; exact E).
    destruct (I6 _ _ Hpc) as [Hw He]. destruct (I7 _ _ Hpc) as [a Ha].
    assert (forall t' c', pending s t' c' -> t' = t -> c' = c) as Hone.
    { intros t' c' H ->. destruct (I6 _ _ H) as [H1 _]. exact (waits_fun _ _ _ H1 Hw). }
    assert (forall a', ~ In (Req t c a') (s_queue s)) as Hnq.
    { intros a' H. pose proof (I8 _ _ _ eq_refl) as Hr. destruct (s_result s c) as [o'|] eqn:Er; [|contradiction].
      apply I5 in Er. destruct Er as [a2 Er].
      rewrite I1, map_app in I3. cbn in I3.
      assert (In c (map fst (handles (s_trace s)))) as H1.
      { apply in_map_iff. exists (c, a2). split; [reflexivity|]. apply handles_in. eauto. }
      assert (In c (map fst (reqs (s_queue s)))) as H2.
      { apply in_map_iff. exists (c, a'). split; [reflexivity|]. clear -H.
        induction (s_queue s) as [|[|t1 c1 a1] q IH]; cbn in *; [contradiction|destruct H as [H|H]; [discriminate|auto]|].
        destruct H as [H|H]; [injection H as <- <- <-; auto|auto]. }
      apply in_split in H1. destruct H1 as (l1 & l2 & H1). rewrite H1, <- app_assoc in I3. cbn in I3.
      apply NoDup_remove_2 in I3. apply I3. rewrite !in_app_iff. auto. }
    assert (forall t' c', pending s1 t' c' <-> pending s t' c' /\ t' <> t) as Hp.
    { intros t' c'. unfold pending at 1. cbn. split.
      - intros [[a' H]|[[a' H]|[f' H]]]; try discriminate.
        assert (pending s t' c') as Hpq by (left; exists a'; exact H).
        split; [exact Hpq|]. intros ->. rewrite (Hone _ _ Hpq eq_refl) in H. exact (Hnq _ H).
      - intros [[H|[[a' H]|[f' H]]] Hne]; [left; exact H|congruence|congruence]. }
    split; cbn; auto.
    + intros t' c' H. apply Hp in H. destruct H as [H Hne]. rewrite upd_other by exact Hne. apply I6, H.
    + intros t' c' H. apply Hp in H. destruct H as [H _]. apply I7, H.
    + intros; discriminate.
    + intros t' c' H. destruct (I9 t' c' H) as [H1 H2]. split; [exact H1|].
      destruct (upd_cases (s_event s) t true t') as [[-> E']|[Hne E']]; rewrite E'.
      * left. split; [reflexivity|]. rewrite (waits_fun _ _ _ H Hw). apply (I8 _ _ _ eq_refl).
      * destruct H2 as [H2|[H2 H3]]; [left; exact H2|right]. split; [exact H2|]. apply Hp. auto.
  - injection Hs as <-. destruct f; apply Hquiet; eauto 10.
  - injection Hs as <-. apply Hquiet; eauto 10.
Qed.

Lemma inv_same s x u st ru l :
  inv s -> (s_server s = SNew /\ x = SBegin) ->
  inv (St x (s_client s) l (s_queue s) u st ru (s_event s) (s_result s) (s_next s) (s_trace s)).
Proof.
  intros [I1 I2 I3 I4 I5 I6 I7 I8 I9 I10 I11] [E ->]. rewrite E in I1.
  set (s1 := St _ _ _ _ _ _ _ _ _ _ _).
  assert (forall t c, pending s1 t c <-> pending s t c) as Hp.
  { intros t c. unfold pending. cbn. rewrite E. split; (intros [H|[[a H]|[f H]]]; [left; exact H|discriminate..]). }
  split; cbn; auto.
  - intros t c H. apply I6, Hp, H.
  - intros t c H. apply I7, Hp, H.
  - intros; discriminate.
  - intros t c H. destruct (I9 t c H) as [H3 [H4|[H4 H5]]]; (split; [exact H3|]); [left; exact H4|right].
    split; [exact H4|]. apply Hp. exact H5.
Qed.

(** Putting Null. *)
Lemma inv_null s t : inv s -> s_client s t = JPut ->
  inv (St (s_server s) (upd (s_client s) t JQueue) (s_lock s) (s_queue s ++ [Null])
         (S (s_unfinished s)) (s_started s) (s_running s) (s_event s) (s_result s) (s_next s) (s_trace s)).
Proof.
  intros I Hc.
  pose proof (inv_client s t JQueue (s_lock s) [] I) as I'.
  destruct I' as [I1 I2 I3 I4 I5 I6 I7 I8 I9 I10 I11].
  { intros c. rewrite Hc. unfold waits. split; intros [H|H]; discriminate. }
  { intros e []. }
  set (s0 := St _ (upd (s_client s) t JQueue) _ (s_queue s) _ _ _ _ _ _ _) in *.
  set (s1 := St _ _ _ _ _ _ _ _ _ _ _).
  assert (forall t c, pending s1 t c <-> pending s0 t c) as Hp.
  { intros t' c. unfold pending. cbn. split; (intros [[a H]|H]; [left; exists a|right; exact H]).
    - apply in_app_iff in H. destruct H as [H|[H|[]]]; [exact H|discriminate].
    - apply in_app_iff. auto. }
  split; cbn; auto.
  - rewrite reqs_app. cbn. rewrite app_nil_r. exact I1.
  - intros t' c H. apply I6, Hp, H.
  - intros t' c H. apply I7, Hp, H.
  - intros t' c H. destruct (I9 t' c H) as [H3 [H4|[H4 H5]]]; (split; [exact H3|]); [left; exact H4|right].
    split; [exact H4|]. apply Hp. exact H5.
Qed.

Ltac nowait E := intros ?; rewrite E; unfold waits; split; (intros [?|?]; discriminate).
Lemma inv_step s l s' : inv s -> step s l = Some s' -> inv s'.
Proof.
  intros I Hs. destruct l as [t|t a|t|t|o]; cbn in Hs.
  - destruct (s_client s t) eqn:E; try discriminate. destruct (s_server s) eqn:Es; try discriminate.
    injection Hs as <-. apply (inv_same (set_client s t CStart) SBegin); [|auto].
    apply (inv_client s t CStart (s_lock s) [] I); [nowait E|intros e []].
  - destruct (s_client s t) eqn:E; try discriminate. injection Hs as <-.
    apply (inv_client s t (CLock a) (s_lock s) [] I); [nowait E|intros e []].
  - destruct (s_client s t) eqn:E; try discriminate. injection Hs as <-.
    apply (inv_client s t JCheck (s_lock s) [EJoin t] I); [nowait E|intros e [<-|[]]; exact Logic.I].
  - unfold client_step in Hs. destruct (s_client s t) as [| |a|a|a|c|c| | | | |] eqn:E; try discriminate.
    + destruct (s_started s) eqn:Es; [|discriminate]. injection Hs as <-.
      apply (inv_client s t CIdle (s_lock s) [EStarted t] I); [nowait E|intros e [<-|[]]; exact Logic.I].
    + destruct (s_lock s) eqn:El; [discriminate|]. injection Hs as <-.
      apply (inv_client s t (CCheck a) (Some t) [] I); [nowait E|intros e []].
    + destruct (s_running s) eqn:Er; injection Hs as <-.
      * apply (inv_client s t (CGo a) (s_lock s) [] I); [nowait E|intros e []].
      * apply (inv_client s t CIdle None [ENotRunning t] I); [nowait E|intros e [<-|[]]; exact Logic.I].
    + injection Hs as <-. apply inv_put; assumption.
    + injection Hs as <-. apply (inv_client s t (CWait c) None [] I); [|intros e []].
      intros c'. rewrite E. unfold waits. split; (intros [H|H]; [|]); try discriminate; injection H as <-; auto.
    + destruct (s_event s t) eqn:Ee; [|discriminate]. injection Hs as <-. apply inv_answer; assumption.
    + destruct (s_running s) eqn:Er; injection Hs as <-.
      * apply (inv_client s t JLock (s_lock s) [] I); [nowait E|intros e []].
      * apply (inv_client s t CIdle (s_lock s) [EJoined t] I); [nowait E|intros e [<-|[]]; exact Logic.I].
    + destruct (s_lock s) eqn:El; [discriminate|]. injection Hs as <-.
      apply (inv_client s t JPut (Some t) [] I); [nowait E|intros e []].
    + injection Hs as <-. apply inv_null; assumption.
    + destruct (s_unfinished s) eqn:Eu; [|discriminate]. injection Hs as <-.
      apply (inv_client s t JThread (s_lock s) [] I); [nowait E|intros e []].
    + destruct (s_server s) eqn:Es; try discriminate. injection Hs as <-.
      apply (inv_client s t CIdle None [EJoined t] I); [nowait E|intros e [<-|[]]; exact Logic.I].
  - exact (inv_server _ _ _ I Hs).
Qed.

Lemma inv_runs s ls s' : inv s -> runs s ls = Some s' -> inv s'.
Proof.
  revert s. induction ls as [|l ls IH]; intros s I H; cbn in H; [injection H as <-; exact I|].
  destruct (step s l) as [s1|] eqn:E; [|discriminate]. apply (IH s1); [|exact H]. exact (inv_step _ _ _ I E).
Qed.
