(** Progress of the RPC model while no handler ends fatally. *)
From Coq Require Import List Bool Arith Lia.
From Verif Require Import RpcModel RpcFacts.
Import ListNotations.

Definition nonfatal (l : label) : Prop := match l with LServer o => is_fatal o = false | _ => True end.
Definition holds (x : client) : bool :=
  match x with CCheck _ | CGo _ | CPut _ | JPut | JQueue | JThread => true | _ => false end.
Definition early (x : client) : bool :=
  match x with CIdle | CStart | CLock _ | CCheck _ | JCheck => true | _ => false end.
Definition joining (s : state) : Prop :=
  exists t, s_lock s = Some t /\ (s_client s t = JQueue \/ s_client s t = JThread).

Inductive phase := Before | Loop | Ending | Dead | Broken.
Definition phase_of (x : server) : phase :=
  match x with
  | SNew | SBegin | SSetRunning => Before
  | SGet | SGot (Req _ _ _) | SRan _ _ false | SSet false => Loop
  | SGot Null | SSet true | SFinal => Ending
  | SDead => Dead
  | SRan _ _ true => Broken
  end.
Definition req (m : msg) : bool := match m with Req _ _ _ => true | Null => false end.

Record live (s : state) : Prop := Live {
  l_lock : forall t, s_lock s = Some t <-> holds (s_client s t) = true;
  l_phase : match phase_of (s_server s) with
            | Before => s_running s = false /\ s_queue s = [] /\ forall t, early (s_client s t) = true
            | Loop => s_running s = true /\
                (forallb req (s_queue s) = true \/
                 joining s /\ exists q, s_queue s = q ++ [Null] /\ forallb req q = true)
            | Ending => s_running s = true /\ s_queue s = [] /\ joining s
            | Dead => s_running s = false /\ (forall m, In m (s_queue s) -> m = Null) /\
                (forall t a, s_client s t <> CGo a)
            | Broken => False
            end
}.

Lemma live_init : live init.
Proof. split; cbn; [intros t; split; discriminate|]. auto. Qed.

Lemma joining_other s t x s' :
  (s_client s t <> JQueue /\ s_client s t <> JThread \/ x = JQueue \/ x = JThread) -> s_client s' = upd (s_client s) t x -> s_lock s' = s_lock s ->
  joining s -> joining s'.
Proof.
  intros Hn Hc Hl (u & H1 & H2). exists u. rewrite Hl. split; [exact H1|]. rewrite Hc.
  destruct (upd_cases (s_client s) t x u) as [[-> E]|[_ E]]; rewrite E.
  - destruct Hn as [[? ?]|[?|?]]; [destruct H2; contradiction|auto|auto].
  - exact H2.
Qed.

(** A client's step that keeps the lock and the queue. *)
Lemma live_client s t x es :
  live s -> holds x = holds (s_client s t) ->
  (s_client s t <> JQueue /\ s_client s t <> JThread \/ x = JThread) ->
  (phase_of (s_server s) = Before -> early x = true) ->
  (phase_of (s_server s) = Dead -> forall a, x <> CGo a) ->
  live (St (s_server s) (upd (s_client s) t x) (s_lock s) (s_queue s) (s_unfinished s) (s_started s) (s_running s)
         (s_event s) (s_result s) (s_next s) es).
Proof.
  intros [L1 L2] Hh Hj Hb Hd. split; cbn [s_lock s_client s_server s_running s_queue].
  - intros u. destruct (upd_cases (s_client s) t x u) as [[-> E]|[_ E]]; rewrite E; [rewrite Hh|]; apply L1.
  - assert (joining s -> joining (St (s_server s) (upd (s_client s) t x) (s_lock s) (s_queue s) (s_unfinished s)
       (s_started s) (s_running s) (s_event s) (s_result s) (s_next s) es)) as Hjo.
    { apply joining_other with (t := t) (x := x); [tauto|reflexivity|reflexivity]. }
    destruct (phase_of (s_server s)).
    + destruct L2 as (E1 & E2 & E3). repeat split; auto. intros u.
      destruct (upd_cases (s_client s) t x u) as [[-> E]|[_ E]]; rewrite E; auto.
    + destruct L2 as (E1 & [E2|[E2 E3]]); split; auto.
    + destruct L2 as (E1 & E2 & E3). auto.
    + destruct L2 as (E1 & E2 & E3). split; [exact E1|]. split; [exact E2|]. intros u a.
      destruct (upd_cases (s_client s) t x u) as [[-> E]|[_ E]]; rewrite E; auto.
    + contradiction.
Qed.

(** Taking the free lock. *)
Lemma live_take s t x :
  live s -> s_lock s = None -> holds x = true ->
  (phase_of (s_server s) = Before -> early x = true) ->
  (forall a, x <> CGo a) ->
  live (set_lock (set_client s t x) (Some t)).
Proof.
  intros [L1 L2] Hl Hh Hb Hd. unfold set_lock, set_client. split; cbn [s_lock s_client s_server s_running s_queue].
  - intros u. destruct (upd_cases (s_client s) t x u) as [[-> E]|[Hne E]]; rewrite E; [tauto|].
    rewrite <- L1, Hl. split; [congruence|discriminate].
  - assert (~ joining s) as Hnj by (intros (u & H & _); congruence).
    destruct (phase_of (s_server s)).
    + destruct L2 as (E1 & E2 & E3). repeat split; auto. intros u.
      destruct (upd_cases (s_client s) t x u) as [[-> E]|[_ E]]; rewrite E; auto.
    + destruct L2 as (E1 & [E2|[E2 E3]]); split; auto; contradiction.
    + destruct L2 as (E1 & E2 & E3). contradiction.
    + destruct L2 as (E1 & E2 & E3). split; [exact E1|]. split; [exact E2|]. intros u a.
      destruct (upd_cases (s_client s) t x u) as [[-> E]|[_ E]]; rewrite E; auto.
    + contradiction.
Qed.

(** Releasing it. *)
Lemma live_release s t x es :
  live s -> holds (s_client s t) = true -> holds x = false ->
  (s_client s t <> JQueue /\ s_client s t <> JThread \/ phase_of (s_server s) = Dead) ->
  (phase_of (s_server s) = Before -> early x = true) ->
  live (St (s_server s) (upd (s_client s) t x) None (s_queue s) (s_unfinished s) (s_started s) (s_running s)
         (s_event s) (s_result s) (s_next s) es).
Proof.
  intros [L1 L2] Hh Hx Hj Hb. pose proof (proj2 (L1 t) Hh) as Hl.
  split; cbn [s_lock s_client s_server s_running s_queue].
  - intros u. split; [discriminate|].
    destruct (upd_cases (s_client s) t x u) as [[-> E]|[Hne E]]; rewrite E; [congruence|].
    intros H. apply L1 in H. congruence.
  - assert (phase_of (s_server s) <> Dead -> ~ joining s) as Hnj.
    { intros Hd (u & H & H'). assert (u = t) as -> by congruence. destruct Hj as [[? ?]|?]; [destruct H'|]; contradiction. }
    destruct (phase_of (s_server s)).
    + destruct L2 as (E1 & E2 & E3). repeat split; auto. intros u.
      destruct (upd_cases (s_client s) t x u) as [[-> E]|[_ E]]; rewrite E; auto.
    + destruct L2 as (E1 & [E2|[E2 E3]]); split; auto. destruct Hnj; [discriminate|exact E2].
    + destruct L2 as (E1 & E2 & E3). destruct Hnj; [discriminate|exact E3].
    + destruct L2 as (E1 & E2 & E3). split; [exact E1|]. split; [exact E2|]. intros u a.
      destruct (upd_cases (s_client s) t x u) as [[-> E]|[_ E]]; rewrite E; [|auto].
      intros ->. discriminate Hx || idtac. all: cbn in Hx; discriminate.
    + contradiction.
Qed.

Lemma live_step s l s' : live s -> nonfatal l -> step s l = Some s' -> live s'.
Proof.
  intros L Hn Hs. pose proof L as [L1 L2].
  assert (forall t, phase_of (s_server s) = Before -> early (s_client s t) = true) as Hearly.
  { intros t H. rewrite H in L2. apply L2. }
  destruct l as [t|t a|t|t|o]; cbn in Hs.
  - destruct (s_client s t) eqn:E; try discriminate. destruct (s_server s) eqn:Es; try discriminate.
    injection Hs as <-. cbn in L2. destruct L2 as (E1 & E2 & E3).
    split; cbn.
    + intros u. destruct (upd_cases (s_client s) t CStart u) as [[-> Eu]|[_ Eu]]; rewrite Eu; [|apply L1].
      rewrite L1, E. cbn. tauto.
    + repeat split; auto. intros u. destruct (upd_cases (s_client s) t CStart u) as [[-> Eu]|[_ Eu]]; rewrite Eu; auto.
  - destruct (s_client s t) eqn:E; try discriminate. injection Hs as <-.
    apply (live_client s t (CLock a)); [exact L|rewrite E; reflexivity|left; rewrite E; split; discriminate|reflexivity|discriminate].
  - destruct (s_client s t) eqn:E; try discriminate. injection Hs as <-.
    apply (live_client s t JCheck); [exact L|rewrite E; reflexivity|left; rewrite E; split; discriminate|reflexivity|discriminate].
  - unfold client_step in Hs. pose proof (Hearly t) as Ht.
    destruct (s_client s t) as [| |a|a|a|c|c| | | | |] eqn:E; try discriminate.
    + destruct (s_started s) eqn:Es; [|discriminate]. injection Hs as <-.
      apply (live_client s t CIdle); [exact L|rewrite E; reflexivity|left; rewrite E; split; discriminate|reflexivity|discriminate].
    + destruct (s_lock s) eqn:El; [discriminate|]. injection Hs as <-.
      apply live_take; [exact L|exact El|reflexivity|reflexivity|discriminate].
    + destruct (s_running s) eqn:Er; injection Hs as <-.
      * apply (live_client s t (CGo a)); [exact L|rewrite E; reflexivity|left; rewrite E; split; discriminate| |].
        -- intros H. rewrite H in L2. destruct L2; congruence.
        -- intros H. rewrite H in L2. destruct L2; congruence.
      * apply (live_release s t CIdle); [exact L|rewrite E; reflexivity|reflexivity|left; rewrite E; split; discriminate|reflexivity].
    + injection Hs as <-. assert (s_lock s = Some t) as Hl by (apply L1; rewrite E; reflexivity).
      assert (~ joining s) as Hnj.
      { intros (u & H & H'). assert (u = t) as -> by congruence. rewrite E in H'. destruct H'; discriminate. }
      split; cbn [s_lock s_client s_server s_running s_queue].
      * intros u. destruct (upd_cases (s_client s) t (CPut (s_next s)) u) as [[-> Eu]|[_ Eu]]; rewrite Eu; [|apply L1].
        rewrite Hl. cbn. tauto.
      * destruct (phase_of (s_server s)).
        -- specialize (Ht eq_refl). discriminate.
        -- destruct L2 as (E1 & [E2|[E2 E3]]); [|contradiction]. split; [exact E1|]. left.
           rewrite forallb_app, E2. reflexivity.
        -- destruct L2 as (E1 & E2 & E3). contradiction.
        -- destruct L2 as (E1 & E2 & E3). destruct (E3 t a E).
        -- contradiction.
    + injection Hs as <-. apply (live_release s t (CWait c));
        [exact L|rewrite E; reflexivity|reflexivity|left; rewrite E; split; discriminate|].
      intros H. specialize (Ht H). discriminate.
    + destruct (s_event s t) eqn:Ee; [|discriminate]. injection Hs as <-.
      apply (live_client s t CIdle); [exact L|rewrite E; reflexivity|left; rewrite E; split; discriminate|reflexivity|discriminate].
    + destruct (s_running s) eqn:Er; injection Hs as <-.
      * apply (live_client s t JLock); [exact L|rewrite E; reflexivity|left; rewrite E; split; discriminate| |discriminate].
        intros H. rewrite H in L2. destruct L2; congruence.
      * apply (live_client s t CIdle); [exact L|rewrite E; reflexivity|left; rewrite E; split; discriminate|reflexivity|discriminate].
    + destruct (s_lock s) eqn:El; [discriminate|]. injection Hs as <-.
      apply live_take; [exact L|exact El|reflexivity| |discriminate].
      intros H. specialize (Ht H). discriminate.
    + injection Hs as <-. assert (s_lock s = Some t) as Hl by (apply L1; rewrite E; reflexivity).
      assert (~ joining s) as Hnj.
      { intros (u & H & H'). assert (u = t) as -> by congruence. rewrite E in H'. destruct H'; discriminate. }
      split; cbn [s_lock s_client s_server s_running s_queue].
      * intros u. destruct (upd_cases (s_client s) t JQueue u) as [[-> Eu]|[_ Eu]]; rewrite Eu; [|apply L1].
        rewrite Hl. cbn. tauto.
      * destruct (phase_of (s_server s)).
        -- specialize (Ht eq_refl). discriminate.
        -- destruct L2 as (E1 & [E2|[E2 E3]]); [|contradiction]. split; [exact E1|]. right. split.
           ++ exists t. cbn. rewrite Hl, upd_same. auto.
           ++ exists (s_queue s). auto.
        -- destruct L2 as (E1 & E2 & E3). contradiction.
        -- destruct L2 as (E1 & E2 & E3). split; [exact E1|]. split.
           ++ intros m H. apply in_app_iff in H. destruct H as [H|[<-|[]]]; auto.
           ++ intros u a. destruct (upd_cases (s_client s) t JQueue u) as [[-> Eu]|[_ Eu]]; rewrite Eu; [discriminate|apply E3].
        -- contradiction.
    + destruct (s_unfinished s) eqn:Eu; [|discriminate]. injection Hs as <-.
      pose proof (live_client s t JThread (s_trace s)) as H. cbn in H. unfold set_client. rewrite Eu in *. apply H; clear H.
      * exact L.
      * rewrite E. reflexivity.
      * right. reflexivity.
      * intros H. specialize (Ht H). discriminate.
      * discriminate.
    + destruct (s_server s) eqn:Es; try discriminate. injection Hs as <-.
      pose proof (live_release s t CIdle (EJoined t :: s_trace s)) as H. rewrite Es in H.
      unfold note, set_lock, set_client. cbn. rewrite Es. apply H; clear H; try reflexivity; [exact L|rewrite E; reflexivity|right; reflexivity].
  - unfold server_step in Hs. cbn in Hn.
    destruct (s_server s) as [| | | |[|t c a]|t c [|]|[|]| |] eqn:Es; try discriminate; cbn in L2.
    + injection Hs as <-. split; cbn; [exact L1|exact L2].
    + injection Hs as <-. destruct L2 as (E1 & E2 & E3). split; cbn; [exact L1|]. rewrite E2. auto.
    + destruct (s_queue s) as [|m q] eqn:Eq; [discriminate|]. injection Hs as <-.
      split; [exact L1|]. cbn [s_server s_running s_queue]. destruct L2 as (E1 & [E2|[E2 (q0 & E3 & E4)]]).
      * cbn in E2. destruct m; [discriminate|]. cbn. auto.
      * destruct q0 as [|m0 q0]; cbn in E3; injection E3 as -> ->.
        -- cbn. split; [exact E1|]. split; [reflexivity|]. destruct E2 as (u & H). exists u. exact H.
        -- cbn in E4. destruct m0; [discriminate|]. cbn. split; [exact E1|]. right.
           split; [destruct E2 as (u & H); exists u; exact H|]. exists q0. auto.
    + injection Hs as <-. split; [exact L1|]. cbn. destruct L2 as (E1 & E2 & u & H).
      split; [exact E1|]. split; [exact E2|]. exists u. exact H.
    + injection Hs as <-. split; [exact L1|]. cbn. rewrite Hn. destruct L2 as (E1 & [E2|[(u & H) E3]]); split; auto.
      right. split; [exists u; exact H|exact E3].
    + contradiction.
    + injection Hs as <-. split; [exact L1|]. cbn. destruct L2 as (E1 & [E2|[(u & H) E3]]); split; auto.
      right. split; [exists u; exact H|exact E3].
    + injection Hs as <-. split; [exact L1|]. cbn. destruct L2 as (E1 & E2 & u & H).
      split; [exact E1|]. split; [exact E2|]. exists u. exact H.
    + injection Hs as <-. split; [exact L1|]. cbn. destruct L2 as (E1 & [E2|[(u & H) E3]]); split; auto.
      right. split; [exists u; exact H|exact E3].
    + injection Hs as <-. split; [exact L1|]. cbn. destruct L2 as (E1 & E2 & u & H1 & H2).
      split; [reflexivity|]. rewrite E2. split; [intros m []|]. intros t a H.
      assert (s_lock s = Some t) by (apply L1; rewrite H; reflexivity).
      assert (u = t) as -> by congruence. destruct H2; congruence.
Qed.

(** How many server steps it takes until the event of request c is set. *)
Fixpoint place (q : list msg) (c : call) : nat :=
  match q with
  | [] => 0
  | Null :: q' => S (place q' c)
  | Req _ c' _ :: q' => if Nat.eqb c' c then 0 else S (place q' c)
  end.
Definition rest (x : server) : nat :=
  match x with SGet => 0 | SGot _ => 3 | SRan _ _ _ => 2 | SSet _ => 1 | _ => 0 end.
Definition remaining (s : state) (c : call) : nat :=
  match s_server s with
  | SGot (Req _ c' _) => if Nat.eqb c' c then 2 else 3 + 4 * place (s_queue s) c + 3
  | SRan _ c' _ => if Nat.eqb c' c then 1 else 2 + 4 * place (s_queue s) c + 3
  | x => rest x + 4 * place (s_queue s) c + 3
  end.

Lemma place_app q q' t c a : In (Req t c a) q -> place (q ++ q') c = place q c.
Proof.
  induction q as [|[|t1 c1 a1] q IH]; cbn; [contradiction| |]; intros [H|H]; try discriminate.
  - rewrite IH by exact H. reflexivity.
  - injection H as -> -> ->. rewrite Nat.eqb_refl. reflexivity.
  - rewrite IH by exact H. reflexivity.
Qed.

Definition answered (s : state) (t : tid) (c : call) : Prop :=
  (exists r, In (EAnswer t c r) (s_trace s)) \/ waits (s_client s t) c /\ s_event s t = true.

Lemma unanswered s t c a :
  inv s -> In (EPut t c a) (s_trace s) -> answered s t c \/ pending s t c.
Proof.
  intros [I1 I2 I3 I4 I5 I6 I7 I8 I9 I10 I11] H.
  destruct (I10 _ _ _ H) as [H1|H1]; [left; left; exact H1|].
  destruct (I9 _ _ H1) as [_ [[H2 _]|[_ H2]]]; [left; right; auto|right; exact H2].
Qed.

Lemma pending_answered s t c : inv s -> pending s t c -> answered s t c -> exists r, In (EAnswer t c r) (s_trace s).
Proof.
  intros I Hp [H|[_ H]]; [exact H|]. destruct (i_pend _ I _ _ Hp). congruence.
Qed.

Lemma server_enabled s t c o : live s -> pending s t c -> server_step s o <> None.
Proof.
  intros [L1 L2] Hp. unfold server_step.
  destruct (s_server s) as [| | | |[|t' c' a']|t' c' f|f| |] eqn:E; cbn in L2; try discriminate.
  - destruct Hp as [[a H]|[[a H]|[f H]]]; try congruence. destruct L2 as (_ & E2 & _). rewrite E2 in H. contradiction.
  - destruct Hp as [[a H]|[[a H]|[f H]]]; try congruence. destruct (s_queue s); [contradiction|discriminate].
  - destruct Hp as [[a H]|[[a H]|[f H]]]; try congruence. destruct L2 as (_ & E2 & _). specialize (E2 _ H). discriminate.
Qed.

Lemma server_remaining s t c o s' :
  inv s -> live s -> pending s t c -> server_step s o = Some s' -> pending s' t c ->
  remaining s' c < remaining s c.
Proof.
  intros I L Hp Hs Hp'. pose proof L as [L1 L2]. unfold server_step in Hs.
  assert (forall a, In (Req t c a) (s_queue s) -> phase_of (s_server s) = Loop) as Hloop.
  { intros a H. destruct (phase_of (s_server s)) eqn:E; [|reflexivity| | |contradiction].
    - destruct L2 as (_ & E2 & _). rewrite E2 in H. contradiction.
    - destruct L2 as (_ & E2 & _). rewrite E2 in H. contradiction.
    - destruct L2 as (_ & E2 & _). specialize (E2 _ H). discriminate. }
  unfold remaining at 2.
  destruct (s_server s) as [| | | |[|t' c' a']|t' c' f|f| |] eqn:E; try discriminate.
  - destruct Hp as [[a H]|[[a H]|[f H]]]; try congruence. specialize (Hloop _ H). discriminate.
  - destruct Hp as [[a H]|[[a H]|[f H]]]; try congruence. specialize (Hloop _ H). discriminate.
  - destruct (s_queue s) as [|m q] eqn:Eq; [discriminate|]. injection Hs as <-. unfold remaining. cbn [s_server s_queue rest].
    destruct m as [|t1 c1 a1]; [cbn; lia|]. cbn [place]. destruct (Nat.eqb_spec c1 c); lia.
  - destruct Hp as [[a H]|[[a H]|[f H]]]; try congruence. specialize (Hloop _ H). discriminate.
  - injection Hs as <-. unfold remaining. cbn [s_server s_queue]. destruct (Nat.eqb_spec c' c); lia.
  - injection Hs as <-. unfold remaining. cbn [s_server s_queue rest]. destruct (Nat.eqb_spec c' c) as [->|Hne]; [|lia].
    exfalso. destruct Hp' as [[a H]|[[a H]|[f' H]]]; cbn in *; try discriminate.
    (* c is in the queue although it has been handled *)
    destruct I as [I1 I2 I3 I4 I5 I6 I7 I8 I9 I10 I11].
    pose proof (I8 _ _ _ E) as Hr. destruct (s_result s c) as [o'|] eqn:Er; [|contradiction].
    apply I5 in Er. destruct Er as [a2 Er]. rewrite I1, map_app in I3. rewrite E in I3. cbn in I3.
    assert (In c (map fst (handles (s_trace s)))) as H1.
    { apply in_map_iff. exists (c, a2). split; [reflexivity|]. apply handles_in. eauto. }
    assert (In c (map fst (reqs (s_queue s)))) as H2.
    { apply in_map_iff. exists (c, a). split; [reflexivity|]. clear -H.
      induction (s_queue s) as [|[|t1 c1 a1] q IH]; cbn in *; [contradiction|destruct H as [H|H]; [discriminate|auto]|].
      destruct H as [H|H]; [injection H as <- <- <-; auto|auto]. }
    apply in_split in H1. destruct H1 as (l1 & l2 & H1). rewrite H1, <- app_assoc in I3. cbn in I3.
    apply NoDup_remove_2 in I3. apply I3. rewrite !in_app_iff. auto.
  - destruct Hp as [[a H]|[[a H]|[f' H]]]; try congruence. specialize (Hloop _ H). cbn in Hloop. destruct f; [discriminate|].
    injection Hs as <-. unfold remaining. cbn [s_server s_queue rest]. lia.
  - destruct Hp as [[a H]|[[a H]|[f H]]]; try congruence. specialize (Hloop _ H). discriminate.
Qed.

(** Other threads do not delay it. *)
Lemma other_remaining s t c l s' :
  live s -> pending s t c -> step s l = Some s' -> (forall o, l <> LServer o) -> remaining s' c = remaining s c.
Proof.
  intros L Hp Hs Hl. assert (forall m, (s_server s' = s_server s /\ s_queue s' = s_queue s ++ m) -> remaining s' c = remaining s c) as Hsame.
  { intros m [E1 E2]. unfold remaining. rewrite E1, E2.
    assert (place (s_queue s ++ m) c = place (s_queue s) c \/
      (exists a, s_server s = SGot (Req t c a)) \/ (exists f, s_server s = SRan t c f)) as [->|[[a Ha]|[f Hf]]].
    { destruct Hp as [[a H]|H]; [left; apply place_app with t a; exact H|right; exact H]. }
    - reflexivity.
    - rewrite Ha, Nat.eqb_refl. reflexivity.
    - rewrite Hf, Nat.eqb_refl. reflexivity. }
  destruct l as [u|u a|u|u|o]; cbn in Hs; [| | | |destruct (Hl o eq_refl)].
  - destruct (s_client s u); try discriminate. destruct (s_server s) eqn:Es; try discriminate. injection Hs as <-.
    exfalso. destruct L as [_ L2]. rewrite Es in L2. cbn in L2. destruct L2 as (_ & Eq & _).
    destruct Hp as [[a H]|[[a H]|[f H]]]; [rewrite Eq in H; contradiction|congruence|congruence].
  - destruct (s_client s u); try discriminate. injection Hs as <-. apply (Hsame []). cbn. rewrite app_nil_r. auto.
  - destruct (s_client s u); try discriminate. injection Hs as <-. apply (Hsame []). cbn. rewrite app_nil_r. auto.
  - unfold client_step in Hs.
    assert (exists m, s_server s' = s_server s /\ s_queue s' = s_queue s ++ m) as [m Hm]; [|exact (Hsame m Hm)].
    destruct (s_client s u) as [| |a|a|a|c1|c1| | | | |] eqn:E; try discriminate;
      repeat match goal with
             | H : context [match s_server s with _ => _ end] |- _ => destruct (s_server s) eqn:?; try discriminate
             | H : context [match s_started s with _ => _ end] |- _ => destruct (s_started s); try discriminate
             | H : context [match s_running s with _ => _ end] |- _ => destruct (s_running s); try discriminate
             | H : context [match s_lock s with _ => _ end] |- _ => destruct (s_lock s); try discriminate
             | H : context [match s_unfinished s with _ => _ end] |- _ => destruct (s_unfinished s); try discriminate
             | H : context [if s_event s u then _ else _] |- _ => destruct (s_event s u); try discriminate
             end; injection Hs as <-; cbn;
      solve [exists []; rewrite app_nil_r; auto | eexists; split; reflexivity].
Qed.

Fixpoint count_server (ls : list label) : nat :=
  match ls with [] => 0 | LServer _ :: ls' => S (count_server ls') | _ :: ls' => count_server ls' end.

Lemma live_runs s ls s' : live s -> Forall nonfatal ls -> runs s ls = Some s' -> live s'.
Proof.
  revert s. induction ls as [|l ls IH]; intros s L Hn H; cbn in H; [injection H as <-; exact L|].
  destruct (step s l) as [s1|] eqn:E; [|discriminate]. inversion Hn; subst.
  apply (IH s1); [|assumption|exact H]. apply (live_step s l); assumption.
Qed.

(** The trace only grows. *)
Lemma step_trace s l s' e : step s l = Some s' -> In e (s_trace s) -> In e (s_trace s').
Proof.
  intros Hs He. destruct l as [u|u a|u|u|o]; cbn in Hs; unfold client_step, server_step in Hs;
    repeat match goal with
           | H : context [match ?x with _ => _ end] |- _ => destruct x eqn:?; try discriminate
           end; injection Hs as <-; cbn; auto.
Qed.

Lemma answered_step s l s' t c : step s l = Some s' -> answered s t c -> answered s' t c.
Proof.
  intros E [[r Ha]|[Hw He]]; [left; exists r; apply (step_trace s l); assumption|].
  destruct l as [u|u a|u|u|o].
  1-4: destruct (Nat.eq_dec t u) as [<-|Hne].
  - cbn in E. destruct Hw as [Hw|Hw]; rewrite Hw in E; discriminate.
  - right. cbn in E. destruct (s_client s u); try discriminate. destruct (s_server s); try discriminate.
    injection E as <-. cbn. rewrite upd_other by exact Hne. auto.
  - cbn in E. destruct Hw as [Hw|Hw]; rewrite Hw in E; discriminate.
  - right. cbn in E. destruct (s_client s u); try discriminate.
    injection E as <-. cbn. rewrite upd_other by exact Hne. auto.
  - cbn in E. destruct Hw as [Hw|Hw]; rewrite Hw in E; discriminate.
  - right. cbn in E. destruct (s_client s u); try discriminate.
    injection E as <-. cbn. rewrite upd_other by exact Hne. auto.
  - cbn in E. unfold client_step in E. destruct Hw as [Hw|Hw]; rewrite Hw in E.
    + injection E as <-. right. cbn. rewrite upd_same. split; [right; reflexivity|exact He].
    + rewrite He in E. injection E as <-. left. eexists. left. reflexivity.
  - right. cbn in E. unfold client_step in E.
    repeat match type of E with context [match ?x with _ => _ end] => destruct x; try discriminate end;
      injection E as <-; cbn; rewrite ?upd_other by exact Hne; auto.
  - right. cbn in E. unfold server_step in E.
    repeat match type of E with context [match ?x with _ => _ end] => destruct x; try discriminate end;
      injection E as <-; cbn; auto.
    split; [exact Hw|]. destruct (upd_cases (s_event s) t0 true t) as [[-> Eu]|[_ Eu]]; rewrite Eu; [reflexivity|exact He].
Qed.
Lemma answered_runs s ls s' t c : runs s ls = Some s' -> answered s t c -> answered s' t c.
Proof.
  revert s. induction ls as [|l ls IH]; intros s H Ha; cbn in H; [injection H as <-; exact Ha|].
  destruct (step s l) as [s1|] eqn:E; [|discriminate]. apply (IH s1 H). apply (answered_step s l); assumption.
Qed.

Theorem answered_eventually s ls s' t c a :
  inv s -> live s -> In (EPut t c a) (s_trace s) ->
  runs s ls = Some s' -> Forall nonfatal ls -> remaining s c <= count_server ls -> answered s' t c.
Proof.
  revert s. induction ls as [|l ls IH]; intros s I L Hput Hr Hn Hc.
  - cbn in *. injection Hr as <-. destruct (unanswered s t c a I Hput) as [H|H]; [exact H|].
    exfalso. revert Hc. unfold remaining. destruct (s_server s) as [| | | |[|t1 c1 a1]|t1 c1 f| | |]; try lia;
      destruct (Nat.eqb c1 c); lia.
  - destruct (unanswered s t c a I Hput) as [H0|H0]; [exact (answered_runs _ _ _ _ _ Hr H0)|].
    cbn in Hr. destruct (step s l) as [s1|] eqn:E; [|discriminate]. inversion Hn as [|? ? Hn1 Hn2]; subst.
    assert (inv s1) as I1 by (apply (inv_step s l); assumption).
    assert (live s1) as L1 by (apply (live_step s l); assumption).
    assert (In (EPut t c a) (s_trace s1)) as Hput1 by (apply (step_trace s l); assumption).
    destruct (unanswered s1 t c a I1 Hput1) as [H1|H1]; [exact (answered_runs _ _ _ _ _ Hr H1)|].
    apply (IH s1 I1 L1 Hput1 Hr Hn2).
    destruct l as [u|u a0|u|u|o].
    5: { cbn in E. pose proof (server_remaining s t c o s1 I L H0 E H1). cbn in Hc. lia. }
    all: rewrite (other_remaining s t c _ s1 L H0 E) by discriminate; cbn in Hc; exact Hc.
Qed.

(** Calls are refused only before the loop, after a fatal handler or after a join. *)
Definition fatal_event (e : event) : Prop := match e with EHandle _ _ (RFatal _) => True | _ => False end.
Definition join_event (e : event) : Prop := match e with EJoin _ => True | _ => False end.
Definition joiner (x : client) : bool := match x with JCheck | JLock | JPut | JQueue | JThread => true | _ => false end.
Record open (s : state) : Prop := Open {
  o_phase : match phase_of (s_server s) with
            | Before => s_running s = false /\ s_queue s = [] /\ forall t, early (s_client s t) = true
            | Loop => s_running s = true | _ => False end;
  o_queue : forallb req (s_queue s) = true;
  o_client : forall t, joiner (s_client s t) = false;
  o_put : forall t c a, In (EPut t c a) (s_trace s) -> phase_of (s_server s) = Loop
}.
Definition calm (tr : list event) : Prop := forall e, In e tr -> ~ fatal_event e /\ ~ join_event e.
Record accepts (s : state) : Prop := Accepts {
  a_open : calm (s_trace s) -> open s;
  a_refused : forall tr1 t tr2, s_trace s = tr1 ++ ENotRunning t :: tr2 -> calm tr2 ->
    forall u c a, ~ In (EPut u c a) tr2
}.

Lemma accepts_init : accepts init.
Proof.
  split.
  - intros _. split; cbn; auto. contradiction.
  - intros [|e tr1] t tr2 H; discriminate.
Qed.

Lemma calm_tail e tr : calm (e :: tr) -> calm tr.
Proof. intros H e' He. apply H. right. exact He. Qed.

Lemma open_client s t x l es :
  open s -> joiner x = false -> (phase_of (s_server s) = Before -> early x = true) ->
  (forall u c a, ~ In (EPut u c a) es) ->
  open (St (s_server s) (upd (s_client s) t x) l (s_queue s) (s_unfinished s) (s_started s) (s_running s)
         (s_event s) (s_result s) (s_next s) (es ++ s_trace s)).
Proof.
  intros [O1 O2 O3 O4] Hj Hb He. split; cbn [s_server s_client s_queue s_running s_trace].
  - destruct (phase_of (s_server s)); auto. destruct O1 as (E1 & E2 & E3). repeat split; auto.
    intros u. destruct (upd_cases (s_client s) t x u) as [[-> E]|[_ E]]; rewrite E; auto.
  - exact O2.
  - intros u. destruct (upd_cases (s_client s) t x u) as [[-> E]|[_ E]]; rewrite E; auto.
  - intros u c a H. apply in_app_iff in H. destruct H as [H|H]; [destruct (He _ _ _ H)|eauto].
Qed.

Lemma accepts_step s l s' : accepts s -> step s l = Some s' -> accepts s'.
Proof.
  intros [A1 A2] Hs.
  assert (forall es, s_trace s' = es ++ s_trace s -> (es = [] \/ exists e, es = [e]) ->
    (forall t, In (ENotRunning t) es -> calm (s_trace s) -> forall u c a, ~ In (EPut u c a) (s_trace s)) ->
    forall tr1 t tr2, s_trace s' = tr1 ++ ENotRunning t :: tr2 -> calm tr2 -> forall u c a, ~ In (EPut u c a) tr2) as Href.
  { intros es E Hes Hn tr1 t tr2 H Hc. rewrite E in H. destruct Hes as [->|[e ->]]; [exact (A2 _ _ _ H Hc)|].
    destruct tr1 as [|e1 tr1]; cbn in H; injection H as -> H; [|exact (A2 _ _ _ H Hc)].
    subst tr2. apply (Hn t); [left; reflexivity|exact Hc]. }
  destruct l as [t|t a|t|t|o]; cbn in Hs.
  - destruct (s_client s t) eqn:E; try discriminate. destruct (s_server s) eqn:Es; try discriminate. injection Hs as <-.
    split; [|apply (Href []); [reflexivity|auto|intros ? []]].
    intros Hc. destruct (A1 Hc) as [O1 O2 O3 O4]. rewrite Es in O1, O4. cbn in O1. destruct O1 as (E1 & E2 & E3).
    split; cbn; auto.
    + repeat split; auto. intros u. destruct (upd_cases (s_client s) t CStart u) as [[-> Eu]|[_ Eu]]; rewrite Eu; auto.
    + intros u. destruct (upd_cases (s_client s) t CStart u) as [[-> Eu]|[_ Eu]]; rewrite Eu; auto.
  - destruct (s_client s t) eqn:E; try discriminate. injection Hs as <-.
    split; [|apply (Href []); [reflexivity|auto|intros ? []]].
    intros Hc. apply (open_client s t (CLock a) (s_lock s) []); [exact (A1 Hc)|reflexivity|reflexivity|intros ? ? ? []].
  - destruct (s_client s t) eqn:E; try discriminate. injection Hs as <-.
    split; [|apply (Href [EJoin t]); [reflexivity|eauto|intros ? [H|[]]; discriminate]].
    intros Hc. destruct (Hc (EJoin t) (or_introl eq_refl)) as [_ H]. destruct H. exact Logic.I.
  - unfold client_step in Hs.
    assert (calm (s_trace s) -> phase_of (s_server s) = Before -> early (s_client s t) = true) as Hearly.
    { intros Hc Hb. destruct (A1 Hc) as [O1 _ _ _]. rewrite Hb in O1. apply O1. }
    assert (calm (s_trace s) -> joiner (s_client s t) = false) as Hj by (intros Hc; apply (A1 Hc)).
    destruct (s_client s t) as [| |a|a|a|c|c| | | | |] eqn:E; try discriminate.
    + destruct (s_started s) eqn:Es; [|discriminate]. injection Hs as <-.
      split; [|apply (Href [EStarted t]); [reflexivity|eauto|intros ? [H|[]]; discriminate]].
      intros Hc. apply (open_client s t CIdle (s_lock s) [EStarted t]);
        [exact (A1 (calm_tail _ _ Hc))|reflexivity|reflexivity|intros ? ? ? [H|[]]; discriminate].
    + destruct (s_lock s) eqn:El; [discriminate|]. injection Hs as <-.
      split; [|apply (Href []); [reflexivity|auto|intros ? []]].
      intros Hc. apply (open_client s t (CCheck a) (Some t) []); [exact (A1 Hc)|reflexivity|reflexivity|intros ? ? ? []].
    + destruct (s_running s) eqn:Er; injection Hs as <-.
      * split; [|apply (Href []); [reflexivity|auto|intros ? []]].
        intros Hc. apply (open_client s t (CGo a) (s_lock s) []); [exact (A1 Hc)|reflexivity| |intros ? ? ? []].
        intros Hb. destruct (A1 Hc) as [O1 _ _ _]. rewrite Hb in O1. destruct O1. congruence.
      * split.
        -- intros Hc. apply (open_client s t CIdle None [ENotRunning t]);
             [exact (A1 (calm_tail _ _ Hc))|reflexivity|reflexivity|intros ? ? ? [H|[]]; discriminate].
        -- apply (Href [ENotRunning t]); [reflexivity|eauto|]. intros u _ Hc u' c' a' Hin.
           destruct (A1 Hc) as [O1 _ _ O4]. specialize (O4 _ _ _ Hin). rewrite O4 in O1. congruence.
    + injection Hs as <-. split; [|apply (Href [EPut t (s_next s) a]); [reflexivity|eauto|intros ? [H|[]]; discriminate]].
      intros Hc. apply calm_tail in Hc. pose proof (Hearly Hc) as Hb. destruct (A1 Hc) as [O1 O2 O3 O4].
      assert (phase_of (s_server s) = Loop) as Hl.
      { destruct (phase_of (s_server s)); try contradiction; [specialize (Hb eq_refl); discriminate|reflexivity]. }
      split; cbn [s_server s_client s_queue s_running s_trace].
      * rewrite Hl in O1 |- *. exact O1.
      * rewrite forallb_app, O2. reflexivity.
      * intros u. destruct (upd_cases (s_client s) t (CPut (s_next s)) u) as [[-> Eu]|[_ Eu]]; rewrite Eu; auto.
      * intros; exact Hl.
    + injection Hs as <-. split; [|apply (Href []); [reflexivity|auto|intros ? []]].
      intros Hc. apply (open_client s t (CWait c) None []); [exact (A1 Hc)|reflexivity| |intros ? ? ? []].
      intros Hb. specialize (Hearly Hc Hb). discriminate.
    + destruct (s_event s t) eqn:Ee; [|discriminate]. injection Hs as <-.
      split; [|apply (Href [EAnswer t c (answer_of (s_result s c))]); [reflexivity|eauto|intros ? [H|[]]; discriminate]].
      intros Hc. apply (open_client s t CIdle (s_lock s) [EAnswer t c (answer_of (s_result s c))]);
        [exact (A1 (calm_tail _ _ Hc))|reflexivity|reflexivity|intros ? ? ? [H|[]]; discriminate].
    + destruct (s_running s) eqn:Er; injection Hs as <-.
      * split; [intros Hc; specialize (Hj Hc); discriminate|apply (Href []); [reflexivity|auto|intros ? []]].
      * split; [intros Hc; specialize (Hj (calm_tail _ _ Hc)); discriminate|apply (Href [EJoined t]); [reflexivity|eauto|intros ? [H|[]]; discriminate]].
    + destruct (s_lock s) eqn:El; [discriminate|]. injection Hs as <-.
      split; [intros Hc; specialize (Hj Hc); discriminate|apply (Href []); [reflexivity|auto|intros ? []]].
    + injection Hs as <-.
      split; [intros Hc; specialize (Hj Hc); discriminate|apply (Href []); [reflexivity|auto|intros ? []]].
    + destruct (s_unfinished s) eqn:Eu; [|discriminate]. injection Hs as <-.
      split; [intros Hc; specialize (Hj Hc); discriminate|apply (Href []); [reflexivity|auto|intros ? []]].
    + destruct (s_server s) eqn:Es; try discriminate. injection Hs as <-.
      split; [intros Hc; specialize (Hj (calm_tail _ _ Hc)); discriminate|apply (Href [EJoined t]); [reflexivity|eauto|intros ? [H|[]]; discriminate]].
  - unfold server_step in Hs.
    destruct (s_server s) as [| | | |[|t c a]|t c [|]|[|]| |] eqn:Es; try discriminate.
    + injection Hs as <-. split; [|apply (Href []); [reflexivity|auto|intros ? []]].
      intros Hc. destruct (A1 Hc) as [O1 O2 O3 O4]. rewrite Es in O1, O4. split; cbn; auto.
    + injection Hs as <-. split; [|apply (Href []); [reflexivity|auto|intros ? []]].
      intros Hc. destruct (A1 Hc) as [O1 O2 O3 O4]. split; cbn; auto.
    + destruct (s_queue s) as [|m q] eqn:Eq; [discriminate|]. injection Hs as <-.
      split; [|apply (Href []); [reflexivity|auto|intros ? []]].
      intros Hc. destruct (A1 Hc) as [O1 O2 O3 O4]. rewrite Es in O1, O4. rewrite Eq in O2. cbn in O2.
      destruct m; [discriminate|]. split; cbn; auto.
    + injection Hs as <-. split; [|apply (Href []); [reflexivity|auto|intros ? []]].
      intros Hc. destruct (A1 Hc) as [O1 O2 O3 O4]. rewrite Es in O1. destruct O1.
    + injection Hs as <-. split; [|apply (Href [EHandle c a o]); [reflexivity|eauto|intros ? [H|[]]; discriminate]].
      intros Hc. destruct (Hc (EHandle c a o) (or_introl eq_refl)) as [Hf _].
      destruct (A1 (calm_tail _ _ Hc)) as [O1 O2 O3 O4]. rewrite Es in O1.
      assert (is_fatal o = false) as Ef by (destruct o; auto; destruct Hf; exact Logic.I).
      split; cbn; rewrite ?Ef; auto.
    + injection Hs as <-. split; [|apply (Href []); [reflexivity|auto|intros ? []]].
      intros Hc. destruct (A1 Hc) as [O1 O2 O3 O4]. rewrite Es in O1. destruct O1.
    + injection Hs as <-. split; [|apply (Href []); [reflexivity|auto|intros ? []]].
      intros Hc. destruct (A1 Hc) as [O1 O2 O3 O4]. rewrite Es in O1. split; cbn; auto.
    + injection Hs as <-. split; [|apply (Href []); [reflexivity|auto|intros ? []]].
      intros Hc. destruct (A1 Hc) as [O1 O2 O3 O4]. rewrite Es in O1. destruct O1.
    + injection Hs as <-. split; [|apply (Href []); [reflexivity|auto|intros ? []]].
      intros Hc. destruct (A1 Hc) as [O1 O2 O3 O4]. rewrite Es in O1. split; cbn; auto.
    + injection Hs as <-. split; [|apply (Href []); [reflexivity|auto|intros ? []]].
      intros Hc. destruct (A1 Hc) as [O1 O2 O3 O4]. rewrite Es in O1. destruct O1.
Qed.
Lemma accepts_runs s ls s' : accepts s -> runs s ls = Some s' -> accepts s'.
Proof.
  revert s. induction ls as [|l ls IH]; intros s A H; cbn in H; [injection H as <-; exact A|].
  destruct (step s l) as [s1|] eqn:E; [|discriminate]. apply (IH s1); [|exact H]. exact (accepts_step _ _ _ A E).
Qed.
