(** The shutdown phase (305-317): once no task is queued or running, every schedule is
    bounded and can only stop when all threads have ended. *)
From Coq Require Import List Bool Arith Lia Permutation.
From Verif Require Import SchedModel SchedFacts SchedThms SystemModel SystemSteps SystemFacts SystemLock SystemMeasure SystemLive SystemShut.
Import ListNotations.

Definition idle (th : thread) : bool := t_worker th && idle_pc (t_pc th).
Definition idles (s : sys) : nat := length (filter idle (s_threads s)).
Definition gone (s : sys) : Prop := forall t th, nth_error (s_threads s) t = Some th -> t_worker th = true -> t_pc th = PExit.
(** The wake-up calls (310) still to be put on the queue. *)
Definition puts_left (n : nat) (m : mode) : nat := match m with MCode (Shutdown _) => n | MShut p _ _ _ => p | _ => 0 end.

Record closing (t0 n : nat) (s : sys) : Prop := Closing {
  k_n : length (workers s) = n;
  k_workers : forall t th, nth_error (s_threads s) t = Some th -> t <> t0 -> t_worker th = true /\ t_stack th = [] /\
    match t_pc th with PLock (Some _) | PStack => False | _ => True end;
  k_queue : forall q, In q (s_queue s) -> q = None;
  k_main : exists th, nth_error (s_threads s) t0 = Some th /\ t_worker th = false /\
    ((t_pc th = PExit /\ gone s) \/
     exists fr, t_pc th = PStack /\ t_stack th = [fr] /\ f_task fr = None /\ idles s <= puts_left n (f_mode fr) + length (s_queue s) /\
       match f_mode fr with
       | MCode (Shutdown (Done _)) => True
       | MShut p js b (Done _) => ~ In t0 js /\ forall t th', nth_error (s_threads s) t = Some th' -> t_worker th' = true -> In t js \/ t_pc th' = PExit
       | MCode (Done _) => gone s
       | _ => False
       end)
}.

Lemma filter_setnth {X} (f : X -> bool) l : forall t x y, nth_error l t = Some x ->
  length (filter f (setnth l t y)) + (if f x then 1 else 0) = length (filter f l) + (if f y then 1 else 0).
Proof.
  induction l as [|a l IH]; intros [|t] x y H; cbn in H; try discriminate.
  - injection H as ->. cbn. destruct (f x), (f y); cbn; lia.
  - cbn. specialize (IH t x y H). destruct (f a); cbn; lia.
Qed.
Lemma workers_count l : length (filter (fun j => match nth_error l j with Some th => t_worker th | None => false end) (seq 0 (length l))) = length (filter t_worker l).
Proof.
  induction l as [|x l IH]; [reflexivity|]. cbn [length seq]. rewrite <- seq_shift. cbn [filter nth_error].
  assert (forall (f : nat -> bool) m, length (filter f (map S m)) = length (filter (fun j => f (S j)) m)) as Hm.
  { intros f m. induction m as [|a m IHm]; [reflexivity|]. cbn. destruct (f (S a)); cbn; lia. }
  destruct (t_worker x); cbn [length]; rewrite Hm; cbn [nth_error]; rewrite IH; reflexivity.
Qed.
Lemma workers_len s : length (workers s) = length (filter t_worker (s_threads s)).
Proof. apply workers_count. Qed.
Lemma in_workers s t th : nth_error (s_threads s) t = Some th -> t_worker th = true -> In t (workers s).
Proof.
  intros Ht Hw. unfold workers. apply filter_In. split; [|rewrite Ht; exact Hw]. apply in_seq. split; [lia|]. cbn. apply nth_error_Some. congruence.
Qed.
Lemma not_worker s t th : nth_error (s_threads s) t = Some th -> t_worker th = false -> ~ In t (workers s).
Proof. intros Ht Hw H. unfold workers in H. apply filter_In in H. rewrite Ht, Hw in H. destruct H. discriminate. Qed.
Lemma workers_same s s' t th th' : nth_error (s_threads s) t = Some th -> s_threads s' = setnth (s_threads s) t th' -> t_worker th' = t_worker th ->
  length (workers s') = length (workers s).
Proof.
  intros Ht E Hw. rewrite !workers_len, E. pose proof (filter_setnth t_worker _ t th th' Ht) as H. rewrite Hw in H. lia.
Qed.
Lemma workers_tell l j : length (filter t_worker (tell l j)) = length (filter t_worker l).
Proof.
  unfold tell. destruct (nth_error l j) as [th|] eqn:E; [|reflexivity].
  pose proof (filter_setnth t_worker l j th (Th (t_worker th) true (t_pc th) (t_stack th)) E) as H. cbn [t_worker] in H. destruct (t_worker th); lia.
Qed.
Lemma idles_tell l j : length (filter idle (tell l j)) = length (filter idle l).
Proof.
  unfold tell. destruct (nth_error l j) as [th|] eqn:E; [|reflexivity].
  pose proof (filter_setnth idle l j th (Th (t_worker th) true (t_pc th) (t_stack th)) E) as H. unfold idle at 2 4 in H. cbn [t_worker t_pc] in H. destruct (t_worker th && idle_pc (t_pc th)); lia.
Qed.
Lemma tell_back l j t x : nth_error (tell l j) t = Some x -> exists y, nth_error l t = Some y /\ t_worker x = t_worker y /\ t_pc x = t_pc y /\ t_stack x = t_stack y.
Proof.
  unfold tell. destruct (nth_error l j) as [th|] eqn:E; [|eauto]. intros H. apply setnth_cases in H. destruct H as [(-> & -> & _)|(_ & H)]; [|eauto].
  exists th. auto.
Qed.

(** What is still to be done. *)
Definition pc_weight (p : pc) : nat := match p with PUnlock false => 7 | PTop => 6 | PGet => 5 | PLock _ => 4 | PUnlock true => 3 | _ => 0 end.
Definition mode_weight (n : nat) (m : mode) : nat :=
  match m with
  | MCode (Shutdown _) => 4 + 3 * n
  | MShut p js b _ => 2 + p + 2 * length js + (if b then 0 else 1)
  | MCode _ => 1
  | _ => 0
  end.
Definition th_weight (n : nat) (th : thread) : nat :=
  pc_weight (t_pc th) + match t_stack th with fr :: _ => mode_weight n (f_mode fr) | [] => 0 end.
Definition weight (n : nat) (s : sys) : nat := list_sum (map (th_weight n) (s_threads s)).

Lemma sum_setnth (f : thread -> nat) l : forall t x y, nth_error l t = Some x -> list_sum (map f (setnth l t y)) + f x = list_sum (map f l) + f y.
Proof.
  induction l as [|a l IH]; intros [|t] x y H; cbn in H; try discriminate.
  - injection H as ->. unfold list_sum. cbn. lia.
  - specialize (IH t x y H). unfold list_sum in *. cbn in *. lia.
Qed.
Lemma sum_tell n l j : list_sum (map (th_weight n) (tell l j)) = list_sum (map (th_weight n) l).
Proof.
  unfold tell. destruct (nth_error l j) as [th|] eqn:E; [|reflexivity].
  pose proof (sum_setnth (th_weight n) l j th (Th (t_worker th) true (t_pc th) (t_stack th)) E) as H.
  assert (th_weight n (Th (t_worker th) true (t_pc th) (t_stack th)) = th_weight n th) as Hx by reflexivity. lia.
Qed.

(** A worker's step. *)
Lemma closing_worker t0 n s t s' : closing t0 n s -> t <> t0 -> sys_step s t = Some s' -> closing t0 n s' /\ weight n s' < weight n s.
Proof.
  intros [K1 K2 K3 K4] Hne H. unfold sys_step in H. destruct (nth_error (s_threads s) t) as [th|] eqn:Ht; [|discriminate].
  destruct (K2 _ _ Ht Hne) as (Hw & Hs & Hp0).
  assert (forall p q lk, match p with PLock (Some _) | PStack => False | _ => True end -> t_pc th <> PExit ->
    (forall x, In x q -> x = None) -> (if idle_pc p then 1 else 0) + length (s_queue s) <= (if idle_pc (t_pc th) then 1 else 0) + length q ->
    pc_weight p < pc_weight (t_pc th) ->
    s' = Sys (setnth (s_threads s) t (at_pc th p)) q lk (s_evals s) (s_clock s) (s_events s) -> closing t0 n s' /\ weight n s' < weight n s) as Hgo.
  { intros p q lk Hp1 Hex Hq Hid Hwt ->.
    assert (gone s -> gone (Sys (setnth (s_threads s) t (at_pc th p)) q lk (s_evals s) (s_clock s) (s_events s))) as Hgone.
    { intros Hg. exfalso. apply Hex. exact (Hg _ _ Ht Hw). }
    split; [split|]; cbn [s_threads s_queue s_lock s_evals s_clock s_events].
    - erewrite workers_same; [exact K1|exact Ht|reflexivity|reflexivity].
    - intros t' x Hx Hne'. apply setnth_cases in Hx. destruct Hx as [(-> & -> & _)|(_ & Hx)]; [|exact (K2 _ _ Hx Hne')]. cbn. auto.
    - exact Hq.
    - destruct K4 as (th0 & Ht0 & Hw0 & Hor). exists th0. rewrite setnth_other by congruence. split; [exact Ht0|]. split; [exact Hw0|].
      destruct Hor as [[E Hg]|(fr & E1 & E2 & E3 & E4 & E5)]; [left; split; [exact E|exact (Hgone Hg)]|]. right. exists fr. split; [exact E1|]. split; [exact E2|]. split; [exact E3|].
      split.
      + unfold idles in *. cbn. pose proof (filter_setnth idle _ t th (at_pc th p) Ht) as Hf. 
        assert (idle (at_pc th p) = idle_pc p) as Ha by (unfold idle; cbn; rewrite Hw; reflexivity). assert (idle th = idle_pc (t_pc th)) as Hb by (unfold idle; rewrite Hw; reflexivity).
        rewrite Ha, Hb in Hf. cbn in *. destruct (idle_pc p), (idle_pc (t_pc th)); lia.
      + destruct (f_mode fr) as [[]| |? ? ? []]; auto. destruct E5 as [E6 E5]. split; [exact E6|]. intros t' x Hx Hwx. apply setnth_cases in Hx. destruct Hx as [(-> & -> & _)|(_ & Hx)]; [|exact (E5 _ _ Hx Hwx)].
        destruct (E5 _ _ Ht Hw) as [Hin|Hx]; [auto|contradiction].
    - unfold weight. cbn [s_threads]. pose proof (sum_setnth (th_weight n) _ t th (at_pc th p) Ht) as Hsum.
      assert (th_weight n (at_pc th p) = pc_weight p) as Ha by (unfold th_weight; cbn; rewrite Hs; lia).
      assert (th_weight n th = pc_weight (t_pc th)) as Hb by (unfold th_weight; rewrite Hs; lia). lia. }
  destruct (t_pc th) as [| |[x|]| |lv|] eqn:Hp; try contradiction.
  - unfold go in H. injection H as <-. eapply Hgo; [| | | | |reflexivity]; destruct (t_finished th); cbn; auto; try discriminate; lia.
  - destruct (s_queue s) as [|q qs] eqn:Eq; [discriminate|]. injection H as <-. pose proof (K3 q (or_introl eq_refl)) as ->.
    apply (Hgo (PLock None) qs (s_lock s)); [exact I|discriminate|intros x Hx; apply K3; right; exact Hx| | |reflexivity]; cbn; lia.
  - destruct (s_lock s) eqn:El; [discriminate|]. unfold go in H. injection H as <-. eapply Hgo; [| | | | |reflexivity]; cbn; auto; try discriminate; lia.
  - unfold go in H. injection H as <-. eapply Hgo; [| | | | |reflexivity]; destruct lv, (s_lock s); cbn; auto; try discriminate; lia.
  - discriminate.
Qed.

(** A step of the thread that shuts down. *)
Lemma closing_main t0 n s s' : closing t0 n s -> sys_step s t0 = Some s' -> closing t0 n s' /\ weight n s' < weight n s.
Proof.
  intros [K1 K2 K3 (th & Ht & Hw & Hor)] H. destruct Hor as [[E _]|(fr & E1 & E2 & E3 & E4 & E5)]; [unfold sys_step in H; rewrite Ht, E in H; discriminate|].
  rewrite (step_stack s t0 th fr [] Ht E1 E2) in H. unfold frame_step in H.
  assert (forall th' q h, t_worker th' = false -> length (workers (Sys (setnth (s_threads s) t0 th') q (s_lock s) (s_evals s) (s_clock s) h)) = n) as Hn.
  { intros th' q h Hw'. erewrite workers_same; [exact K1|exact Ht|reflexivity|congruence]. }
  assert (forall th' t x, nth_error (setnth (s_threads s) t0 th') t = Some x -> t <> t0 -> t_worker x = true /\ t_stack x = [] /\
    match t_pc x with PLock (Some _) | PStack => False | _ => True end) as Hoth.
  { intros th' t x Hx Hne. rewrite setnth_other in Hx by congruence. exact (K2 _ _ Hx Hne). }
  assert (forall th' t x, t_worker th' = false -> nth_error (setnth (s_threads s) t0 th') t = Some x -> t_worker x = true -> nth_error (s_threads s) t = Some x) as Hback.
  { intros th' t x Hw' Hx Hwx. apply setnth_cases in Hx. destruct Hx as [(-> & -> & _)|(_ & Hx)]; [congruence|exact Hx]. }
  assert (forall th' q h, t_worker th' = false -> idles (Sys (setnth (s_threads s) t0 th') q (s_lock s) (s_evals s) (s_clock s) h) = idles s) as Hid.
  { intros th' q h Hw'. unfold idles. cbn. pose proof (filter_setnth idle _ t0 th th' Ht) as Hf. 
    assert (idle th' = false) as Ha by (unfold idle; rewrite Hw'; reflexivity). assert (idle th = false) as Hb by (unfold idle; rewrite Hw; reflexivity). rewrite Ha, Hb in Hf. lia. }
  assert (forall th', th_weight n th' < th_weight n th -> list_sum (map (th_weight n) (setnth (s_threads s) t0 th')) < list_sum (map (th_weight n) (s_threads s))) as Hsum.
  { intros th' Hlt. pose proof (sum_setnth (th_weight n) _ t0 th th' Ht) as Hx. lia. }
  assert (th_weight n th = mode_weight n (f_mode fr)) as Hwt by (unfold th_weight; rewrite E1, E2; reflexivity).
  destruct (f_mode fr) as [[o| | | | |[o| | | | |]]|?|[|p] js b [o| | | | |]] eqn:Hm; try contradiction.
  - rewrite E3 in H. unfold go in H. injection H as <-. split; [split|]; cbn [s_threads s_queue s_lock s_evals s_clock s_events app].
    + apply Hn. exact Hw.
    + apply Hoth.
    + exact K3.
    + eexists. rewrite (setnth_same _ _ _ _ Ht). split; [reflexivity|]. split; [exact Hw|]. left. split; [reflexivity|].
      intros t x Hx Hwx. apply (E5 t x); [|exact Hwx]. eapply Hback; [|exact Hx|exact Hwx]. exact Hw.
    + unfold weight. cbn [s_threads]. apply Hsum. rewrite Hwt. cbn. lia.
  - rewrite Hw in H. unfold go in H. injection H as <-. split; [split|]; cbn [s_threads s_queue s_lock s_evals s_clock s_events app].
    + apply Hn. exact Hw.
    + apply Hoth.
    + exact K3.
    + eexists. rewrite (setnth_same _ _ _ _ Ht). split; [reflexivity|]. split; [exact Hw|]. right. eexists. split; [exact E1|]. split; [reflexivity|]. split; [exact E3|].
      split; [rewrite Hid by exact Hw; cbn in *; lia|]. cbn. split; [apply not_worker with th; assumption|]. intros t x Hx Hwx. left. eapply in_workers; [|exact Hwx]. eapply Hback; [|exact Hx|exact Hwx]. exact Hw.
    + unfold weight. cbn [s_threads]. apply Hsum. rewrite Hwt. unfold th_weight, with_stack. cbn. rewrite E1. cbn. lia.
  - destruct js as [|j js].
    + unfold go in H. injection H as <-. split; [split|]; cbn [s_threads s_queue s_lock s_evals s_clock s_events app].
      * apply Hn. exact Hw.
      * apply Hoth.
      * exact K3.
      * eexists. rewrite (setnth_same _ _ _ _ Ht). split; [reflexivity|]. split; [exact Hw|]. right. eexists. split; [exact E1|]. split; [reflexivity|]. split; [exact E3|].
        split; [rewrite Hid by exact Hw; cbn in *; lia|]. cbn. intros t x Hx Hwx. destruct (proj2 E5 t x) as [[]|Hy]; [|exact Hwx|exact Hy]. eapply Hback; [|exact Hx|exact Hwx]. exact Hw.
      * unfold weight. cbn [s_threads]. apply Hsum. rewrite Hwt. unfold th_weight, with_stack. cbn. rewrite E1. cbn. lia.
    + destruct b.
      * destruct (is_exit s j) eqn:Ex; [|discriminate]. unfold go in H. injection H as <-. split; [split|]; cbn [s_threads s_queue s_lock s_evals s_clock s_events app].
        -- apply Hn. exact Hw.
        -- apply Hoth.
        -- exact K3.
        -- eexists. rewrite (setnth_same _ _ _ _ Ht). split; [reflexivity|]. split; [exact Hw|]. right. eexists. split; [exact E1|]. split; [reflexivity|]. split; [exact E3|].
           split; [rewrite Hid by exact Hw; cbn in *; lia|]. cbn. split; [intros Hin; apply (proj1 E5); right; exact Hin|]. intros t x Hx Hwx.
           assert (nth_error (s_threads s) t = Some x) as Hx' by (eapply Hback; [|exact Hx|exact Hwx]; exact Hw).
           destruct (proj2 E5 t x Hx' Hwx) as [[->|Hin]|Hy]; auto. right. unfold is_exit in Ex. rewrite Hx' in Ex. destruct (t_pc x); try discriminate. reflexivity.
        -- unfold weight. cbn [s_threads]. apply Hsum. rewrite Hwt. unfold th_weight, with_stack. cbn. rewrite E1. cbn. lia.
      * injection H as <-. set (th' := with_stack th [in_mode fr (MShut 0 (j :: js) true (Done o))]). split; [split|]; cbn [s_threads s_queue s_lock s_evals s_clock s_events app].
        -- rewrite workers_len. cbn [s_threads]. rewrite workers_tell. pose proof (Hn th' [] [] Hw) as Hx. rewrite workers_len in Hx. exact Hx.
        -- intros t x Hx Hne. destruct (tell_back _ _ _ _ Hx) as (y & Hy & B1 & B2 & B3). rewrite B1, B2, B3. exact (Hoth _ _ _ Hy Hne).
        -- exact K3.
        -- destruct (tell_nth' _ j _ _ (setnth_same _ _ th' _ Ht)) as (x' & X1 & X2 & X3 & X4). exists x'. split; [exact X1|]. split; [rewrite X2; exact Hw|].
           right. exists (in_mode fr (MShut 0 (j :: js) true (Done o))). split; [rewrite X3; exact E1|]. split; [rewrite X4; reflexivity|]. split; [exact E3|].
           split.
           ++ unfold idles. cbn [s_threads]. rewrite idles_tell. pose proof (Hid th' [] [] Hw) as Hi. unfold idles in Hi. cbn [s_threads] in Hi. rewrite Hi. cbn in *. unfold idles in E4. lia.
           ++ cbn. split; [exact (proj1 E5)|]. intros t x Hx Hwx. destruct (tell_back _ _ _ _ Hx) as (y & Hy & B1 & B2 & B3). rewrite B2. apply (proj2 E5 t y); [|congruence].
              eapply Hback; [|exact Hy|congruence]. exact Hw.
        -- unfold weight. cbn [s_threads]. rewrite sum_tell. apply Hsum. rewrite Hwt. unfold th_weight, th', with_stack. cbn. rewrite E1. cbn. lia.
  - injection H as <-. split; [split|]; cbn [s_threads s_queue s_lock s_evals s_clock s_events app].
    + apply Hn. exact Hw.
    + apply Hoth.
    + intros q [<-|Hq]; [reflexivity|exact (K3 _ Hq)].
    + eexists. rewrite (setnth_same _ _ _ _ Ht). split; [reflexivity|]. split; [exact Hw|]. right. eexists. split; [exact E1|]. split; [reflexivity|]. split; [exact E3|].
      split; [rewrite Hid by exact Hw; cbn in *; lia|]. cbn. split; [exact (proj1 E5)|]. intros t x Hx Hwx. apply (proj2 E5 t x); [|exact Hwx]. eapply Hback; [|exact Hx|exact Hwx]. exact Hw.
    + unfold weight. cbn [s_threads]. apply Hsum. rewrite Hwt. unfold th_weight, with_stack. cbn. rewrite E1. cbn. lia.
Qed.

Lemma closing_step t0 n s t s' : closing t0 n s -> sys_step s t = Some s' -> closing t0 n s' /\ weight n s' < weight n s.
Proof. destruct (Nat.eq_dec t t0) as [->|Hne]; intros K H; [exact (closing_main _ _ _ _ K H)|exact (closing_worker _ _ _ _ _ K Hne H)]. Qed.
Lemma closing_runs t0 n ts : forall s s', closing t0 n s -> sys_runs s ts = Some s' -> closing t0 n s' /\ length ts + weight n s' <= weight n s.
Proof.
  induction ts as [|t ts IH]; intros s s' K H; cbn in H; [injection H as <-; split; [exact K|cbn; lia]|].
  destruct (sys_step s t) as [s1|] eqn:E; [|discriminate]. destruct (closing_step _ _ _ _ _ K E) as [K1 L1]. destruct (IH _ _ K1 H) as [K2 L2].
  split; [exact K2|]. cbn. lia.
Qed.

(** The shutdown phase never gets stuck. *)
Lemma closing_stuck t0 n s : closing t0 n s -> lockinv s -> (forall t, sys_step s t = None) -> forall t th, nth_error (s_threads s) t = Some th -> t_pc th = PExit.
Proof.
  intros K L Hst. pose proof K as [K1 K2 K3 (th & Ht & Hw & Hor)].
  assert (forall t x, nth_error (s_threads s) t = Some x -> t_worker x = true -> t_pc x = PExit \/ (t_pc x = PGet /\ s_queue s = [])) as Hwk.
  { intros t x Hx Hwx. assert (t <> t0) as Hne by (intros ->; congruence). destruct (K2 _ _ Hx Hne) as (_ & Hs & Hp).
    specialize (Hst t) as Hst1. unfold sys_step in Hst1. rewrite Hx in Hst1. destruct (t_pc x) as [| |[y|]| |lv|] eqn:Ep; try discriminate; try contradiction.
    - right. split; [reflexivity|]. destruct (s_queue s); [reflexivity|discriminate].
    - exfalso. destruct (s_lock s) eqn:El; [|discriminate]. destruct (l_held s L El) as (t' & x' & Hx' & Hh). unfold holder in Hh. apply andb_true_iff in Hh. destruct Hh as [Hw' Hh].
      assert (t' <> t0) as Hne' by (intros ->; congruence). destruct (K2 _ _ Hx' Hne') as (_ & Hs' & Hp'). specialize (Hst t') as Hst2. unfold sys_step in Hst2. rewrite Hx' in Hst2.
      destruct (t_pc x') as [| |[y|]| |lv|] eqn:Ep'; try discriminate; try contradiction.
    - left. reflexivity. }
  assert (gone s) as Hgone.
  { destruct Hor as [[_ Hg]|(fr & E1 & E2 & E3 & E4 & E5)]; [exact Hg|].
    specialize (Hst t0) as Hst0. rewrite (step_stack s t0 th fr [] Ht E1 E2) in Hst0. unfold frame_step in Hst0.
    destruct (f_mode fr) as [[o| | | | |[o| | | | |]]|?|[|p] js b [o| | | | |]] eqn:Hm; try contradiction.
    - exact E5.
    - rewrite Hw in Hst0. discriminate.
    - intros t x Hx Hwx. destruct (Hwk t x Hx Hwx) as [Hy|[Hy Hq]]; [exact Hy|]. exfalso. cbn in E4. rewrite Hq in E4. cbn in E4.
      assert (In x (filter idle (s_threads s))) as Hin by (apply filter_In; split; [exact (nth_error_In _ _ Hx)|unfold idle; rewrite Hwx, Hy; reflexivity]).
      unfold idles in E4. destruct (filter idle (s_threads s)); [contradiction|cbn in E4; lia].
    - discriminate. }
  intros t x Hx. destruct (t_worker x) eqn:Hwx; [exact (Hgone t x Hx Hwx)|].
  assert (t = t0) as -> by (destruct (Nat.eq_dec t t0) as [|Hne]; [assumption|]; destruct (K2 _ _ Hx Hne) as [E _]; congruence).
  assert (x = th) as -> by congruence. destruct Hor as [[E _]|(fr & E1 & E2 & E3 & E4 & E5)]; [exact E|]. exfalso.
  specialize (Hst t0) as Hst0. rewrite (step_stack s t0 th fr [] Ht E1 E2) in Hst0. unfold frame_step in Hst0.
  destruct (f_mode fr) as [[o| | | | |[o| | | | |]]|?|[|p] js b [o| | | | |]] eqn:Hm; try contradiction.
  - rewrite E3 in Hst0. discriminate.
  - rewrite Hw in Hst0. discriminate.
  - destruct js as [|j js]; [discriminate|]. destruct b; [|discriminate]. destruct (is_exit s j) eqn:Ex; [discriminate|].
    unfold is_exit in Ex. destruct (nth_error (s_threads s) j) as [y|] eqn:Ey; [|discriminate]. destruct (t_worker y) eqn:Hwy; [rewrite (Hgone _ _ Ey Hwy) in Ex; discriminate|].
    assert (j <> t0) as Hne by (intros ->; apply (proj1 E5); left; reflexivity). destruct (K2 _ _ Ey Hne) as [E _]. congruence.
  - discriminate.
Qed.

(** *** From the start *)
Lemma map_setnth {X Y} (f : X -> Y) l : forall t x y, nth_error l t = Some x -> f y = f x -> map f (setnth l t y) = map f l.
Proof.
  induction l as [|a l IH]; intros [|t] x y H E; cbn in *; try discriminate.
  - injection H as ->. congruence.
  - f_equal. exact (IH _ _ _ H E).
Qed.
Lemma map_tell l j : map t_worker (tell l j) = map t_worker l.
Proof. unfold tell. destruct (nth_error l j) as [th|] eqn:E; [|reflexivity]. apply (map_setnth t_worker l j th); [exact E|reflexivity]. Qed.
Lemma workers_kept s t s' : sys_step s t = Some s' -> map t_worker (s_threads s') = map t_worker (s_threads s).
Proof.
  intros H. destruct (step_change _ _ _ H) as (th & Ht & C).
  destruct C as [Hp|q qs Hp Hq|Hp Hl|e i s' Hp Hl Hst|lv Hp|fr below fr' lk h Hp Hs Hm|fr below o Hp Hs Hm Hf|fr below fr' q Hp Hs Hm
    |fr below j js k Hp Hs Hm|fr below e k was q qs Hp Hs Hm Hq|fr below e k was e' i' s' Hp Hs Hm Hl Hst
    |fr below e i o s' Hp Hs Hm Hf Hst|fr below n deps body k Hp Hs Hm|fr below e k st s' Hp Hs Hm Hst0 Hst];
    try (cbn [s_threads go]; eapply map_setnth; [exact Ht|reflexivity]; fail).
  - destruct (start_inv' _ _ _ _ _ _ _ Hst) as (v & evs & Hv & Hev & ->). cbn [s_threads locked]. eapply map_setnth; [exact Ht|reflexivity].
  - cbn [s_threads]. rewrite map_tell. eapply map_setnth; [exact Ht|reflexivity].
  - destruct (start_inv' _ _ _ _ _ _ _ Hst) as (v & evs & Hv & Hev & ->). cbn [s_threads locked]. eapply map_setnth; [exact Ht|reflexivity].
  - destruct (finish_inv' _ _ _ _ _ _ _ _ Hst) as (evs & Hev & ->). cbn [s_threads]. eapply map_setnth; [exact Ht|].
    unfold resume. destruct below as [|f below']; [reflexivity|]. destruct (f_mode f) as [|? ? []|]; reflexivity.
  - destruct (process_inv' _ _ _ _ _ _ _ _ Hst) as (evs & Hev & ->). cbn [s_threads]. eapply map_setnth; [exact Ht|reflexivity].
Qed.

(** Only thread [t0] is outside the scheduler. *)
Definition solo (t0 : nat) (s : sys) : Prop :=
  exists w, map t_worker (s_threads s) = repeat true w ++ [false] /\ t0 = w.
Lemma nth_map {X Y} (f : X -> Y) l : forall t, nth_error (map f l) t = match nth_error l t with Some x => Some (f x) | None => None end.
Proof. induction l as [|a l IH]; intros [|t]; cbn; auto. Qed.
Lemma nth_repeat_last w : nth_error (repeat true w ++ [false]) w = Some false.
Proof. induction w as [|w IH]; [reflexivity|exact IH]. Qed.
Lemma nth_repeat_other w : forall t b, t <> w -> nth_error (repeat true w ++ [false]) t = Some b -> b = true.
Proof.
  induction w as [|w IH]; intros [|t] b Hne H; cbn in H; try congruence; [destruct t; discriminate|]. apply (IH t); [lia|exact H].
Qed.
Lemma solo_main t0 s : solo t0 s -> exists th, nth_error (s_threads s) t0 = Some th /\ t_worker th = false.
Proof.
  intros (w & E & ->). pose proof (nth_map t_worker (s_threads s) w) as H. rewrite E, nth_repeat_last in H.
  destruct (nth_error (s_threads s) w) as [th|]; [|discriminate]. exists th. split; [reflexivity|]. congruence.
Qed.
Lemma solo_other t0 s t th : solo t0 s -> nth_error (s_threads s) t = Some th -> t <> t0 -> t_worker th = true.
Proof.
  intros (w & E & ->) Ht Hne. pose proof (nth_map t_worker (s_threads s) t) as H. rewrite E, Ht in H. exact (nth_repeat_other _ _ _ Hne H).
Qed.
Lemma solo_init w p : solo (max 1 w) (sys_init w [p]).
Proof.
  exists (max 1 w). split; [|reflexivity]. unfold sys_init. cbn [s_threads]. rewrite map_app. f_equal. generalize (max 1 w). intros m.
  induction m as [|m IH]; [reflexivity|cbn; rewrite IH; reflexivity].
Qed.

Lemma to_closing t0 s : good true s -> fineinv s -> solo t0 s -> over s -> closing t0 (length (workers s)) s.
Proof.
  intros Hg F Hso Hov. destruct (workers_idle s Hg F Hov) as [Hq Hid]. destruct (solo_main _ _ Hso) as (th & Ht & Hw).
  destruct (Hov _ _ Ht Hw) as [Hp|(_ & fr & k & Hs & Hm)]; [pose proof (f_main s F _ _ Ht Hw); congruence|].
  split; [reflexivity| | |].
  - intros t x Hx Hne. pose proof (solo_other _ _ _ _ Hso Hx Hne) as Hwx. destruct (Hid _ _ Hx Hwx) as [H1 H2]. split; [exact Hwx|]. split; [exact H1|].
    destruct (t_pc x) as [| |[?|]| |?|]; try discriminate; exact I.
  - rewrite Hq. intros ? [].
  - exists th. split; [exact Ht|]. split; [exact Hw|]. right. exists fr. split; [exact (f_main s F _ _ Ht Hw)|]. split; [exact Hs|].
    assert (f_task fr = None) as Hf.
    { pose proof (g_shape s (proj1 Hg) _ _ Ht) as Hsh. unfold thread_shape in Hsh. rewrite (f_main s F _ _ Ht Hw) in Hsh.
      destruct Hsh as (f3 & b3 & E3 & _ & _ & Hif). rewrite Hs in E3. injection E3 as <- <-. rewrite Hw in Hif. apply Hif. }
    split; [exact Hf|]. pose proof (f_code s F _ _ fr Ht ltac:(rewrite Hs; left; reflexivity)) as Hfi. unfold fine_frame, fine_prog in Hfi. rewrite Hm, Hf in Hfi.
    destruct Hfi as [o ->]. rewrite Hm. split; [|exact I]. cbn [puts_left]. rewrite Hq, workers_len. unfold idles. cbn.
    assert (forall l, length (filter idle l) <= length (filter t_worker l)) as Hle.
    { intros l. induction l as [|x l IH]; [reflexivity|]. cbn. unfold idle at 1. destruct (t_worker x); cbn; [|exact IH]. destruct (idle_pc (t_pc x)); cbn; lia. }
    specialize (Hle (s_threads s)). lia.
Qed.

Definition before (t0 : nat) (s : sys) : Prop := good true s /\ fineinv s /\ solo t0 s.
Definition after (t0 : nat) (s : sys) : Prop := lockinv s /\ gen s /\ exists n, closing t0 n s.
Lemma one_over t0 s th fr below k : before t0 s -> nth_error (s_threads s) t0 = Some th -> t_stack th = fr :: below -> f_mode fr = MCode (Shutdown k) -> over s.
Proof.
  intros (Hg & F & Hso) Ht Hs Hm t x Hx Hw. destruct (Nat.eq_dec t t0) as [->|Hne]; [|pose proof (solo_other _ _ _ _ Hso Hx Hne); congruence].
  assert (x = th) as -> by congruence. right. split; [exact Hw|]. exists fr, k. split; [|exact Hm].
  pose proof (g_shape s (proj1 Hg) _ _ Hx) as Hsh. unfold thread_shape in Hsh. rewrite (f_main s F _ _ Hx Hw) in Hsh.
  destruct Hsh as (f3 & b3 & E3 & _ & _ & Hif). rewrite Hw in Hif. destruct Hif as (-> & _). congruence.
Qed.
Lemma phase_step t0 s t s' : before t0 s \/ after t0 s -> sys_step s t = Some s' -> before t0 s' \/ after t0 s'.
Proof.
  assert (forall s, after t0 s -> sys_step s t = Some s' -> after t0 s') as Haft.
  { intros s1 (L & G & n & K) H. split; [exact (lock_step _ _ _ G L H)|]. split; [exact (gen_step _ _ _ G H)|]. exists n. exact (proj1 (closing_step _ _ _ _ _ K H)). }
  intros [Hb|Ha] H; [|right; eauto]. pose proof Hb as (Hg & F & Hso).
  assert (not_stop s t \/ over s) as [Hns|Hov].
  { destruct (nth_error (s_threads s) t) as [th|] eqn:Ht; [|left; intros x fr below k Hx; congruence].
    destruct (t_stack th) as [|fr below] eqn:Hs; [left; exact (ns_pc _ _ _ Ht Hs)|].
    destruct (f_mode fr) as [[]| |] eqn:Hm; try (left; eapply ns_top; [exact Ht|exact Hs|congruence]). destruct (Nat.eq_dec t t0) as [->|Hne].
    - right. exact (one_over _ _ _ _ _ _ Hb Ht Hs Hm).
    - exfalso. pose proof (c_frames true s (proj2 (proj2 Hg)) _ _ fr Ht ltac:(rewrite Hs; left; reflexivity)) as Hc. unfold calm_frame in Hc.
      rewrite Hm, (solo_other _ _ _ _ Hso Ht Hne) in Hc. discriminate. }
  - left. split; [exact (good_step _ _ _ _ Hg Hns H)|]. split; [exact (fine_step _ _ _ _ Hg F Hns H)|]. destruct Hso as (w & E & ->). exists w.
    split; [rewrite (workers_kept _ _ _ H); exact E|reflexivity].
  - right. apply (Haft s); [|exact H]. split; [apply Hg|]. split; [apply Hg|]. eexists. exact (to_closing _ _ Hg F Hso Hov).
Qed.
Lemma phase_runs t0 ts : forall s s', before t0 s \/ after t0 s -> sys_runs s ts = Some s' -> before t0 s' \/ after t0 s'.
Proof.
  induction ts as [|t ts IH]; intros s s' Hp H; cbn in H; [injection H as <-; exact Hp|].
  destruct (sys_step s t) as [s1|] eqn:E; [|discriminate]. exact (IH _ _ (phase_step _ _ _ _ Hp E) H).
Qed.
Lemma before_init w p : orderly false false p -> tidy p -> before (max 1 w) (sys_init w [p]).
Proof.
  intros Ho Ht. split; [|split; [|apply solo_init]].
  - apply good_init. intros q [<-|[]]. split; [exact Ho|exact (tidy_calm _ Ht)].
  - apply fine_init. intros q [<-|[]]. exact Ht.
Qed.

Definition all_exited (s : sys) : Prop := forall t th, nth_error (s_threads s) t = Some th -> t_pc th = PExit.
Definition stuck (s : sys) : Prop := forall t, sys_step s t = None.
Lemma stuck_dec s : stuck s \/ exists t s', sys_step s t = Some s'.
Proof.
  destruct (all_or (seq 0 (length (s_threads s))) (exists t s', sys_step s t = Some s') (fun t => sys_step s t = None)) as [Ha|Hn].
  - intros t _. destruct (sys_step s t) as [s'|] eqn:E; [left; eauto|auto].
  - auto.
  - left. intros t. destruct (Nat.lt_ge_cases t (length (s_threads s))) as [Hlt|Hge]; [apply Hn; apply in_seq; lia|].
    unfold sys_step. rewrite (proj2 (nth_error_None _ _) Hge). reflexivity.
Qed.
Lemma after_ends t0 n s : closing t0 n s -> lockinv s -> gen s -> exists ts s', sys_runs s ts = Some s' /\ all_exited s'.
Proof.
  remember (weight n s) as m eqn:Em. revert s Em. induction m as [m IH] using lt_wf_ind. intros s -> K L G.
  destruct (stuck_dec s) as [Hst|(t & s1 & H)]; [exists [], s; split; [reflexivity|exact (closing_stuck _ _ _ K L Hst)]|].
  destruct (closing_step _ _ _ _ _ K H) as [K1 Hlt]. destruct (IH _ Hlt s1 eq_refl K1 (lock_step _ _ _ G L H) (gen_step _ _ _ G H)) as (ts & s2 & H1 & H2).
  exists (t :: ts), s2. cbn. rewrite H. auto.
Qed.

Theorem can_stop w p ts s : orderly false false p -> tidy p -> sys_runs (sys_init w [p]) ts = Some s -> exists ts' s', sys_runs s ts' = Some s' /\ all_exited s'.
Proof.
  intros Ho Ht H. destruct (phase_runs _ _ _ _ (or_introl (before_init w p Ho Ht)) H) as [Hb|(L & G & n & K)]; [|exact (after_ends _ _ _ K L G)].
  destruct (can_complete true s (proj1 Hb)) as (ts1 & s1 & H1 & G1 & Ov).
  destruct (phase_runs _ _ _ _ (or_introl Hb) H1) as [(_ & F1 & S1)|(L1 & GG1 & n & K1)].
  - destruct (after_ends _ _ _ (to_closing _ _ G1 F1 S1 Ov) (proj1 (proj2 G1)) (proj1 G1)) as (ts2 & s2 & H2 & H3).
    exists (ts1 ++ ts2), s2. split; [exact (runs_app _ _ _ _ _ H1 H2)|exact H3].
  - destruct (after_ends _ _ _ K1 L1 GG1) as (ts2 & s2 & H2 & H3). exists (ts1 ++ ts2), s2. split; [exact (runs_app _ _ _ _ _ H1 H2)|exact H3].
Qed.

(** A thread outside is in shutdown(). *)
Definition shutting (s : sys) : Prop := exists t th fr, nth_error (s_threads s) t = Some th /\ t_worker th = false /\ t_stack th = [fr] /\
  match f_mode fr with MCode (Shutdown _) | MShut _ _ _ _ => True | _ => False end.
Theorem must_stop w p ts s : orderly false false p -> tidy p -> sys_runs (sys_init w [p]) ts = Some s -> shutting s ->
  exists m, forall ts' s', sys_runs s ts' = Some s' -> length ts' <= m /\ (stuck s' -> all_exited s').
Proof.
  intros Ho Ht H (t & th & fr & Hth & Hw & Hs & Hm). pose proof (phase_runs _ _ _ _ (or_introl (before_init w p Ho Ht)) H) as Hph.
  assert (after (max 1 w) s) as (L & G & n & K).
  { destruct Hph as [Hb|Ha]; [|exact Ha]. pose proof Hb as (Hg & F & Hso).
    assert (t = max 1 w) as -> by (destruct (Nat.eq_dec t (max 1 w)) as [|Hne]; [assumption|]; pose proof (solo_other _ _ _ _ Hso Hth Hne); congruence).
    pose proof (c_frames true s (proj2 (proj2 Hg)) _ _ fr Hth ltac:(rewrite Hs; left; reflexivity)) as Hc. unfold calm_frame in Hc.
    destruct (f_mode fr) as [[]| |] eqn:Em; try contradiction. split; [apply Hg|]. split; [apply Hg|]. eexists. apply (to_closing _ _ Hg F Hso).
    exact (one_over _ _ _ _ _ _ Hb Hth Hs Em). }
  exists (weight n s). intros ts' s' H'. destruct (closing_runs _ _ _ _ _ K H') as [K' Hle]. split; [lia|]. intros Hst.
  refine (closing_stuck _ _ _ K' _ Hst). exact (lock_runs _ _ _ G L H').
Qed.
