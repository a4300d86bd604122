(** C24-C29 and C31: one evaluation of the scheduler, map and map_with_dependencies. *)
From Coq Require Import List Bool Arith Lia Permutation.
From Verif Require Import SchedModel SchedFacts SchedThms SchedWhole.
Import ListNotations.

(** ** C24: at most once, and exactly once on success *)

Theorem C24_at_most_once n deps ls s : runs n deps (init n deps) ls = Some s -> NoDup (starts (e_trace s)).
Proof. exact (once n deps ls s). Qed.
Theorem C24_exactly_once n deps ls s rs : runs n deps (init n deps) ls = Some s -> e_status s = Returned rs ->
  forall i, In (Started i) (e_trace s) <-> i < n.
Proof.
  intros H E i. destruct (returned_all _ _ _ _ _ H E) as [_ Hp]. rewrite <- starts_in. split; intros Hi.
  - apply (Permutation_in _ Hp), in_seq in Hi. lia.
  - apply (Permutation_in _ (Permutation_sym Hp)), in_seq. lia.
Qed.
(** map_with_dependencies has one task for each distinct item. *)
Theorem C24_items srcs : NoDup (keys srcs) /\ forall x, In x (keys srcs) <-> In x srcs.
Proof. split; [apply keys_nodup|intros x; apply keys_in]. Qed.

Definition diamond (i : task) : list task := match i with 0 => [1; 2] | 1 => [3] | 2 => [3; 3] | _ => [] end.
Definition all_of (l : list task) : list label := flat_map (fun i => [LStart i; LFinish i (OVal (10 * i)); LProcess]) l.
Example C24_ex : exists s rs, runs 4 diamond (init 4 diamond) (all_of [3; 2; 1; 0]) = Some s /\ e_status s = Returned rs /\ rs = [3; 2; 1; 0].
Proof. do 2 eexists. split; [vm_compute; reflexivity|]. split; reflexivity. Qed.
Example C24_items_ex : keys [4; 7; 4; 2; 7] = [4; 7; 2].
Proof. reflexivity. Qed.

(** ** C25: dependencies first *)

(** Both evaluations of a map_with_dependencies, the second one so far. *)
Record request (decode : value -> list src) (srcs : list src) (ls1 ls2 : list label) (s1 s2 : est) : Prop := Req {
  q_first : first_run srcs ls1 = Some s1;
  q_second : exists rs g, e_status s1 = Returned rs /\ second_graph decode srcs s1 rs = Some g /\ second_run srcs g ls2 = Some s2
}.
(** Item [i] of the distinct items depends on item [d], as far as [depends] said. *)
Definition depends_on (decode : value -> list src) (srcs : list src) (s1 : est) (i d : task) : Prop :=
  i < length (keys srcs) /\ d < length (keys srcs) /\
  exists j v, j < length srcs /\ In (Finished j (OVal v)) (e_trace s1) /\
    nth j srcs 0 = nth i (keys srcs) 0 /\ In (nth d (keys srcs) 0) (decode v).
Definition C25_claim : Prop := forall decode srcs ls1 ls2 s1 s2 later i earlier d,
  request decode srcs ls1 ls2 s1 s2 -> e_trace s2 = later ++ Started i :: earlier -> depends_on decode srcs s1 i d ->
  exists v, In (Finished d (OVal v)) earlier.

Lemma request_deps decode srcs ls1 ls2 s1 s2 : request decode srcs ls1 ls2 s1 s2 ->
  exists g, second_run srcs g ls2 = Some s2 /\ (forall i d, In d (g i) <-> depends_on decode srcs s1 i d).
Proof.
  intros [H1 (rs & g & H2 & H3 & H4)]. exists g. split; [exact H4|]. intros i d.
  destruct (second_shape _ _ _ _ _ _ H1 H2 H3) as (_ & _ & Hv & Hg). rewrite Hg. unfold depends_on.
  pose proof (v_out _ _ _ (n_core _ _ _ (reach_inv _ _ _ _ H1))) as Ho. unfold deps_of. split.
  - intros (A1 & A2 & j & A3 & A4 & A5). split; [exact A2|]. split; [exact A1|]. destruct (Hv j A3) as [v Ev]. rewrite Ev in A5.
    exists j, v. split; [exact A3|]. split; [apply Ho; exact Ev|]. auto.
  - intros (A1 & A2 & j & v & A3 & A4 & A5 & A6). split; [exact A2|]. split; [exact A1|]. exists j.
    split; [exact A3|]. split; [exact A5|]. apply Ho in A4. rewrite A4. exact A6.
Qed.

Definition ex_decode (v : value) : list src := match v with 1 => [20] | 2 => [30; 99] | 3 => [10] | _ => [] end.
Definition ex_first : list label :=
  [LStart 1; LStart 0; LFinish 1 (OVal 0); LFinish 0 (OVal 1); LProcess; LProcess].
(** Item 10 depends on item 20, whose function ends with an exception that is not an
    Exception (sys.exit): item 10 is built all the same. *)
Theorem C25_refuted : ~ C25_claim.
Proof.
  intros H.
  assert (exists s1 s2, request ex_decode [10; 20] ex_first [LStart 1; LFinish 1 (OFatal 5); LProcess; LStart 0] s1 s2 /\
    e_trace s2 = [] ++ Started 0 :: [Processed 1; Finished 1 (OFatal 5); Started 1] /\ depends_on ex_decode [10; 20] s1 0 1)
    as (s1 & s2 & Hr & Ht & Hd).
  { do 2 eexists. split; [split; [vm_compute; reflexivity|do 2 eexists; split; [reflexivity|split; [reflexivity|vm_compute; reflexivity]]]|].
    split; [reflexivity|]. split; [cbn; lia|]. split; [cbn; lia|]. exists 0, 1. cbn. repeat split; auto. }
  destruct (H _ _ _ _ _ _ _ _ _ _ Hr Ht Hd) as [v Hv]. cbn in Hv. repeat destruct Hv as [Hv|Hv]; discriminate || contradiction.
Qed.
(** In every schedule each dependency has ended without an Exception when the item is
    started, so it has returned normally if nothing else is raised. *)
Theorem C25_ended decode srcs ls1 ls2 s1 s2 later i earlier d :
  request decode srcs ls1 ls2 s1 s2 -> e_trace s2 = later ++ Started i :: earlier -> depends_on decode srcs s1 i d ->
  exists o, In (Finished d o) earlier /\ forall e, o <> OExc e.
Proof.
  intros Hr Ht Hd. destruct (request_deps _ _ _ _ _ _ Hr) as (g & H & Hg). apply Hg in Hd.
  exact (deps_first _ _ _ _ _ _ _ _ H Ht Hd).
Qed.
Theorem C25_partial decode srcs ls1 ls2 s1 s2 later i earlier d :
  request decode srcs ls1 ls2 s1 s2 -> (forall j e, ~ In (Finished j (OFatal e)) (e_trace s2)) ->
  e_trace s2 = later ++ Started i :: earlier -> depends_on decode srcs s1 i d ->
  exists v, In (Finished d (OVal v)) earlier.
Proof.
  intros Hr Hf Ht Hd. destruct (C25_ended _ _ _ _ _ _ _ _ _ _ Hr Ht Hd) as ([v|e|e] & Ho & Hok); [eauto|destruct (Hok e eq_refl)|].
  exfalso. apply (Hf d e). rewrite Ht, in_app_iff. cbn. auto.
Qed.
Example C25_partial_ex : exists s1 s2, request ex_decode [10; 20] ex_first (all_of [1] ++ [LStart 0]) s1 s2 /\
  (forall j e, ~ In (Finished j (OFatal e)) (e_trace s2)) /\
  e_trace s2 = [] ++ Started 0 :: [Processed 1; Finished 1 (OVal 10); Started 1] /\ depends_on ex_decode [10; 20] s1 0 1.
Proof.
  do 2 eexists. split; [split; [vm_compute; reflexivity|do 2 eexists; split; [reflexivity|split; [reflexivity|vm_compute; reflexivity]]]|].
  split; [cbn; intros j e H; repeat destruct H as [H|H]; discriminate || contradiction|].
  split; [reflexivity|]. split; [cbn; lia|]. split; [cbn; lia|]. exists 0, 1. cbn. repeat split; auto.
Qed.

(** ** C26: the result does not depend on the schedule *)

(** map(f, xs): whatever the schedule, once the evaluation has ended without an item
    raising, the result is the list of the f(x) in order. *)
Theorem C26_map n f ls s : runs n (fun _ => []) (init n (fun _ => [])) ls = Some s ->
  (forall i o, In (Finished i o) (e_trace s) -> o = OVal (f i)) -> e_status s <> Running ->
  map_result s = Some (MList (map f (seq 0 n))).
Proof.
  intros H Hp He. pose proof (map_list n (fun i => OVal (f i)) ls s H Hp) as Hm.
  destruct (map_result s) as [[vs|e|p|]|]; [|destruct Hm as (i & _ & Hm); discriminate|contradiction|destruct Hm as (i & e & _ & Hm); discriminate|contradiction].
  destruct Hm as [Hl Hv]. do 2 f_equal. apply nth_ext with (d := 0) (d' := f 0); [rewrite map_length, seq_length; exact Hl|].
  intros k Hk. rewrite map_nth, seq_nth by lia. cbn. specialize (Hv k ltac:(lia)). injection Hv as ->. reflexivity.
Qed.
Example C26_map_ex : exists s, runs 3 (fun _ => []) (init 3 (fun _ => [])) (all_of [2; 0; 1]) = Some s /\
  (forall i o, In (Finished i o) (e_trace s) -> o = OVal (10 * i)) /\ e_status s <> Running /\ map_result s = Some (MList [0; 10; 20]).
Proof.
  eexists. split; [vm_compute; reflexivity|]. split; [|split; [discriminate|reflexivity]].
  cbn. intros i o H. repeat destruct H as [H|H]; try discriminate; try contradiction; injection H as <- <-; reflexivity.
Qed.

(** map_with_dependencies: if [depends] and the function are functions of the item, any
    two schedules of any two requests for the same items that return lists return the same
    one. *)
Theorem C26_depends decode depth srcs dep f ls1 ls2 ls1' ls2' vs vs' :
  mwd_result decode depth srcs ls1 ls2 = Some (WList vs) -> mwd_result decode depth srcs ls1' ls2' = Some (WList vs') ->
  (forall s1 s2, request decode srcs ls1 ls2 s1 s2 \/ request decode srcs ls1' ls2' s1 s2 ->
     (forall j o, In (Finished j o) (e_trace s1) -> o = dep (nth j srcs 0)) /\
     (forall i o, In (Finished i o) (e_trace s2) -> o = f (nth i (keys srcs) 0))) ->
  vs = vs'.
Proof.
  intros H H' Hp.
  destruct (list_inv _ _ _ _ _ _ H) as (s1 & rs & g & s2 & rs2 & order & A1 & A2 & A3 & A4 & A5 & A6 & A7).
  destruct (list_inv _ _ _ _ _ _ H') as (s1' & rs' & g' & s2' & rs2' & order' & B1 & B2 & B3 & B4 & B5 & B6 & B7).
  destruct (Hp s1 s2) as [P1 P2]; [left; split; eauto|]. destruct (Hp s1' s2') as [P1' P2']; [right; split; eauto|].
  destruct (pure_graph decode srcs dep _ _ _ _ A1 A2 A3 P1) as [_ Hg].
  destruct (pure_graph decode srcs dep _ _ _ _ B1 B2 B3 P1') as [_ Hg'].
  rewrite (order_ext g g' depth srcs) in A6 by (intros k; rewrite Hg, Hg'; reflexivity). rewrite A6 in B6. injection B6 as <-.
  apply map_OVal_inj. rewrite <- (values_pure _ _ (fun i => f (nth i (keys srcs) 0)) _ A7), <- (values_pure _ _ (fun i => f (nth i (keys srcs) 0)) _ B7); [reflexivity| |].
  - intros i v _ Ho. symmetry. apply P2'. apply (v_out _ _ _ (n_core _ _ _ (reach_inv _ _ _ _ B4))). exact Ho.
  - intros i v _ Ho. symmetry. apply P2. apply (v_out _ _ _ (n_core _ _ _ (reach_inv _ _ _ _ A4))). exact Ho.
Qed.
(** (That a list is returned does not depend on the schedule either: C29_returned.) *)
Example C26_depends_ex :
  mwd_result ex_decode 9 [10; 20] ex_first (all_of [1; 0]) = Some (WList [10; 0]) /\
  mwd_result ex_decode 9 [10; 20] [LStart 0; LFinish 0 (OVal 1); LProcess; LStart 1; LFinish 1 (OVal 0); LProcess] (all_of [1; 0]) = Some (WList [10; 0]).
Proof. split; vm_compute; reflexivity. Qed.

(** ** C27: failures *)

Definition failed (tr : list event) (i : task) : Prop := exists e, In (Finished i (OExc e)) tr \/ In (Finished i (OFatal e)) tr.
Definition C27_claim : Prop := forall n deps ls s, runs n deps (init n deps) ls = Some s -> e_status s <> Running ->
  (exists i, failed (e_trace s) i) ->
  exists e i, e_status s = Raised e /\ (In (Finished i (OExc e)) (e_trace s) \/ In (Finished i (OFatal e)) (e_trace s)).
Theorem C27_refuted : ~ C27_claim.
Proof.
  intros H.
  assert (exists s, runs 1 (fun _ => []) (init 1 (fun _ => [])) [LStart 0; LFinish 0 (OFatal 5); LProcess] = Some s /\
    e_status s = Returned [0] /\ failed (e_trace s) 0) as (s & H1 & H2 & H3).
  { eexists. split; [vm_compute; reflexivity|]. split; [reflexivity|]. exists 5. cbn. auto. }
  destruct (H _ _ _ _ H1) as (e & i & He & _); [congruence|eauto|congruence].
Qed.
(** map then fails looking for the result. *)
Example C27_attribute : exists s, runs 1 (fun _ => []) (init 1 (fun _ => [])) [LStart 0; LFinish 0 (OFatal 5); LProcess] = Some s /\
  map_result s = Some MAttributeError.
Proof. eexists. split; [vm_compute; reflexivity|]. reflexivity. Qed.

Theorem C27_raised n deps ls s e : runs n deps (init n deps) ls = Some s -> e_status s = Raised e ->
  exists i, i < n /\ In (Finished i (OExc e)) (e_trace s).
Proof. exact (raised_by n deps ls s e). Qed.
(** An Exception in an item is never lost: the evaluation ends by raising one. *)
Theorem C27_partial n deps ls s : runs n deps (init n deps) ls = Some s -> e_status s <> Running ->
  (exists i e, In (Finished i (OExc e)) (e_trace s)) ->
  exists e i, e_status s = Raised e /\ i < n /\ In (Finished i (OExc e)) (e_trace s).
Proof.
  intros H Hr (i & e & Hf). destruct (e_status s) as [|rs|e'|p] eqn:E; [contradiction| | |].
  - destruct (not_failed _ _ _ _ _ _ _ H E Hf).
  - destruct (raised_by _ _ _ _ _ H E) as (j & Hj & Hf'). exists e', j. auto.
  - destruct (loop_not_failed _ _ _ _ _ _ _ H E Hf).
Qed.
Theorem C27_map n f ls s : runs n (fun _ => []) (init n (fun _ => [])) ls = Some s ->
  (forall i o, In (Finished i o) (e_trace s) -> o = f i) -> (forall i e, f i <> OFatal e) -> e_status s <> Running ->
  match map_result s with
  | Some (MList vs) => length vs = n /\ forall k, k < n -> f k = OVal (nth k vs 0)
  | Some (MRaised e) => exists i, i < n /\ f i = OExc e
  | _ => False
  end.
Proof.
  intros H Hp Hf Hr. pose proof (map_list n f ls s H Hp) as Hm. destruct (map_result s) as [[vs|e|p|]|]; auto.
  destruct Hm as (i & e & _ & Hm). exact (Hf i e Hm).
Qed.
Example C27_partial_ex : exists s, runs 2 (fun _ => []) (init 2 (fun _ => []))
    [LStart 0; LStart 1; LFinish 1 (OExc 7); LFinish 0 (OExc 6); LProcess] = Some s /\ e_status s = Raised 7.
Proof. eexists. split; [vm_compute; reflexivity|]. reflexivity. Qed.

(** ** C28: dependency cycles *)

(** [edges d]: a path of at least one edge. *)
Inductive reaches (edge : task -> task -> Prop) : task -> task -> Prop :=
  | r_one i d : edge i d -> reaches edge i d
  | r_more i d j : edge i d -> reaches edge d j -> reaches edge i j.
Definition cyclic (edge : task -> task -> Prop) : Prop := exists i, reaches edge i i.

Lemma path_edge g i j : path g i j -> exists d, In d (g i).
Proof. intros [k d Hd|k d l Hd _]; eauto. Qed.
Lemma reaches_path g edge i j : (forall i d, In d (g i) <-> edge i d) -> reaches edge i j <-> path g i j.
Proof.
  intros H. split.
  - intros Hp. induction Hp as [i d Hd|i d j Hd Hp IH]; [apply path_one|apply path_more with d]; auto; apply H; exact Hd.
  - intros Hp. induction Hp as [i d Hd|i d j Hd Hp IH]; [apply r_one|apply r_more with d]; auto; apply H; exact Hd.
Qed.
Theorem C28_loop decode srcs ls1 ls2 s1 s2 : request decode srcs ls1 ls2 s1 s2 -> e_status s2 <> Running ->
  (forall i e, ~ In (Finished i (OExc e)) (e_trace s2)) ->
  ((exists p, e_status s2 = LoopError p) <-> cyclic (depends_on decode srcs s1)).
Proof.
  intros Hr He Hf. destruct (request_deps _ _ _ _ _ _ Hr) as (g & H & Hg). unfold second_run in H. split.
  - intros [p E]. assert (forall i d, i < length (keys srcs) -> In d (g i) -> d < length (keys srcs)) as Hin by (intros i d _ Hd; apply Hg in Hd; apply Hd).
    destruct (loop_cycle _ _ _ _ _ Hin H E) as (i & _ & Hp).
    exists i. apply (reaches_path g); assumption.
  - intros [i Hp]. destruct (e_status s2) as [|rs|e|p] eqn:E; [contradiction| | |eauto].
    + exfalso. apply (reaches_path g) in Hp; [|exact Hg]. assert (i < length (keys srcs)) as Hi.
      { destruct (path_edge _ _ _ Hp) as [d Hd]. apply Hg in Hd. apply Hd. }
      exact (returned_acyclic _ _ _ _ _ i H E Hi Hp).
    + destruct (raised_by _ _ _ _ _ H E) as (j & _ & Hj). destruct (Hf j e Hj).
Qed.
(** Also if something failed: DependencyLoop only for a cycle, and with a cycle it never
    returns a list. *)
Theorem C28_only decode srcs ls1 ls2 s1 s2 : request decode srcs ls1 ls2 s1 s2 ->
  (forall p, e_status s2 = LoopError p -> cyclic (depends_on decode srcs s1) /\ forall i e, ~ In (Finished i (OExc e)) (e_trace s2)) /\
  (cyclic (depends_on decode srcs s1) -> forall rs, e_status s2 <> Returned rs).
Proof.
  intros Hr. destruct (request_deps _ _ _ _ _ _ Hr) as (g & H & Hg). unfold second_run in H. split.
  - intros p E. assert (forall i e, ~ In (Finished i (OExc e)) (e_trace s2)) as Hl by (intros i e; exact (loop_not_failed _ _ _ _ _ i e H E)). split; [|exact Hl].
    apply (C28_loop _ _ _ _ _ _ Hr); [congruence|exact Hl|eauto].
  - intros [i Hp] rs E. apply (reaches_path g) in Hp; [|exact Hg]. assert (i < length (keys srcs)) as Hi.
    { destruct (path_edge _ _ _ Hp) as [d Hd]. apply Hg in Hd. apply Hd. }
    exact (returned_acyclic _ _ _ _ _ i H E Hi Hp).
Qed.
(** The first evaluation, which has no dependencies, never reports a cycle. *)
Theorem C28_first srcs ls1 s1 p : first_run srcs ls1 = Some s1 -> e_status s1 <> LoopError p.
Proof.
  intros H E. destruct (loop_cycle _ _ _ _ _ (fun i d (_ : i < length srcs) (Hd : In d []) => match Hd with end) H E) as (i & _ & Hp).
  destruct (path_edge _ _ _ Hp) as [d []].
Qed.
(** Every evaluation ends: no schedule has more than three steps for each task, and until
    it has ended a step can be taken (whatever the running function does next). *)
Theorem C28_bounded n deps ls s : runs n deps (init n deps) ls = Some s -> length ls <= 3 * n.
Proof. exact (bounded n deps ls s). Qed.
Theorem C28_progress n deps ls s : runs n deps (init n deps) ls = Some s -> e_status s = Running ->
  exists l s', step n deps s l = Some s' /\ (forall i o, l = LFinish i o -> forall o', step n deps s (LFinish i o') <> None).
Proof.
  intros H E. destruct (progress n deps ls s H E) as (l & s' & H1 & H2). exists l, s'. split; [exact H1|].
  intros i o Hl o'. destruct (H2 i o Hl o') as [s'' H3]. congruence.
Qed.
Definition ex_cycle : list label :=
  [LStart 0; LFinish 0 (OVal 1); LProcess; LStart 1; LFinish 1 (OVal 2); LProcess; LStart 2; LFinish 2 (OVal 3); LProcess].
Example C28_ex : exists s1 s2, request ex_decode [10; 20; 30] ex_cycle [] s1 s2 /\ cyclic (depends_on ex_decode [10; 20; 30] s1) /\
  e_status s2 <> Running /\ forall i e, ~ In (Finished i (OExc e)) (e_trace s2).
Proof.
  do 2 eexists. split; [split; [vm_compute; reflexivity|do 2 eexists; split; [reflexivity|split; [reflexivity|vm_compute; reflexivity]]]|].
  split; [|split; [discriminate|cbn; auto]].
  exists 0. apply r_more with 1; [|apply r_more with 2; [|apply r_one]].
  - split; [cbn; lia|]. split; [cbn; lia|]. exists 0, 1. cbn. repeat split; auto 10.
  - split; [cbn; lia|]. split; [cbn; lia|]. exists 1, 2. cbn. repeat split; auto 10.
  - split; [cbn; lia|]. split; [cbn; lia|]. exists 2, 3. cbn. repeat split; auto 10.
Qed.

(** What DependencyLoop reports: exactly the pairs of items depending on each other (or an
    item on itself) that have not run, so nothing at all for a longer cycle. *)
Definition C28_report_claim : Prop := forall decode srcs ls1 ls2 s1 s2 p, request decode srcs ls1 ls2 s1 s2 ->
  e_status s2 = LoopError p -> p <> [].
Theorem C28_report_refuted : ~ C28_report_claim.
Proof.
  intros H.
  assert (exists s1 s2, request ex_decode [10; 20; 30] ex_cycle [] s1 s2 /\ e_status s2 = LoopError []) as (s1 & s2 & Hr & E).
  { do 2 eexists. split; [split; [vm_compute; reflexivity|do 2 eexists; split; [reflexivity|split; [reflexivity|vm_compute; reflexivity]]]|]. reflexivity. }
  exact (H _ _ _ _ _ _ _ Hr E eq_refl).
Qed.
Theorem C28_report n deps ls s p : runs n deps (init n deps) ls = Some s -> e_status s = LoopError p ->
  forall t d, In (t, d) p <-> t < n /\ d < n /\ ~ In (Processed t) (e_trace s) /\ In t (deps d) /\ In d (deps t).
Proof.
  intros H E t d. destruct (reach_inv _ _ _ _ H) as [Hc Hs]. rewrite E in Hs. destruct Hs as (_ & _ & _ & _ & _ & _ & Hp).
  rewrite Hp, children_in. assert (forall tr, In t (processed tr) <-> In (Processed t) tr) as Ht.
  { intros tr. induction tr as [|[i|i o|i] tr IH]; cbn; [tauto|rewrite IH|rewrite IH|rewrite in_app_iff, IH; cbn].
    - split; [auto|intros [?|?]; [discriminate|auto]].
    - split; [auto|intros [?|?]; [discriminate|auto]].
    - split; [intros [?|[->|[]]]; auto|intros [Hx|Hx]; [injection Hx as ->; auto|auto]]. }
  rewrite Ht. tauto.
Qed.

(** ** C29: the order of the results *)

Lemma values_map out l vs : values_of out l = Some vs -> map out l = map (fun v => Some (OVal v)) vs.
Proof.
  revert vs. induction l as [|i l IH]; intros vs H; cbn in H; [injection H as <-; reflexivity|].
  destruct (out i) as [[v|e|e]|] eqn:Eo; try discriminate. destruct (values_of out l) as [vs'|]; [|discriminate].
  injection H as <-. cbn. rewrite Eo, (IH vs' eq_refl). reflexivity.
Qed.
(** [vs] lists the results of the distinct items in the order [order]. *)
Theorem C29_order decode depth srcs ls1 ls2 vs : mwd_result decode depth srcs ls1 ls2 = Some (WList vs) ->
  exists s1 s2 order, request decode srcs ls1 ls2 s1 s2 /\
    Permutation order (seq 0 (length (keys srcs))) /\
    map (e_out s2) order = map (fun v => Some (OVal v)) vs /\
    forall before i after d, order = before ++ i :: after -> depends_on decode srcs s1 i d -> In d before.
Proof.
  intros H. destruct (list_inv _ _ _ _ _ _ H) as (s1 & rs & g & s2 & rs2 & order & A1 & A2 & A3 & A4 & A5 & A6 & A7).
  exists s1, s2, order. assert (request decode srcs ls1 ls2 s1 s2) as Hr by (split; eauto).
  split; [exact Hr|]. destruct (second_shape _ _ _ _ _ _ A1 A2 A3) as (_ & _ & _ & Hg').
  assert (forall i, ~ path g i i) as Hac.
  { intros i Hp. exact (returned_acyclic _ _ _ _ _ i A4 A5 (second_path _ _ _ _ _ _ _ _ A1 A2 A3 Hp) Hp). }
  destruct (order_spec decode depth srcs g order (second_in _ _ _ _ _ _ A1 A2 A3) Hac A6) as [Hp Ht]. split; [exact Hp|]. split.
  - exact (values_map _ _ _ A7).
  - intros before i after d E Hd. apply (Ht _ _ _ E).
    pose proof (v_out _ _ _ (n_core _ _ _ (reach_inv _ _ _ _ A1))) as Ho. apply Hg'.
    destruct Hd as (D1 & D2 & j & v & D3 & D4 & D5 & D6). split; [exact D2|]. split; [exact D1|]. exists j.
    split; [exact D3|]. split; [exact D5|]. unfold deps_of. apply Ho in D4. rewrite D4. exact D6.
Qed.
(** With a stack for one frame more than there are items a list is always returned when
    the graph has no cycle and no item fails. *)
Theorem C29_returned decode depth srcs ls1 ls2 s1 s2 : request decode srcs ls1 ls2 s1 s2 -> length (keys srcs) < depth ->
  e_status s2 <> Running -> ~ cyclic (depends_on decode srcs s1) -> (forall i o, In (Finished i o) (e_trace s2) -> exists v, o = OVal v) ->
  exists vs, mwd_result decode depth srcs ls1 ls2 = Some (WList vs).
Proof.
  intros Hr Hd He Hc Hv. pose proof Hr as [A1 (rs & g & A2 & A3 & A4)].
  destruct (request_deps _ _ _ _ _ _ Hr) as (g' & H' & Hg').
  destruct (second_shape _ _ _ _ _ _ A1 A2 A3) as (_ & _ & _ & Hsh).
  pose proof (v_out _ _ _ (n_core _ _ _ (reach_inv _ _ _ _ A1))) as Ho.
  assert (forall i d, In d (g i) <-> depends_on decode srcs s1 i d) as Hg.
  { intros i d. rewrite <- Hg'. destruct Hr as [B1 (rs' & g'' & B2 & B3 & B4)]. rewrite A2 in B2. injection B2 as <-.
    rewrite A3 in B3. injection B3 as <-. rewrite Hg'. rewrite Hsh. unfold depends_on, deps_of. split.
    - intros (C1 & C2 & j & C3 & C4 & C5). split; [exact C2|]. split; [exact C1|].
      destruct (e_out s1 j) as [[v|e|e]|] eqn:Ej; try contradiction. exists j, v. split; [exact C3|]. split; [apply Ho; exact Ej|auto].
    - intros (C1 & C2 & j & v & C3 & C4 & C5 & C6). split; [exact C2|]. split; [exact C1|]. exists j. apply Ho in C4. rewrite C4. auto. }
  assert (forall i, ~ path g i i) as Hac.
  { intros i Hp. apply Hc. exists i. apply (reaches_path g); assumption. }
  destruct (e_status s2) as [|rs2|e|p] eqn:E; [contradiction| | |].
  - destruct (result_order_ok g srcs depth (second_in _ _ _ _ _ _ A1 A2 A3) Hac Hd) as (order & Eo & Hp & _).
    unfold mwd_result. rewrite A1, A2, A3, A4. unfold mwd_end. rewrite E, Eo.
    assert (forall i, In i order -> exists v, e_out s2 i = Some (OVal v)) as Hall.
    { intros i Hi. apply (Permutation_in _ Hp), in_seq in Hi. destruct (returned_outcomes _ _ _ _ _ i A4 E) as (o & O1 & _ & O2); [lia|].
      destruct (Hv i o O2) as [v ->]. eauto. }
    destruct (values_of (e_out s2) order) as [vs|] eqn:Ev; [eauto|]. exfalso. apply values_none in Ev.
    destruct Ev as (i & Hi & Hn). destruct (Hall i Hi) as [v Ei]. exact (Hn v Ei).
  - destruct (raised_by _ _ _ _ _ A4 E) as (j & _ & Hj). destruct (Hv j _ Hj) as [v Hx]. discriminate.
  - exfalso. apply Hc. apply (C28_only _ _ _ _ _ _ Hr) with p. exact E.
Qed.
Example C29_ex : mwd_result ex_decode 9 [10; 20; 10] [LStart 1; LStart 0; LFinish 1 (OVal 0); LFinish 0 (OVal 1); LProcess; LProcess; LStart 2; LFinish 2 (OVal 1); LProcess]
  (all_of [1; 0]) = Some (WList [10; 0]).
Proof. vm_compute. reflexivity. Qed.
(** Without the stack it is not: whatever the recursion limit, a chain of one item more
    than it is a RecursionError (after all items have been built). *)
Definition chain_of (n : nat) (i : task) : list task := if Nat.ltb i n then [S i] else [].
Lemma chain_deep n m : forall st t, t + m <= n -> (forall i, In i (fst st) -> i < t) -> visit (chain_of n) m st t = None.
Proof.
  induction m as [|m IH]; intros st t Hm Hi; [reflexivity|]. rewrite visit_eq.
  destruct (existsb (Nat.eqb t) (fst st)) eqn:E; [apply existsb_in, Hi in E; lia|].
  unfold chain_of at 2. destruct (Nat.ltb_spec t n); [|lia]. cbn [vloop]. rewrite IH; [reflexivity|lia|].
  cbn. intros i [<-|H']; [lia|]. specialize (Hi i H'). lia.
Qed.
Lemma keys_seq m : forall a seen, (forall x, In x seen -> x < a) -> keys_from seen (seq a m) = seq a m.
Proof.
  induction m as [|m IH]; intros a seen H; cbn [seq keys_from]; [reflexivity|].
  destruct (existsb (Nat.eqb a) seen) eqn:E; [apply existsb_in, H in E; lia|]. f_equal. apply IH.
  intros x [<-|Hx]; [lia|]. specialize (H x Hx). lia.
Qed.
Theorem C29_deep depth : result_order (chain_of depth) depth (seq 0 (S depth)) = None /\ forall i, ~ path (chain_of depth) i i.
Proof.
  split.
  - unfold result_order. rewrite visit_all_eq. unfold keys. rewrite keys_seq by (intros x []). cbn [seq flat_map index_of]. rewrite Nat.eqb_refl.
    cbn [app vloop]. rewrite chain_deep; [reflexivity|lia|intros i []].
  - assert (forall i j, path (chain_of depth) i j -> i < j) as Hlt.
    { intros i j Hp. unfold chain_of in Hp. induction Hp as [i d Hd|i d j Hd Hp IH].
      - destruct (Nat.ltb i depth); [|contradiction]. destruct Hd as [<-|[]]. lia.
      - destruct (Nat.ltb i depth); [|contradiction]. destruct Hd as [<-|[]]. lia. }
    intros i Hp. specialize (Hlt i i Hp). lia.
Qed.

(** What map_with_dependencies as a whole answers.  An exception raised by [depends] is raised,
    whatever the second evaluation would do. *)
Theorem C27_first decode depth srcs ls1 ls2 s1 : first_run srcs ls1 = Some s1 -> e_status s1 <> Running ->
  (exists i e, In (Finished i (OExc e)) (e_trace s1)) ->
  exists i e, mwd_result decode depth srcs ls1 ls2 = Some (WRaised e) /\ i < length srcs /\ In (Finished i (OExc e)) (e_trace s1).
Proof.
  intros H Hr Hf. destruct (C27_partial _ _ _ _ H Hr Hf) as (e & i & E & Hi & Hin). exists i, e.
  unfold mwd_result. rewrite H, E. auto.
Qed.
(** Otherwise it ends with the second evaluation: a failure of the function is raised; without one
    DependencyLoop is raised exactly for a cycle; a RecursionError only with too small a stack. *)
Theorem C28_ended decode depth srcs ls1 ls2 s1 s2 : request decode srcs ls1 ls2 s1 s2 -> e_status s2 <> Running ->
  exists w, mwd_result decode depth srcs ls1 ls2 = Some w /\
    ((exists e, w = WRaised e) <-> exists i e, In (Finished i (OExc e)) (e_trace s2)) /\
    ((exists p, w = WLoop p) <-> cyclic (depends_on decode srcs s1) /\ forall i e, ~ In (Finished i (OExc e)) (e_trace s2)) /\
    (forall e, w = WRaised e -> exists i, i < length (keys srcs) /\ In (Finished i (OExc e)) (e_trace s2)) /\
    (w = WAttributeError -> exists i e, In (Finished i (OFatal e)) (e_trace s2)) /\
    (w = WRecursionError -> depth <= length (keys srcs)).
Proof.
  intros Hr He. pose proof Hr as [A1 (rs & g & A2 & A3 & A4)]. pose proof (C28_only _ _ _ _ _ _ Hr) as [Hlo Hcy].
  unfold mwd_result. rewrite A1, A2, A3, A4. unfold mwd_end. destruct (e_status s2) as [|rs2|e|p] eqn:E; [contradiction| | |].
  - assert (forall i e, ~ In (Finished i (OExc e)) (e_trace s2)) as Hn by (intros i e; exact (not_failed _ _ _ _ _ _ _ A4 E)).
    assert (~ cyclic (depends_on decode srcs s1)) as Hc by (intros Hc; exact (Hcy Hc _ eq_refl)).
    destruct (result_order g depth srcs) as [order|] eqn:Eo; [destruct (values_of (e_out s2) order) as [vs|] eqn:Ev|].
    + eexists. split; [reflexivity|]. split; [split; [intros [e Hw]; discriminate|intros (i & e & Hi); destruct (Hn i e Hi)]|].
      split; [split; [intros [p Hw]; discriminate|intros [Hc' _]; destruct (Hc Hc')]|]. repeat split; intros; discriminate.
    + eexists. split; [reflexivity|]. split; [split; [intros [e Hw]; discriminate|intros (i & e & Hi); destruct (Hn i e Hi)]|].
      split; [split; [intros [p Hw]; discriminate|intros [Hc' _]; destruct (Hc Hc')]|].
      split; [intros; discriminate|]. split; [|intros; discriminate]. intros _.
      apply values_none in Ev. destruct Ev as (i & Hi & Hnv).
      assert (forall i, ~ path g i i) as Hac.
      { intros j Hp. exact (returned_acyclic _ _ _ _ _ j A4 E (second_path _ _ _ _ _ _ _ _ A1 A2 A3 Hp) Hp). }
      destruct (order_spec decode depth srcs g order (second_in _ _ _ _ _ _ A1 A2 A3) Hac Eo) as [Hp _].
      apply (Permutation_in _ Hp), in_seq in Hi. destruct (returned_outcomes _ _ _ _ _ i A4 E) as (o & O1 & _ & O2); [lia|].
      destruct o as [v|e|e]; [destruct (Hnv v); assumption|destruct (Hn i e O2)|eauto].
    + eexists. split; [reflexivity|]. split; [split; [intros [e Hw]; discriminate|intros (i & e & Hi); destruct (Hn i e Hi)]|].
      split; [split; [intros [p Hw]; discriminate|intros [Hc' _]; destruct (Hc Hc')]|].
      split; [intros; discriminate|]. split; [intros; discriminate|]. intros _.
      destruct (Nat.le_gt_cases depth (length (keys srcs))) as [Hd|Hd]; [exact Hd|]. exfalso.
      assert (forall i, ~ path g i i) as Hac.
      { intros j Hp. exact (returned_acyclic _ _ _ _ _ j A4 E (second_path _ _ _ _ _ _ _ _ A1 A2 A3 Hp) Hp). }
      destruct (result_order_ok g srcs depth (second_in _ _ _ _ _ _ A1 A2 A3) Hac Hd) as (order & Eo' & _). congruence.
  - destruct (raised_by _ _ _ _ _ A4 E) as (i & Hi & Hf). eexists. split; [reflexivity|].
    split; [split; [intros _; eauto|intros _; eauto]|]. split; [split; [intros [p Hw]; discriminate|intros [_ Hn]; destruct (Hn _ _ Hf)]|].
    split; [intros e' Hw; injection Hw as <-; eauto|]. split; intros; discriminate.
  - destruct (Hlo p eq_refl) as [Hc Hn]. eexists. split; [reflexivity|].
    split; [split; [intros [e Hw]; discriminate|intros (i & e & Hi); destruct (Hn i e Hi)]|].
    split; [split; [auto|intros _; eauto]|]. repeat split; intros; discriminate.
Qed.
Example C28_ended_ex :
  mwd_result ex_decode 9 [10; 20] [LStart 0; LStart 1; LFinish 1 (OExc 7); LProcess] [] = Some (WRaised 7) /\
  mwd_result ex_decode 9 [10; 20] ex_first [LStart 1; LFinish 1 (OExc 8); LProcess] = Some (WRaised 8) /\
  mwd_result ex_decode 9 [10; 20; 30] ex_cycle [] = Some (WLoop []) /\
  mwd_result ex_decode 9 [10; 20] ex_first [LStart 1; LFinish 1 (OVal 1); LProcess; LStart 0; LFinish 0 (OFatal 8); LProcess] = Some WAttributeError /\
  mwd_result ex_decode 1 [10; 20] ex_first (all_of [1; 0]) = Some WRecursionError.
Proof. vm_compute. repeat split. Qed.

(** ** C31: nothing starts after a failure *)

Definition C31_claim : Prop := forall n deps ls s e ls' s' i, runs n deps (init n deps) ls = Some s -> e_status s = Raised e ->
  runs n deps s ls' = Some s' -> In (Started i) (e_trace s') -> In (Started i) (e_trace s).
Theorem C31_refuted : ~ C31_claim.
Proof.
  intros H.
  assert (exists s s', runs 2 (fun _ => []) (init 2 (fun _ => [])) [LStart 1; LFinish 1 (OExc 7); LProcess] = Some s /\ e_status s = Raised 7 /\
    runs 2 (fun _ => []) s [LStart 0] = Some s' /\ In (Started 0) (e_trace s') /\ e_trace s = [Processed 1; Finished 1 (OExc 7); Started 1])
    as (s & s' & H1 & H2 & H3 & H4 & H5).
  { do 2 eexists. split; [vm_compute; reflexivity|]. split; [reflexivity|]. split; [vm_compute; reflexivity|]. split; [left; reflexivity|reflexivity]. }
  pose proof (H _ _ _ _ _ _ _ _ H1 H2 H3 H4) as H6. rewrite H5 in H6. cbn in H6. repeat destruct H6 as [H6|H6]; discriminate || contradiction.
Qed.
(** Only tasks already on the ready queue when the failure is noticed still start; nothing
    is put there any more. *)
Theorem C31_partial n deps ls s e ls' s' : runs n deps (init n deps) ls = Some s -> e_status s = Raised e ->
  runs n deps s ls' = Some s' ->
  e_status s' = Raised e /\
  (forall i, In i (e_ready s') -> In i (e_ready s)) /\
  (forall i, In (Started i) (e_trace s') -> In (Started i) (e_trace s) \/ In i (e_ready s)).
Proof. intros _ E H. exact (raised_runs n deps s ls' s' e E H). Qed.
(** In particular no item depending on the failed one ever starts. *)
Theorem C31_dependents n deps ls s i d e : runs n deps (init n deps) ls = Some s -> In (Finished d (OExc e)) (e_trace s) ->
  path deps i d -> ~ In (Started i) (e_trace s).
Proof.
  intros H Hf Hp Hs. destruct (reach_inv _ _ _ _ H) as [Hc _].
  assert (exists j, In (Started j) (e_trace s) /\ In d (deps j)) as (j & Hj & Hd).
  { clear Hf. revert Hs. induction Hp as [i d Hd|i k j Hk Hp IH]; intros Hs; [eauto|]. apply IH.
    apply in_split in Hs. destruct Hs as (tr1 & tr2 & E). destruct (deps_first _ _ _ _ _ _ _ _ H E Hk) as (o & Ho & _).
    assert (In (Finished k o) (e_trace s)) as Hin by (rewrite E, in_app_iff; cbn; auto).
    apply (v_out _ _ _ Hc) in Hin. apply (v_started _ _ _ Hc). assert (e_out s k <> None) as Hn by congruence.
    apply (v_fin _ _ _ Hc) in Hn. rewrite !in_app_iff in *. tauto. }
  apply in_split in Hj. destruct Hj as (tr1 & tr2 & E). destruct (deps_first _ _ _ _ _ _ _ _ H E Hd) as (o & Ho & Hok).
  assert (In (Finished d o) (e_trace s)) as Hin by (rewrite E, in_app_iff; cbn; auto).
  rewrite (out_fun _ _ _ _ _ _ Hc Hin Hf) in Hok. exact (Hok e eq_refl).
Qed.
Example C31_partial_ex : exists s, runs 3 (fun i => match i with 2 => [1] | _ => [] end) (init 3 (fun i => match i with 2 => [1] | _ => [] end))
    [LStart 1; LFinish 1 (OExc 7); LProcess] = Some s /\ e_status s = Raised 7 /\ e_ready s = [0] /\ In (Finished 1 (OExc 7)) (e_trace s) /\
    path (fun i => match i with 2 => [1] | _ => [] end) 2 1.
Proof.
  eexists. split; [vm_compute; reflexivity|]. split; [reflexivity|]. split; [reflexivity|]. split; [cbn; auto|].
  apply path_one. left. reflexivity.
Qed.

Print Assumptions C24_at_most_once.
Print Assumptions C24_exactly_once.
Print Assumptions C24_items.
Print Assumptions C25_refuted.
Print Assumptions C25_ended.
Print Assumptions C25_partial.
Print Assumptions C26_map.
Print Assumptions C26_depends.
Print Assumptions C27_refuted.
Print Assumptions C27_raised.
Print Assumptions C27_partial.
Print Assumptions C27_map.
Print Assumptions C27_first.
Print Assumptions C28_loop.
Print Assumptions C28_ended.
Print Assumptions C28_only.
Print Assumptions C28_first.
Print Assumptions C28_bounded.
Print Assumptions C28_progress.
Print Assumptions C28_report_refuted.
Print Assumptions C28_report.
Print Assumptions C29_order.
Print Assumptions C29_returned.
Print Assumptions C29_deep.
Print Assumptions C31_refuted.
Print Assumptions C31_partial.
Print Assumptions C31_dependents.
