(** Theorems about map_with_dependencies as a whole. *)
From Coq Require Import List Bool Arith Lia Permutation.
From Verif Require Import SchedModel SchedFacts SchedThms.
Import ListNotations.

(** *** The graph, whatever [depends] returned *)
Lemma graph_general srcs dres rs : (forall j, In j rs -> j < length srcs) -> forall k d,
  In d (graph srcs rs dres k) <->
  d < length (keys srcs) /\ k < length (keys srcs) /\
  exists j, In j rs /\ nth j srcs 0 = nth k (keys srcs) 0 /\ In (nth d (keys srcs) 0) (dres j).
Proof.
  induction rs as [|j rs IH] using rev_ind; intros Hr k d.
  - cbn. split; [intros []|intros (_ & _ & j & [] & _)].
  - assert (j < length srcs) as Hj by (apply Hr, in_app_iff; right; left; reflexivity).
    assert (forall i, In i rs -> i < length srcs) as Hr' by (intros i Hi; apply Hr, in_app_iff; left; exact Hi).
    specialize (IH Hr'). unfold graph in *. rewrite fold_left_app. cbn [fold_left]. unfold add_dependencies at 1.
    destruct (index_in (nth j srcs 0) (keys srcs)) as [k' E]; [apply keys_in, nth_In; exact Hj|]. rewrite E.
    destruct (index_some _ _ _ E) as [Hk' Ek'].
    set (g := fold_left (add_dependencies srcs dres) rs (fun _ => [])) in *.
    destruct (upd_cases g k' (g k' ++ known (keys srcs) (dres j)) k) as [[-> Ek]|[Hne Ek]]; rewrite Ek.
    + rewrite in_app_iff, IH, (known_in _ _ _ (keys_nodup srcs)). split.
      * intros [(H1 & H2 & i & H3 & H4 & H5)|[H1 H2]].
        -- split; [exact H1|]. split; [exact H2|]. exists i. rewrite in_app_iff. auto.
        -- split; [exact H1|]. split; [exact Hk'|]. exists j. rewrite in_app_iff. cbn. auto.
      * intros (H1 & H2 & i & H3 & H4 & H5). apply in_app_iff in H3. destruct H3 as [H3|[<-|[]]]; [left; eauto 6|right; auto].
    + rewrite IH. split; intros (H1 & H2 & i & H3 & H4 & H5); (split; [exact H1|]; split; [exact H2|]; exists i).
      * rewrite in_app_iff. auto.
      * apply in_app_iff in H3. destruct H3 as [H3|[<-|[]]]; [auto|]. exfalso. apply Hne.
        assert (Some k = Some k') as Hs; [|congruence]. rewrite <- E, H4. symmetry. apply index_nth; [apply keys_nodup|exact H2].
Qed.

Section Whole.
  Context (decode : value -> list src) (depth : nat) (srcs : list src).
  Notation first_run := (first_run srcs).
  Notation second_run := (second_run srcs).
  Notation second_graph := (second_graph decode srcs).
  Notation items := (keys srcs).

  Lemma second_shape ls1 s1 rs g : first_run ls1 = Some s1 -> e_status s1 = Returned rs -> second_graph s1 rs = Some g ->
    g = graph srcs rs (deps_of decode s1) /\ Permutation rs (seq 0 (length srcs)) /\
    (forall j, j < length srcs -> exists v, e_out s1 j = Some (OVal v)) /\
    (forall k d, In d (g k) <-> d < length items /\ k < length items /\
       exists j, j < length srcs /\ nth j srcs 0 = nth k items 0 /\ In (nth d items 0) (deps_of decode s1 j)).
  Proof.
    intros H E Hg. unfold second_graph in Hg. destruct (values_of (e_out s1) rs) as [vs|] eqn:Ev; [|discriminate].
    injection Hg as <-. split; [reflexivity|]. destruct (returned_all _ _ _ _ _ H E) as [Hp _]. split; [exact Hp|].
    destruct (values_some _ _ _ Ev) as [_ Hv]. split.
    - intros j Hj. assert (In j rs) as Hin by (apply (Permutation_in _ (Permutation_sym Hp)); apply in_seq; lia).
      apply (In_nth _ _ 0) in Hin. destruct Hin as (i & Hi & <-). eauto.
    - intros k d. assert (forall j, In j rs <-> j < length srcs) as Hrs.
      { intros j. split; intros Hj; [apply (Permutation_in _ Hp) in Hj; apply in_seq in Hj; lia|].
        apply (Permutation_in _ (Permutation_sym Hp)); apply in_seq; lia. }
      rewrite graph_general by (intros j Hj; apply Hrs; exact Hj).
      split; intros (H1 & H2 & j & H3 & H4); (split; [exact H1|]; split; [exact H2|]; exists j; split; [apply Hrs; exact H3|exact H4]).
  Qed.
  Lemma second_in ls1 s1 rs g : first_run ls1 = Some s1 -> e_status s1 = Returned rs -> second_graph s1 rs = Some g ->
    forall i d, i < length items -> In d (g i) -> d < length items.
  Proof. intros H E Hg i d _ Hd. destruct (second_shape _ _ _ _ H E Hg) as (_ & _ & _ & Hgr). apply Hgr in Hd. apply Hd. Qed.

  Lemma second_path ls1 s1 rs g i j : first_run ls1 = Some s1 -> e_status s1 = Returned rs -> second_graph s1 rs = Some g ->
    path g i j -> i < length items.
  Proof.
    intros H E Hg Hp. destruct (second_shape _ _ _ _ H E Hg) as (_ & _ & _ & Hgr).
    destruct Hp as [i d Hd|i d j Hd _]; apply Hgr in Hd; apply Hd.
  Qed.

  Lemma list_inv ls1 ls2 vs : mwd_result decode depth srcs ls1 ls2 = Some (WList vs) ->
    exists s1 rs g s2 rs2 order, first_run ls1 = Some s1 /\ e_status s1 = Returned rs /\ second_graph s1 rs = Some g /\
      second_run g ls2 = Some s2 /\ e_status s2 = Returned rs2 /\ result_order g depth srcs = Some order /\
      values_of (e_out s2) order = Some vs.
  Proof.
    unfold mwd_result. intros H. destruct (first_run ls1) as [s1|] eqn:E1; [|discriminate].
    destruct (e_status s1) as [|rs|e|p] eqn:E2; try discriminate.
    destruct (second_graph s1 rs) as [g|] eqn:E3; [|discriminate].
    destruct (second_run g ls2) as [s2|] eqn:E4; [|discriminate]. unfold mwd_end in H.
    destruct (e_status s2) as [|rs2|e|p] eqn:E5; try discriminate.
    destruct (result_order g depth srcs) as [order|] eqn:E6; [|discriminate].
    destruct (values_of (e_out s2) order) as [vs'|] eqn:E7; [|discriminate]. injection H as ->.
    exists s1, rs, g, s2, rs2, order. auto 10.
  Qed.

  (** *** The order of results, without assuming enough stack *)
  Lemma order_spec g order : (forall i d, i < length items -> In d (g i) -> d < length items) -> (forall i, ~ path g i i) ->
    result_order g depth srcs = Some order ->
    Permutation order (seq 0 (length items)) /\ forall l1 x l2, order = l1 ++ x :: l2 -> forall d, In d (g x) -> In d l1.
  Proof.
    intros Hin Hac H. unfold result_order in H. rewrite visit_all_eq in H.
    set (ts := flat_map _ srcs) in H.
    assert (forall t, In t ts <-> t < length items) as Hts.
    { intros t. unfold ts. rewrite in_flat_map. split.
      - intros (x & Hx & H'). destruct (index_of x items) as [k|] eqn:E; [|contradiction]. destruct H' as [<-|[]].
        apply (index_some _ _ _ E).
      - intros Ht. exists (nth t items 0). split; [apply keys_in, nth_In; exact Ht|].
        rewrite (index_nth _ _ (keys_nodup srcs) Ht). left. reflexivity. }
    destruct (vloop (visit g depth) ts ([], [])) as [[vis res]|] eqn:E; [|discriminate]. cbn in H. injection H as <-.
    destruct (vloop_ok g (visit g depth) [] ts ([], []) (vis, res)) as (H1 & H2 & _); try assumption.
    { intros st t st' _ Hok Hv. exact (visit_ok g depth [] st t st' Hac (fun x Hx => match Hx with end) Hok Hv). }
    { intros d x _ []. }
    { split; cbn; [constructor|tauto|auto|]. intros [|? l1] x l2 Hx; discriminate. }
    cbn in *. destruct H1 as [K1 K2 K3 K4]. cbn in *. split; [|exact K4].
    assert (forall x, In x res -> x < length items) as Hb.
    { apply (vloop_from g depth ts (fun x => x < length items) Hin (fun t Ht => proj1 (Hts t) Ht) ([], []) (vis, res)); [intros x []|exact E]. }
    apply NoDup_Permutation; [exact K1|apply seq_NoDup|]. intros x. rewrite in_seq. split; [intros Hx; specialize (Hb x Hx); lia|].
    intros Hx. apply H2, Hts. lia.
  Qed.
End Whole.

(** *** Only the graph matters *)
Lemma vloop_ext f f' ds st : (forall st t, f st t = f' st t) -> vloop f ds st = vloop f' ds st.
Proof. intros H. revert st. induction ds as [|d ds IH]; intros st; cbn; [reflexivity|]. rewrite H. destruct (f' st d); auto. Qed.
Lemma visit_ext g g' : (forall k, g k = g' k) -> forall depth st t, visit g depth st t = visit g' depth st t.
Proof.
  intros H. induction depth as [|depth IH]; intros st t; [reflexivity|]. rewrite !visit_eq, H.
  rewrite (vloop_ext _ _ _ _ IH). reflexivity.
Qed.
Lemma order_ext g g' depth srcs : (forall k, g k = g' k) -> result_order g depth srcs = result_order g' depth srcs.
Proof.
  intros H. unfold result_order. rewrite !visit_all_eq. rewrite (vloop_ext _ _ _ _ (visit_ext g g' H depth)). reflexivity.
Qed.
Lemma graph_outside srcs dres rs : (forall j, In j rs -> j < length srcs) -> forall k, length (keys srcs) <= k -> graph srcs rs dres k = [].
Proof.
  intros Hr k Hk. destruct (graph srcs rs dres k) as [|d l] eqn:E; [reflexivity|].
  assert (In d (graph srcs rs dres k)) as Hd by (rewrite E; left; reflexivity).
  apply (graph_general srcs dres rs Hr) in Hd. lia.
Qed.
Lemma graph_dres srcs rs dres dres' : (forall j, In j rs -> dres j = dres' j) -> graph srcs rs dres = graph srcs rs dres'.
Proof.
  unfold graph. generalize (fun _ : nat => @nil nat). induction rs as [|j rs IH]; intros g H; cbn; [reflexivity|].
  assert (add_dependencies srcs dres g j = add_dependencies srcs dres' g j) as ->.
  { unfold add_dependencies. rewrite (H j (or_introl eq_refl)). reflexivity. }
  apply IH. intros i Hi. apply H. right. exact Hi.
Qed.

(** [depends] and the function as functions of the source. *)
Definition pure_on (f : src -> outcome) (l : list src) (tr : list event) : Prop :=
  forall i o, In (Finished i o) tr -> o = f (nth i l 0).

Lemma pure_graph decode srcs dep ls s rs g : first_run srcs ls = Some s -> e_status s = Returned rs ->
  second_graph decode srcs s rs = Some g -> pure_on dep srcs (e_trace s) ->
  (forall j, j < length srcs -> exists v, dep (nth j srcs 0) = OVal v) /\
  forall k, g k = if Nat.ltb k (length (keys srcs)) then
    copies (count_occ Nat.eq_dec srcs (nth k (keys srcs) 0))
      (known (keys srcs) (match dep (nth k (keys srcs) 0) with OVal v => decode v | _ => [] end)) else [].
Proof.
  intros H E Hg Hp. destruct (second_shape _ _ _ _ _ _ H E Hg) as (-> & Hperm & Hv & _).
  assert (forall j, j < length srcs -> exists v, e_out s j = Some (OVal v) /\ dep (nth j srcs 0) = OVal v) as Hd.
  { intros j Hj. destruct (Hv j Hj) as [v Ho]. exists v. split; [exact Ho|]. symmetry. apply Hp.
    apply (v_out _ _ _ (n_core _ _ _ (reach_inv _ _ _ _ H))). exact Ho. }
  split; [intros j Hj; destruct (Hd j Hj) as (v & _ & ?); eauto|].
  assert (forall j, In j rs -> j < length srcs) as Hr.
  { intros j Hj. apply (Permutation_in _ Hperm) in Hj. apply in_seq in Hj. lia. }
  intros k. destruct (Nat.ltb_spec k (length (keys srcs))) as [Hk|Hk]; [|apply graph_outside; assumption].
  rewrite <- (graph_perm srcs (fun x => match dep x with OVal v => decode v | _ => [] end) rs Hperm k Hk).
  rewrite (graph_dres srcs rs (deps_of decode s) (fun j => match dep (nth j srcs 0) with OVal v => decode v | _ => [] end)); [reflexivity|].
  intros j Hj. destruct (Hd j (Hr j Hj)) as (v & H1 & H2). unfold deps_of. rewrite H1, H2. reflexivity.
Qed.

Lemma values_pure out l f vs : values_of out l = Some vs -> (forall i v, In i l -> out i = Some (OVal v) -> f i = OVal v) ->
  map f l = map OVal vs.
Proof.
  revert vs. induction l as [|i l IH]; intros vs H Hf; cbn in H; [injection H as <-; reflexivity|].
  destruct (out i) as [[v|e|e]|] eqn:Eo; try discriminate. destruct (values_of out l) as [vs'|]; [|discriminate]. injection H as <-.
  cbn. rewrite (Hf i v (or_introl eq_refl) Eo), (IH vs' eq_refl); [reflexivity|]. intros j w Hj. apply Hf. right. exact Hj.
Qed.
Lemma map_OVal_inj vs vs' : map OVal vs = map OVal vs' -> vs = vs'.
Proof.
  revert vs'. induction vs as [|v vs IH]; intros [|v' vs'] H; try discriminate; [reflexivity|]. cbn in H.
  injection H as -> H. rewrite (IH _ H). reflexivity.
Qed.
