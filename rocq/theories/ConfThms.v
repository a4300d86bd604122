(** Class bodies and modules of [ConfSpec] run by [ConfModel]. *)
From stdpp Require Import base list strings gmap sorting.
From Coq Require Import Lia.
From Verif Require Import ConfModel ConfFacts ConfSpec.

(** ** Bodies *)

Fixpoint lastb (body : list stmt) (k : string) (d : option binding) : option binding :=
  match body with
  | [] => d
  | SSet k' b :: body' => lastb body' k (if decide (k = k') then Some b else d)
  | SDel k' :: body' => lastb body' k (if decide (k = k') then None else d)
  end.
Lemma exec_vals body : forall t t', exec_body t body = Some t' -> forall k, t_vals t' !! k = lastb body k (t_vals t !! k).
Proof.
  induction body as [|[k' b|k'] body IH]; intros t t' H k; cbn in H |- *; [by injection H as <-| |].
  - rewrite (IH _ _ H). cbn. destruct (decide (k = k')) as [->|Hne]; [by rewrite lookup_insert|by rewrite lookup_insert_ne by done].
  - destruct (t_vals t !! k') as [w|]; [|done]. rewrite (IH _ _ H). cbn.
    destruct (decide (k = k')) as [->|Hne]; [by rewrite lookup_delete|by rewrite lookup_delete_ne by done].
Qed.
Lemma no_del_cons o body : no_del (o :: body) -> no_del body /\ exists k b, o = SSet k b.
Proof.
  intros H. split; [intros k Hk; apply (H k); by right|]. destruct o as [k b|k]; [eauto|]. exfalso. apply (H k). by left.
Qed.
Lemma lastb_binds body : no_del body -> forall k d b, lastb body k d = Some b <-> binds body k b \/ ~ names_in body k /\ d = Some b.
Proof.
  induction body as [|o body IH]; intros Hn k d b.
  - cbn. split.
    + intros ->. right. split; [|done]. intros (b' & Hb). by apply elem_of_nil in Hb.
    + intros [(l1 & l2 & H & _)|[_ ?]]; [by destruct l1|done].
  - apply no_del_cons in Hn as [Hn (k' & b' & ->)]. cbn [lastb]. rewrite (IH Hn). split.
    + intros [(l1 & l2 & -> & Hl)|[Hni Hd]]; [left; by exists (SSet k' b' :: l1), l2|].
      destruct (decide (k = k')) as [->|Hne].
      * left. injection Hd as <-. exists [], body. split; [done|]. intros b1 Hb1. apply Hni. by exists b1.
      * right. split; [|done]. intros (b1 & [Hb1|Hb1]%elem_of_cons); [by injection Hb1 as -> _|]. apply Hni. by exists b1.
    + intros [(l1 & l2 & H & Hl)|[Hni Hd]].
      * destruct l1 as [|o l1]; [injection H as -> -> ->|injection H as <- ->; left; by exists l1, l2].
        right. split; [|by rewrite decide_True]. intros (b1 & Hb1). by apply (Hl b1).
      * right. rewrite decide_False.
        -- split; [|done]. intros (b1 & Hb1). apply Hni. exists b1. by right.
        -- intros ->. apply Hni. exists b'. by left.
Qed.
Fixpoint first_keys (seen : list string) (body : list stmt) : list string :=
  match body with
  | [] => []
  | SSet k _ :: body' => if decide (k ∈ seen) then first_keys seen body' else k :: first_keys (k :: seen) body'
  | SDel _ :: body' => first_keys seen body'
  end.
Lemma first_keys_perm body : forall s1 s2, (forall k, k ∈ s1 <-> k ∈ s2) -> first_keys s1 body = first_keys s2 body.
Proof.
  induction body as [|[k b|k] body IH]; intros s1 s2 H; cbn; [done| |by apply IH].
  destruct (decide (k ∈ s1)) as [Hk|Hk].
  - rewrite decide_True by (by apply H). by apply IH.
  - rewrite decide_False by (by rewrite <- H). f_equal. apply IH. intros x. rewrite !elem_of_cons. by rewrite H.
Qed.
Lemma exec_first body : no_del body -> forall t, (forall k, is_Some (t_vals t !! k) <-> k ∈ t_names t) ->
  exists t', exec_body t body = Some t' /\ t_names t' = t_names t ++ first_keys (t_names t) body.
Proof.
  induction body as [|o body IH]; intros Hn t Ht; [exists t; cbn; by rewrite app_nil_r|].
  apply no_del_cons in Hn as [Hn (k & b & ->)]. cbn [exec_body first_keys].
  destruct (IH Hn (table_set t k b)) as (t' & E & En).
  - intros x. cbn. destruct (decide (is_Some (t_vals t !! k))) as [Hk|Hk].
    + rewrite <- Ht. destruct (decide (x = k)) as [->|Hne]; [rewrite lookup_insert; naive_solver|by rewrite lookup_insert_ne by done].
    + rewrite elem_of_app, elem_of_list_singleton, <- Ht. destruct (decide (x = k)) as [->|Hne]; [rewrite lookup_insert; naive_solver|].
      rewrite lookup_insert_ne by done. naive_solver.
  - exists t'. split; [done|]. rewrite En. cbn. destruct (decide (is_Some (t_vals t !! k))) as [Hk|Hk].
    + by rewrite (decide_True (P := k ∈ t_names t)) by (by apply Ht).
    + rewrite (decide_False (P := k ∈ t_names t)) by (by rewrite <- Ht). rewrite <- app_assoc. cbn. f_equal. f_equal.
      apply first_keys_perm. intros x. rewrite elem_of_app, elem_of_list_singleton, elem_of_cons. tauto.
Qed.
Lemma first_keys_elem body : no_del body -> forall seen k, k ∈ first_keys seen body <-> k ∉ seen /\ names_in body k.
Proof.
  induction body as [|o body IH]; intros Hn seen k.
  - cbn. split; [by intros ?%elem_of_nil|]. intros [_ (b & Hb)]. by apply elem_of_nil in Hb.
  - apply no_del_cons in Hn as [Hn (k' & b & ->)]. cbn. destruct (decide (k' ∈ seen)) as [Hk|Hk].
    + rewrite (IH Hn). split; intros [H1 (b' & H2)]; (split; [done|]); exists b'.
      * by right.
      * apply elem_of_cons in H2 as [H2|H2]; [|done]. by injection H2 as -> ->.
    + rewrite elem_of_cons, (IH Hn). split.
      * intros [->|[H1 (b' & H2)]]; [split; [done|exists b; by left]|]. split; [intros H; apply H1; by right|]. exists b'. by right.
      * intros [H1 (b' & H2)]. destruct (decide (k = k')) as [->|Hne]; [by left|]. right. split; [by intros [?|?]%elem_of_cons|].
        exists b'. apply elem_of_cons in H2 as [H2|H2]; [by injection H2 as -> ->|done].
Qed.
Lemma first_keys_sorted body : no_del body -> forall seen off,
  exists P : string -> nat -> Prop, (forall k, k ∈ first_keys seen body -> exists n, P k (off + n) /\ first_at body k n) /\
    StronglySorted (fun k1 k2 => exists n1 n2, P k1 n1 /\ P k2 n2 /\ n1 < n2) (first_keys seen body) /\
    forall k n, P k n -> off <= n /\ first_at body k (n - off).
Proof.
  induction body as [|o body IH]; intros Hn seen off.
  - exists (fun _ _ => False). split; [intros k Hk; by apply elem_of_nil in Hk|]. split; [constructor|done].
  - apply no_del_cons in Hn as [Hn (k' & b & ->)].
    destruct (IH Hn (if decide (k' ∈ seen) then seen else k' :: seen) (S off)) as (P & H1 & H2 & H3).
    assert (forall k n, k <> k' -> first_at body k n -> first_at (SSet k' b :: body) k (S n)) as Hs.
    { intros k n Hne [(b1 & Hb1) Hf]. split; [by exists b1|]. intros [|m] b2 Hm; cbn; [congruence|]. apply Hf. lia. }
    assert (first_at (SSet k' b :: body) k' 0) as H0 by (split; [by exists b|intros; lia]).
    exists (fun k n => k = k' /\ n = off \/ k <> k' /\ P k n). cbn [first_keys].
    assert (forall k, k ∈ first_keys (if decide (k' ∈ seen) then seen else k' :: seen) body -> k <> k' ->
      exists n, (k = k' /\ off + n = off \/ k <> k' /\ P k (off + n)) /\ first_at (SSet k' b :: body) k n) as Hin.
    { intros k Hk Hne. destruct (H1 k Hk) as (n & Hp & Hf). exists (S n). split; [right; split; [done|]; by replace (off + S n) with (S off + n) by lia|by apply Hs]. }
    split; [|split].
    + intros k Hk. destruct (decide (k' ∈ seen)) as [Hk'|Hk'].
      * apply Hin; [done|]. intros ->. apply first_keys_elem in Hk as [? _]; done.
      * apply elem_of_cons in Hk as [->|Hk]; [exists 0; split; [left; split; [done|lia]|done]|]. apply Hin; [done|].
        intros ->. apply first_keys_elem in Hk as [Hk _]; [|done]. apply Hk. by left.
    + assert (forall l, k' ∉ l -> StronglySorted (fun k1 k2 => exists n1 n2, P k1 n1 /\ P k2 n2 /\ n1 < n2) l ->
        StronglySorted (fun k1 k2 => exists n1 n2, (k1 = k' /\ n1 = off \/ k1 <> k' /\ P k1 n1) /\ (k2 = k' /\ n2 = off \/ k2 <> k' /\ P k2 n2) /\ n1 < n2) l) as Hm.
      { intros l. induction l as [|x l IHl]; intros Hx Hl; [constructor|]. apply not_elem_of_cons in Hx as [Hx1 Hx2].
        apply StronglySorted_inv in Hl as [Hl Hf]. constructor; [by apply IHl|]. rewrite Forall_forall in Hf |- *. intros y Hy.
        destruct (Hf y Hy) as (n1 & n2 & P1 & P2 & Hlt). exists n1, n2. split; [by right|]. split; [|done]. right. split; [|done]. intros ->. done. }
      destruct (decide (k' ∈ seen)) as [Hk'|Hk'].
      * apply Hm; [|done]. intros Hk. apply first_keys_elem in Hk as [? _]; done.
      * assert (k' ∉ first_keys (k' :: seen) body) as Hni by (intros Hk; apply first_keys_elem in Hk as [Hk _]; [apply Hk; by left|done]).
        constructor; [by apply Hm|]. rewrite Forall_forall. intros y Hy. destruct (H1 y Hy) as (n & Hp & _).
        exists off, (S off + n). split; [by left|]. split; [right; split; [intros ->; done|done]|lia].
    + intros k n [[-> ->]|[Hne Hp]]; [split; [done|by rewrite Nat.sub_diag]|]. destruct (H3 k n Hp) as [Hle Hf].
      split; [lia|]. replace (n - off) with (S (n - S off)) by lia. by apply Hs.
Qed.
Lemma first_keys_before body : no_del body -> StronglySorted (before body) (first_keys [] body).
Proof.
  intros Hn. destruct (first_keys_sorted body Hn [] 0) as (P & _ & Hs & HP).
  induction Hs as [|x l Hs IH Hf]; constructor; [done|]. rewrite Forall_forall in Hf |- *. intros y Hy.
  destruct (Hf y Hy) as (n1 & n2 & P1 & P2 & Hlt). apply HP in P1 as [_ P1], P2 as [_ P2]. rewrite Nat.sub_0_r in P1, P2. by exists n1, n2.
Qed.
Lemma first_at_unique body k n m : first_at body k n -> first_at body k m -> n = m.
Proof.
  intros [(b & Hb) H1] [(b' & Hb') H2]. destruct (Nat.lt_total n m) as [Hl|[?|Hl]]; [|done|].
  - by destruct (H2 n b Hl).
  - by destruct (H1 m b' Hl).
Qed.
Lemma before_irrefl body k : ~ before body k k.
Proof. intros (n1 & n2 & H1 & H2 & Hlt). pose proof (first_at_unique _ _ _ _ H1 H2). lia. Qed.
Lemma sorted_nodup {A} (R : A -> A -> Prop) l : (forall x, ~ R x x) -> StronglySorted R l -> NoDup l.
Proof.
  intros Hi Hs. induction Hs as [|x l Hs IH Hf]; constructor; [|done]. intros Hx. rewrite Forall_forall in Hf. by destruct (Hi x (Hf x Hx)).
Qed.
Lemma sorted_filter {A} (R : A -> A -> Prop) (P : A -> Prop) `{forall x, Decision (P x)} l : StronglySorted R l -> StronglySorted R (filter P l).
Proof.
  intros Hs. induction Hs as [|x l Hs IH Hf]; [constructor|]. rewrite filter_cons. destruct (decide (P x)); [|done]. constructor; [done|].
  rewrite Forall_forall in Hf |- *. intros y [_ Hy]%elem_of_list_filter. by apply Hf.
Qed.

(** The table a body leaves. *)
Definition skips (cxx : bool) (k : string) : bool := cxx && bool_decide (k = "namespace").
Lemma body_table_no_del cxx body t : no_del body -> body_table cxx body = Some t ->
  (forall k b, t_vals t !! k = Some b <-> binds body k b /\ skips cxx k = false) /\ t_names t = first_keys [] body.
Proof.
  intros Hn. unfold body_table. destruct (exec_first body Hn (Table ∅ [])) as (t0 & E & En).
  { intros k. cbn. rewrite lookup_empty. split; [by intros [? ?]|by intros ?%elem_of_nil]. }
  rewrite E. intros [= <-]. cbn in En. pose proof (exec_vals _ _ _ E) as Hv. cbn in Hv.
  assert (forall k b, t_vals t0 !! k = Some b <-> binds body k b) as Hb.
  { intros k b. rewrite Hv, lookup_empty, (lastb_binds body Hn). naive_solver. }
  split; [|by destruct cxx]. intros k b. unfold skips. destruct cxx; cbn; [|rewrite Hb; naive_solver].
  destruct (decide (k = "namespace")) as [->|Hne].
  - rewrite lookup_delete, bool_decide_eq_true_2 by done. naive_solver.
  - rewrite lookup_delete_ne, bool_decide_eq_false_2, Hb by done. naive_solver.
Qed.
Lemma body_table_some cxx body : no_del body -> is_Some (body_table cxx body).
Proof.
  intros Hn. unfold body_table. destruct (exec_first body Hn (Table ∅ [])) as (t0 & E & En).
  { intros k. cbn. rewrite lookup_empty. split; [by intros [? ?]|by intros ?%elem_of_nil]. }
  rewrite E. eauto.
Qed.

(** ** Modules *)

Lemma define_app p : forall s s', define s p = Some s' -> exists l, s_classes s' = s_classes s ++ l /\
  Forall2 (fun c d => c_name d = cs_name c /\ c_bases d = cs_bases c /\ c_body d = cs_body c) p l /\
  forall n d, l !! n = Some d -> made (s_classes s ++ take n l) d.
Proof.
  induction p as [|c p IH]; intros s s' H; cbn in H.
  - injection H as <-. exists []. rewrite app_nil_r. split; [done|]. split; [constructor|done].
  - destruct (new_class s _ _ _) as [s1|] eqn:E; [|done]. apply new_class_made in E as (d & E1 & Hm & Hd).
    destruct (IH _ _ H) as (l & El & Hf & Hml). exists (d :: l). rewrite El, E1, <- app_assoc. split; [done|]. split; [by constructor|].
    intros [|n] x Hx; cbn in Hx |- *.
    + injection Hx as <-. by rewrite app_nil_r.
    + specialize (Hml n x Hx). by rewrite E1, <- app_assoc in Hml.
Qed.
Lemma define_class h p s i c : define (initial h) p = Some s -> s_classes s !! i = Some c -> 2 <= i ->
  exists d, d ∈ p /\ c_name c = cs_name d /\ c_bases c = cs_bases d /\ c_body c = cs_body d /\ made (take i (s_classes s)) c.
Proof.
  intros H Hc Hi. destruct (define_app _ _ _ H) as (l & El & Hf & Hm). rewrite El in Hc |- *. cbn in Hc |- *.
  destruct i as [|[|i]]; [lia|lia|]. cbn in Hc |- *. destruct (Forall2_lookup_r _ _ _ _ _ Hf Hc) as (d & Hd & Hx).
  exists d. split; [by eapply elem_of_list_lookup_2|]. destruct Hx as (? & ? & ?). split; [done|]. split; [done|]. split; [done|]. by apply Hm.
Qed.
Lemma take_lookup {A} (l : list A) i j : j < i -> take i l !! j = l !! j.
Proof. intros H. by apply lookup_take. Qed.

Lemma made_fields cs c (b : nat) : made cs c -> c_bases c = [b] -> no_del (c_body c) ->
  exists own, c_fields c = filter (fun k => c_attrs c !! k = None) (fields_of cs b) ++ own /\
    StronglySorted (before (c_body c)) own /\
    (forall k, k ∈ own <-> exists x, binds (c_body c) k x /\ skips (c_cxx c) k = false /\ is_field x = true) /\
    forall k a, c_attrs c !! k = Some a <-> exists x, binds (c_body c) k x /\ skips (c_cxx c) k = false /\ a = attr_for x.
Proof.
  intros [Hb Hm Hx (t & Ht & Ha & Hf)] Eb Hn. destruct (body_table_no_del _ _ _ Hn Ht) as [Hv Hnm].
  exists (filter (fun k => prop_key t k = true) (t_names t)). repeat split.
  - rewrite Hf, Eb. f_equal. unfold inherited, fields_of. cbn. destruct (cs !! b) as [d|]; [|done]. rewrite app_nil_r.
    apply list_filter_iff. intros k. rewrite Ha. unfold own_attrs. by destruct (t_vals t !! k).
  - apply sorted_filter. rewrite Hnm. by apply first_keys_before.
  - rewrite elem_of_list_filter. unfold prop_key. intros [Hk _]. destruct (t_vals t !! k) as [x|] eqn:Ek; [|done].
    apply Hv in Ek as [? ?]. exists x. split; [done|]. split; [done|]. by destruct x.
  - intros (x & H1 & H2 & H3). assert (t_vals t !! k = Some x) as Ek by (by apply Hv). apply elem_of_list_filter. split.
    + unfold prop_key. rewrite Ek. by destruct x.
    + apply (body_names _ _ _ Ht). eauto.
  - rewrite Ha. unfold own_attrs. destruct (t_vals t !! k) as [x|] eqn:Ek; [|done]. intros [= <-]. apply Hv in Ek as [? ?]. eauto.
  - intros (x & H1 & H2 & ->). rewrite Ha. unfold own_attrs. by rewrite (proj2 (Hv k x)).
Qed.

(** ** One base class *)

Lemma define_length h p s : define (initial h) p = Some s -> length (s_classes s) = 2 + length p.
Proof. intros H. destruct (define_app _ _ _ H) as (l & El & Hf & _). rewrite El. cbn. by rewrite (Forall2_length _ _ _ Hf). Qed.
Lemma one_base h p s i c b : define (initial h) p = Some s -> s_classes s !! i = Some c -> 2 <= i -> c_bases c = [b] ->
  b < i /\ fields_of (take i (s_classes s)) b = fields_of (s_classes s) b /\
  forall k, class_attr (s_classes s) i k = match c_attrs c !! k with Some a => Some a | None => class_attr (s_classes s) b k end.
Proof.
  intros H Hc Hi Eb. destruct (define_class _ _ _ _ _ H Hc Hi) as (d & _ & _ & _ & _ & Hm).
  pose proof (define_cinv _ _ _ (cinv_initial h) H) as Hci. assert (i < length (s_classes s)) as Hl by (by eapply lookup_lt_Some).
  assert (length (take i (s_classes s)) = i) as Et by (rewrite take_length; lia).
  assert (b < i) as Hb by (rewrite <- Et; apply (m_bases _ _ Hm); rewrite Eb; by left).
  split; [done|]. split; [unfold fields_of; by rewrite take_lookup|]. intros k.
  destruct (i_head _ _ (Hci b ltac:(lia))) as (r & Er & _). pose proof (i_nodup _ _ (Hci b ltac:(lia))) as Hn. rewrite Er in Hn.
  pose proof (m_mro _ _ Hm) as Hmro. rewrite Eb, Et in Hmro. unfold linearize in Hmro. cbn [map app] in Hmro.
  assert (mro_of (take i (s_classes s)) b = b :: r) as Emb by (rewrite <- Er; unfold mro_of; by rewrite take_lookup).
  rewrite Emb in Hmro.
  assert (c_mro c = i :: b :: r) as Emro.
  { replace (sum_list [length (b :: r); length [b]]) with (S (S (length r))) in Hmro by (cbn; lia).
    rewrite (merge_one r b Hn) in Hmro by done. by injection Hmro as <-. }
  unfold class_attr, mro_of. rewrite Hc, Emro. cbn [search]. rewrite Hc. change (match s_classes s !! b with Some c0 => c_mro c0 | None => [] end) with (mro_of (s_classes s) b).
  by rewrite Er.
Qed.
Lemma test_class h p s i c : define (initial h) p = Some s -> s_classes s !! i = Some c -> i < 2 -> c_fields c = [] /\ c_attrs c = ∅ /\ c_body c = [] /\ forall k, class_attr (s_classes s) i k = None.
Proof.
  intros H Hc Hi. destruct (define_app _ _ _ H) as (l & El & _). unfold class_attr, mro_of. rewrite El in Hc |- *.
  destruct i as [|[|i]]; [| |lia]; cbn in Hc |- *; injection Hc as <-; cbn; (split; [done|]; split; [done|]; split; [done|]); intros k;
  rewrite !lookup_empty; done.
Qed.
Lemma plain_class h p s i c : plain p -> define (initial h) p = Some s -> s_classes s !! i = Some c -> 2 <= i ->
  (exists b, c_bases c = [b]) /\ no_del (c_body c) /\ forall b, SSet "namespace" b ∈ c_body c -> is_field b = false.
Proof.
  intros Hp H Hc Hi. destruct (define_class _ _ _ _ _ H Hc Hi) as (d & Hd & _ & -> & -> & _). by apply Hp.
Qed.
Lemma plain_fields h p s : plain p -> define (initial h) p = Some s -> forall i, i < length (s_classes s) ->
  NoDup (fields_of (s_classes s) i) /\ "namespace" ∉ fields_of (s_classes s) i /\
  forall k, k ∈ fields_of (s_classes s) i -> exists a, class_attr (s_classes s) i k = Some a /\ is_prop a = true.
Proof.
  intros Hp H i. induction i as [i IH] using lt_wf_ind. intros Hi.
  destruct (lookup_lt_is_Some_2 _ _ Hi) as [c Hc].
  assert (fields_of (s_classes s) i = c_fields c) as Ef by (unfold fields_of; by rewrite Hc). rewrite Ef.
  destruct (decide (i < 2)) as [Hlt|Hge].
  { destruct (test_class _ _ _ _ _ H Hc Hlt) as (-> & _). split; [constructor|]. split; [apply not_elem_of_nil|]. intros k Hk. by apply elem_of_nil in Hk. }
  destruct (plain_class _ _ _ _ _ Hp H Hc ltac:(lia)) as ((b & Eb) & Hn & Hns).
  destruct (one_base _ _ _ _ _ _ H Hc ltac:(lia) Eb) as (Hb & Efb & Hattr).
  destruct (define_class _ _ _ _ _ H Hc ltac:(lia)) as (_ & _ & _ & _ & _ & Hm).
  destruct (made_fields _ _ _ Hm Eb Hn) as (own & Eo & Hs & Ho & Ha). rewrite Efb in Eo.
  destruct (IH b Hb ltac:(lia)) as (I1 & I2 & I3). rewrite Eo. split; [|split].
  - apply NoDup_app. split; [by apply NoDup_filter|]. split; [|by eapply sorted_nodup; [apply before_irrefl|]].
    intros k [Hk _]%elem_of_list_filter Hk'. apply Ho in Hk' as (x & H1 & H2 & H3).
    assert (c_attrs c !! k = Some (attr_for x)) as E by (apply Ha; eauto). congruence.
  - intros [[_ Hk]%elem_of_list_filter|Hk]%elem_of_app; [done|]. apply Ho in Hk as (x & (l1 & l2 & E & _) & _ & H3).
    rewrite (Hns x) in H3; [done|]. rewrite E. apply elem_of_app. right. by left.
  - intros k Hk. rewrite Hattr. apply elem_of_app in Hk as [Hk|Hk].
    + apply elem_of_list_filter in Hk as [Hk1 Hk2]. rewrite Hk1. by apply I3.
    + apply Ho in Hk as (x & H1 & H2 & H3). rewrite (proj2 (Ha k (attr_for x))) by eauto. exists (attr_for x). split; [done|]. by destruct x.
Qed.

(** ** Descriptors *)

Definition base_name (k : string) (x : desc) : string :=
  match d_name x with Some n => n | None => match d_kind x with KStruct _ => "struct " +:+ k | _ => k end end.
Lemma contribute_heap k b names attrs h names' attrs' h' : contribute k b (names, attrs, h) = Some (names', attrs', h') ->
  (forall d, b <> BDesc d -> h' !! d = h !! d) /\
  (forall d, b = BDesc d -> exists x, h !! d = Some x /\ h' !! d = Some (Desc (d_kind x) k (Some (base_name k x)) (d_test x) (d_stdin x) (d_stdout x))).
Proof.
  destruct b as [d|m|v]; cbn.
  - destruct (h !! d) as [x|] eqn:E; [|done].
    assert (forall n, d_name x = Some n -> base_name k x = n) as B1 by (intros n Hn; unfold base_name; by rewrite Hn).
    intros H. split.
    + intros d' Hd. assert (d <> d') by congruence. destruct (d_kind x); try done; injection H as <- <- <-; by rewrite lookup_insert_ne.
    + intros d' [= <-]. exists x. split; [done|]. unfold base_name. destruct x as [kx key nm te si so]. cbn in *.
      destruct kx; try done; injection H as <- <- <-; rewrite lookup_insert; by destruct nm.
  - intros [= <- <- <-]. done.
  - intros [= <- <- <-]. done.
Qed.
Lemma add_all_heap t ks : forall acc names' attrs' h', add_all t ks acc = Some (names', attrs', h') -> NoDup ks ->
  (forall d, (forall k, k ∈ ks -> t_vals t !! k <> Some (BDesc d)) -> h' !! d = snd acc !! d) /\
  (forall d k, k ∈ ks -> t_vals t !! k = Some (BDesc d) -> (forall k', k' ∈ ks -> t_vals t !! k' = Some (BDesc d) -> k' = k) ->
    exists x, snd acc !! d = Some x /\ h' !! d = Some (Desc (d_kind x) k (Some (base_name k x)) (d_test x) (d_stdin x) (d_stdout x))).
Proof.
  induction ks as [|k ks IH]; intros [[names attrs] h] names' attrs' h' H Hn; cbn [add_all] in H.
  - injection H as <- <- <-. split; [done|]. intros d k Hk. by apply elem_of_nil in Hk.
  - apply NoDup_cons in Hn as [Hk Hn]. destruct (t_vals t !! k) as [b|] eqn:Ek.
    + destruct (contribute k b _) as [[[n1 a1] h1]|] eqn:Ec; [|done]. apply contribute_heap in Ec as [C1 C2].
      destruct (IH _ _ _ _ H Hn) as [I1 I2]. cbn [snd] in *. split.
      * intros d Hd. rewrite I1 by (intros k' Hk'; apply Hd; by right). apply C1. intros ->. by apply (Hd k); [left|].
      * intros d k' Hk' Ed Hu. apply elem_of_cons in Hk' as [->|Hk'].
        -- rewrite Ek in Ed. injection Ed as ->. destruct (C2 d eq_refl) as (x & Hx & Hx'). exists x. split; [done|]. rewrite I1; [done|].
           intros k' Hk' E. rewrite (Hu k') in Hk'; [done|by right|done].
        -- destruct (I2 d k' Hk' Ed) as (x & Hx & Hx').
           { intros k'' Hk'' E. apply Hu; [by right|done]. }
           exists x. split; [|done]. rewrite <- Hx. symmetry. apply C1. intros ->. apply Hk. by rewrite (Hu k); [|left|].
    + destruct (IH _ _ _ _ H Hn) as [I1 I2]. split.
      * intros d Hd. apply I1. intros k' Hk'. apply Hd. by right.
      * intros d k' Hk' Ed Hu. apply elem_of_cons in Hk' as [->|Hk']; [congruence|]. apply I2; [done|done|].
        intros k'' Hk'' E. apply Hu; [by right|done].
Qed.
Definition is_macro (x : desc) : bool := match d_kind x with KMacro => true | _ => false end.
Lemma prepend_heap ns fs : forall h h', prepend ns fs h = Some h' ->
  (forall d, APropDesc d ∉ fs.*2 -> h' !! d = h !! d) /\
  (forall d, NoDup fs.*2 -> APropDesc d ∈ fs.*2 -> exists x, h !! d = Some x /\
    (is_macro x = true /\ h' !! d = Some x \/ is_macro x = false /\ exists n, d_name x = Some n /\ h' !! d = Some (set_name x (ns +:+ "::" +:+ n)))).
Proof.
  induction fs as [|[k a] fs IH]; intros h h' H; cbn [prepend] in H.
  - injection H as <-. split; [done|]. intros d _ Hd. by apply elem_of_nil in Hd.
  - destruct a as [d0|m|v]; [|done|done]. destruct (h !! d0) as [x0|] eqn:E0; [|done].
    assert ((is_macro x0 = true /\ prepend ns fs h = Some h') \/
      (is_macro x0 = false /\ exists n, d_name x0 = Some n /\ prepend ns fs (<[d0 := set_name x0 (ns +:+ "::" +:+ n)]> h) = Some h')) as Hc.
    { unfold is_macro. destruct (d_kind x0); try (by left); right; (split; [done|]); destruct (d_name x0) as [n|]; try done; by exists n. }
    clear H. cbn [fmap list_fmap snd]. destruct Hc as [[Em H]|[Em (n & En & H)]]; destruct (IH _ _ H) as [I1 I2]; (split; [intros d Hd; apply not_elem_of_cons in Hd as [Hne Hd]|intros d Hn Hd; apply NoDup_cons in Hn as [Hni Hn]; apply elem_of_cons in Hd as [Hd|Hd]]).
    + by apply I1.
    + injection Hd as ->. exists x0. split; [done|]. left. split; [done|]. by rewrite I1.
    + by apply I2.
    + rewrite I1 by done. apply lookup_insert_ne. congruence.
    + injection Hd as ->. exists x0. split; [done|]. right. split; [done|]. exists n. split; [done|]. rewrite I1 by done. by rewrite lookup_insert.
    + destruct (I2 d Hn Hd) as (x & Hx & Hc). exists x. split; [|done]. rewrite <- Hx. symmetry. apply lookup_insert_ne. intros ->. done.
Qed.
Lemma fields_some cs i : cinv cs -> i < length cs -> exists fs, fields cs i = Some fs /\
  fs.*1 = fields_of cs i /\ forall k a, (k, a) ∈ fs -> class_attr cs i k = Some a.
Proof.
  intros Hc Hi. unfold fields. pose proof (listed_has cs Hc i) as Hl. unfold fields_of in *.
  destruct (lookup_lt_is_Some_2 _ _ Hi) as [c Ec]. rewrite Ec in *.
  assert (forall k, k ∈ c_fields c -> is_Some (class_attr cs i k)) as Hk by (intros k Hk; by apply Hl). clear Hl.
  induction (c_fields c) as [|k l IH]; cbn.
  - exists []. split; [done|]. split; [done|]. intros k a Hka. by apply elem_of_nil in Hka.
  - destruct (Hk k ltac:(by left)) as [a Ha]. rewrite Ha. cbn. destruct IH as (fs & E & E1 & E2).
    { intros k' Hk'. apply Hk. by right. }
    rewrite E. cbn. exists ((k, a) :: fs). split; [done|]. split; [cbn; by rewrite E1|].
    intros k' a' [Hka|Hka]%elem_of_cons; [by injection Hka as -> ->|by apply E2].
Qed.

Definition class_cxx (cs : list cls) (bases : list nat) : bool := existsb (fun b => match cs !! b with Some c => c_cxx c | None => false end) bases.
Lemma new_class_heap s name bases body s' : new_class s name bases body = Some s' -> no_del body ->
  exists t h1 acc, body_table (class_cxx (s_classes s) bases) body = Some t /\ add_all t (t_names t) acc = Some h1 /\ snd acc = s_heap s /\
    ((forall n, class_cxx (s_classes s) bases = false \/ ~ binds body "namespace" (BValue (PStr n))) /\ s_heap s' = snd h1 \/
     exists n fs, class_cxx (s_classes s) bases = true /\ binds body "namespace" (BValue (PStr n)) /\
       fields (s_classes s') (length (s_classes s)) = Some fs /\ prepend n fs (snd h1) = Some (s_heap s')).
Proof.
  unfold new_class, body_table. intros H Hn. destruct (forallb _ bases) eqn:Eb; [|done]. cbn [negb] in H.
  fold (class_cxx (s_classes s) bases) in H. set (cxx := class_cxx _ bases) in *.
  destruct (exec_body _ body) as [t0|] eqn:Ee; [|done]. pose proof (exec_vals _ _ _ Ee "namespace") as Hv. cbn in Hv. rewrite lookup_empty in Hv.
  assert (forall x, t_vals t0 !! "namespace" = Some x <-> binds body "namespace" x) as Hb.
  { intros x. rewrite Hv, (lastb_binds body Hn). naive_solver. }
  set (t := if cxx then _ else t0) in *. destruct (linearize _ _ bases) as [mro|] eqn:El; [|done].
  destruct (add_all t _ _) as [[[names attrs] h]|] eqn:Ea; [|done].
  exists t, (names, attrs, h). eexists. split; [done|]. split; [exact Ea|]. split; [done|]. cbn [snd].
  set (ns := if cxx then match t_vals t0 !! "namespace" with Some (BValue (PStr x)) => Some x | _ => None end else None) in *.
  destruct ns as [x|] eqn:En.
  - right. destruct (fields _ _) as [fs|] eqn:Ef; [|done]. destruct (prepend _ _ _) as [h'|] eqn:Ep; [|done]. injection H as <-.
    exists x, fs. subst ns. destruct cxx; [|done]. split; [done|]. destruct (t_vals t0 !! "namespace") as [[d|m|[|y|n]]|] eqn:Ev; try done. injection En as ->.
    split; [by apply Hb|done].
  - left. injection H as <-. split; [|done]. intros n. subst ns. destruct cxx; [|by left]. right. intros Hbn. apply Hb in Hbn. by rewrite Hbn in En.
Qed.
Lemma cxx_mro h p s : define (initial h) p = Some s -> forall i c, s_classes s !! i = Some c -> c_cxx c = true <-> cxx_test ∈ c_mro c.
Proof.
  intros H. pose proof (define_cinv _ _ _ (cinv_initial h) H) as Hci.
  intros i. induction i as [i IH] using lt_wf_ind. intros c Hc.
  destruct (decide (i < 2)) as [Hlt|Hge].
  { destruct (define_app _ _ _ H) as (l & El & _). rewrite El in Hc. destruct i as [|[|i]]; [| |lia]; cbn in Hc; injection Hc as <-; cbn.
    - split; [done|]. intros ?%elem_of_list_singleton. done.
    - split; [intros _; by left|done]. }
  assert (i < length (s_classes s)) as Hl by (by eapply lookup_lt_Some).
  destruct (define_class _ _ _ _ _ H Hc ltac:(lia)) as (_ & _ & _ & _ & _ & Hm). rewrite (m_cxx _ _ Hm).
  assert (forall b, b ∈ c_bases c -> b < i) as Hb.
  { intros b Hbb. pose proof (m_bases _ _ Hm b Hbb) as Hx. rewrite take_length in Hx. lia. }
  assert (bases_of (s_classes s) i = c_bases c) as Eb by (unfold bases_of; by rewrite Hc).
  assert (mro_of (s_classes s) i = c_mro c) as Em by (unfold mro_of; by rewrite Hc).
  rewrite existsb_exists. split.
  - intros (b & Hbb & Hx). apply elem_of_list_In in Hbb. rewrite take_lookup in Hx by (by apply Hb).
    destruct (s_classes s !! b) as [cb|] eqn:Ecb; [|done]. apply (IH b (Hb b Hbb) cb Ecb) in Hx.
    rewrite <- Em. eapply elem_of_submseteq; [|apply sublist_submseteq, (i_sub _ _ (Hci i Hl) b)]; [|by rewrite Eb].
    unfold mro_of. by rewrite Ecb.
  - intros Hx. destruct (i_head _ _ (Hci i Hl)) as (r & Er & Hj). rewrite <- Em, Er in Hx. apply elem_of_cons in Hx as [Hx|Hx]; [unfold cxx_test in Hx; lia|].
    destruct (Hj _ Hx) as [_ (b & Hbb & Hxb)]. rewrite Eb in Hbb. exists b. split; [by apply elem_of_list_In|]. rewrite take_lookup by (by apply Hb).
    unfold mro_of in Hxb. destruct (s_classes s !! b) as [cb|] eqn:Ecb; [|by apply elem_of_nil in Hxb]. by apply (IH b (Hb b Hbb) cb Ecb).
Qed.

(** ** Every field has a name *)
Definition named (h : gmap nat desc) (d : nat) : Prop := exists x n, h !! d = Some x /\ d_name x = Some n.
Lemma contribute_named k b names attrs h names' attrs' h' : contribute k b (names, attrs, h) = Some (names', attrs', h') ->
  (forall d, named h d -> named h' d) /\
  (forall k' d, attrs' !! k' = Some (APropDesc d) -> attrs !! k' = Some (APropDesc d) \/ named h' d).
Proof.
  intros H. destruct (contribute_heap _ _ _ _ _ _ _ _ H) as [C1 C2]. split.
  - intros d (x & n & Hx & Hn). destruct b as [d'|m|v].
    + destruct (decide (d = d')) as [<-|Hne].
      * destruct (C2 d eq_refl) as (y & _ & Hy). eexists _, _. split; [exact Hy|done].
      * exists x, n. split; [|done]. rewrite C1; [done|congruence].
    + exists x, n. by rewrite C1.
    + exists x, n. by rewrite C1.
  - intros k' d Ha. destruct b as [d'|m|v].
    + destruct (C2 d' eq_refl) as (y & Ey & Hy). cbn in H. rewrite Ey in H.
      assert (attrs' = <[k := APropDesc d']> attrs) as -> by (destruct (d_kind y); try done; by injection H).
      destruct (decide (k = k')) as [<-|Hne]; [rewrite lookup_insert in Ha; injection Ha as <-|rewrite lookup_insert_ne in Ha by done; by left].
      right. eexists _, _. split; [exact Hy|done].
    + cbn in H. injection H as _ <- _. left. destruct (decide (k = k')) as [<-|Hne]; [by rewrite lookup_insert in Ha|by rewrite lookup_insert_ne in Ha].
    + cbn in H. injection H as _ <- _. left. destruct (decide (k = k')) as [<-|Hne]; [by rewrite lookup_insert in Ha|by rewrite lookup_insert_ne in Ha].
Qed.
Lemma add_all_named t ks : forall names attrs h names' attrs' h', add_all t ks (names, attrs, h) = Some (names', attrs', h') ->
  (forall d, named h d -> named h' d) /\
  (forall k' d, attrs' !! k' = Some (APropDesc d) -> attrs !! k' = Some (APropDesc d) \/ named h' d).
Proof.
  induction ks as [|k ks IH]; intros names attrs h names' attrs' h' H; cbn [add_all] in H.
  - injection H as <- <- <-. split; [done|]. by left.
  - destruct (t_vals t !! k) as [b|]; [|by eapply IH]. destruct (contribute k b _) as [[[n1 a1] h1]|] eqn:Ec; [|done].
    destruct (contribute_named _ _ _ _ _ _ _ _ Ec) as [C1 C2]. destruct (IH _ _ _ _ _ _ H) as [I1 I2]. split; [eauto|].
    intros k' d Ha. destruct (I2 _ _ Ha) as [Ha'|]; [|by right]. destruct (C2 _ _ Ha') as [|Hn]; [by left|right; by apply I1].
Qed.
Lemma prepend_named ns fs : forall h h', prepend ns fs h = Some h' -> forall d, named h d -> named h' d.
Proof.
  induction fs as [|[k a] fs IH]; intros h h' H d Hd; cbn [prepend] in H; [by injection H as <-|].
  destruct a as [d0|m|v]; [|done|done]. destruct (h !! d0) as [x0|] eqn:E0; [|done].
  assert (prepend ns fs h = Some h' \/ exists n, prepend ns fs (<[d0 := set_name x0 n]> h) = Some h') as [H'|[n H']].
  { destruct (d_kind x0), (d_name x0); try done; eauto. }
  - by eapply IH.
  - eapply IH; [exact H'|]. destruct (decide (d = d0)) as [->|Hne]; [eexists _, _; split; [by rewrite lookup_insert|done]|].
    destruct Hd as (x & n' & Hx & Hn). exists x, n'. by rewrite lookup_insert_ne.
Qed.
Definition all_named (s : state) : Prop := forall i k d, attrs_of (s_classes s) i k = Some (APropDesc d) -> named (s_heap s) d.
Lemma new_class_named s name bases body s' : all_named s -> new_class s name bases body = Some s' -> all_named s'.
Proof.
  unfold new_class. intros Hs H. destruct (forallb _ bases); [|done]. cbn [negb] in H. destruct (exec_body _ body) as [t0|]; [|done].
  destruct (linearize _ _ bases) as [mro|]; [|done]. set (t := if existsb _ bases then _ else t0) in *.
  destruct (add_all t _ _) as [[[names attrs] h]|] eqn:Ea; [|done].
  destruct (add_all_named _ _ _ _ _ _ _ _ Ea) as [A1 A2].
  set (cs' := s_classes s ++ [_]) in *.
  assert (forall i k d, attrs_of cs' i k = Some (APropDesc d) -> named h d) as Hn.
  { intros i k d Hi. unfold attrs_of in Hi. destruct (cs' !! i) as [c|] eqn:Ec; [|done]. unfold cs' in Ec. apply lookup_app_Some in Ec as [Ec|[_ Ec]].
    - apply A1, (Hs i k). unfold attrs_of. by rewrite Ec.
    - apply list_lookup_singleton_Some in Ec as [_ <-]. cbn in Hi. destruct (A2 _ _ Hi) as [Hx|]; [by rewrite lookup_empty in Hx|done]. }
  destruct (if existsb _ bases then _ else None) as [x|]; [|by injection H as <-].
  destruct (fields cs' _) as [fs|]; [|done]. destruct (prepend x fs h) as [h'|] eqn:Ep; [|done]. injection H as <-.
  intros i k d Hi. eapply prepend_named; [exact Ep|]. by apply (Hn i k).
Qed.
Lemma define_named h p s : define (initial h) p = Some s -> all_named s.
Proof.
  assert (forall p s s', all_named s -> define s p = Some s' -> all_named s') as Hg.
  { clear. induction p as [|c p IH]; intros s s' Hs H; cbn in H; [by injection H as <-|]. destruct (new_class s _ _ _) as [s1|] eqn:E; [|done].
    eapply IH; [|exact H]. by eapply new_class_named. }
  apply Hg. intros [|[|i]] k d; unfold attrs_of; cbn; by rewrite ?lookup_empty.
Qed.
