(** Facts about [ConfModel]: the order of base classes and the lists of fields. *)
From stdpp Require Import base list strings gmap.
From Coq Require Import Lia.
From Verif Require Import ConfModel.

(** ** The order of base classes *)

Lemma forallb_nil_all {A} (ls : list (list A)) : forallb is_nil ls = true -> forall l, l ∈ ls -> l = [].
Proof.
  induction ls as [|x ls IH]; intros H l Hl; [by apply elem_of_nil in Hl|]. cbn in H. apply andb_true_iff in H as [H1 H2].
  apply elem_of_cons in Hl as [->|Hl]; [by destruct x|by apply IH].
Qed.
Lemma pick_head all ls c : pick all ls = Some c -> existsb (in_tail c) all = false /\ exists t, c :: t ∈ ls.
Proof.
  induction ls as [|l ls IH]; cbn; [done|]. destruct l as [|x t].
  - intros H. destruct (IH H) as [H1 (t & H2)]. split; [done|]. exists t. by right.
  - destruct (existsb (in_tail x) all) eqn:E.
    + intros H. destruct (IH H) as [H1 (t' & H2)]. split; [done|]. exists t'. by right.
    + intros [= ->]. split; [done|]. exists t. by left.
Qed.
Lemma merge_unfold n ls : merge n ls =
  if forallb is_nil ls then Some []
  else match n with
       | O => None
       | S n => match pick ls ls with
                | None => None
                | Some c => match merge n (map (drop_head c) ls) with Some r => Some (c :: r) | None => None end
                end
       end.
Proof. by destruct n. Qed.
Lemma merge_sublist n : forall ls r, merge n ls = Some r -> forall l, l ∈ ls -> sublist l r.
Proof.
  induction n as [|n IH]; intros ls r; rewrite merge_unfold; destruct (forallb is_nil ls) eqn:E.
  - intros [= <-] l Hl. rewrite (forallb_nil_all _ E l Hl). constructor.
  - done.
  - intros [= <-] l Hl. rewrite (forallb_nil_all _ E l Hl). constructor.
  - destruct (pick ls ls) as [c|]; [|done]. destruct (merge n _) as [r'|] eqn:Er; [|done]. intros [= <-] l Hl.
    assert (sublist (drop_head c l) r') as Hs by (apply (IH _ _ Er), elem_of_list_fmap; eauto).
    destruct l as [|x t]; [apply sublist_nil_l|]. cbn in Hs. destruct (decide (x = c)) as [->|Hne]; by constructor.
Qed.
Lemma merge_elem n : forall ls r, merge n ls = Some r -> forall x, x ∈ r -> exists l, l ∈ ls /\ x ∈ l.
Proof.
  induction n as [|n IH]; intros ls r; rewrite merge_unfold; destruct (forallb is_nil ls) eqn:E.
  1, 3: intros [= <-] x Hx; by apply elem_of_nil in Hx.
  { done. }
  destruct (pick ls ls) as [c|] eqn:Ep; [|done]. destruct (merge n _) as [r'|] eqn:Er; [|done]. intros [= <-] x Hx.
  apply elem_of_cons in Hx as [->|Hx].
  - apply pick_head in Ep as [_ (t & Ht)]. exists (c :: t). split; [done|by left].
  - destruct (IH _ _ Er x Hx) as (l & Hl & Hxl). apply elem_of_list_fmap in Hl as (l0 & -> & Hl0). exists l0. split; [done|].
    destruct l0 as [|y t]; [done|]. cbn in Hxl. destruct (decide (y = c)); [by right|done].
Qed.
Lemma merge_nodup n : forall ls r, merge n ls = Some r -> NoDup r.
Proof.
  induction n as [|n IH]; intros ls r; rewrite merge_unfold; destruct (forallb is_nil ls) eqn:E.
  1, 3: intros [= <-]; constructor.
  { done. }
  destruct (pick ls ls) as [c|] eqn:Ep; [|done]. destruct (merge n _) as [r'|] eqn:Er; [|done]. intros [= <-].
  constructor; [|by apply (IH _ _ Er)]. intros Hc. destruct (merge_elem _ _ _ Er c Hc) as (l & Hl & Hcl).
  apply elem_of_list_fmap in Hl as (l0 & -> & Hl0). apply pick_head in Ep as [Hp _].
  assert (in_tail c l0 = true) as Ht.
  { destruct l0 as [|y t]; [by apply elem_of_nil in Hcl|]. cbn in Hcl |- *. apply bool_decide_eq_true.
    destruct (decide (y = c)); [done|]. apply elem_of_cons in Hcl as [->|?]; done. }
  assert (existsb (in_tail c) ls = true) as Hx; [|congruence].
  apply existsb_exists. exists l0. split; [by apply elem_of_list_In|done].
Qed.
(** One base class. *)
Lemma merge_one l b : NoDup (b :: l) -> forall n, length (b :: l) <= n -> merge (S n) [b :: l; [b]] = Some (b :: l).
Proof.
  intros Hn n Hlen. rewrite merge_unfold. cbn [forallb is_nil andb pick existsb in_tail].
  rewrite bool_decide_eq_false_2 by (by apply NoDup_cons in Hn as [? _]). cbn.
  assert (forall n l, NoDup l -> length l <= n -> merge n [l; []] = Some l) as Hm.
  { clear. induction n as [|n IH]; intros l Hn Hl; rewrite merge_unfold; destruct l as [|x l]; cbn in Hl; [done|lia|done|].
    cbn. apply NoDup_cons in Hn as [Hx Hn]. rewrite bool_decide_eq_false_2 by done. cbn. destruct (decide (x = x)) as [_|]; [|done].
    rewrite IH; [done|done|lia]. }
  apply NoDup_cons in Hn as [_ Hn]. cbn in Hlen. rewrite (bool_decide_eq_false_2 (b ∈ [])) by apply not_elem_of_nil. cbn.
  destruct (decide (b = b)) as [_|]; [|done]. rewrite (Hm n l); [done|done|lia].
Qed.

(** ** Bodies *)

Lemma table_set_names t k v x : is_Some (t_vals t !! x) -> x ∈ t_names t ->
  x ∈ t_names (table_set t k v).
Proof. intros _ H. cbn. destruct (decide _); [done|]. apply elem_of_app. by left. Qed.
Lemma exec_names b : forall t t', exec_body t b = Some t' ->
  (forall x, is_Some (t_vals t !! x) -> x ∈ t_names t) -> forall x, is_Some (t_vals t' !! x) -> x ∈ t_names t'.
Proof.
  induction b as [|[k v|k] b IH]; intros t t' H Ht; cbn in H; [by injection H as <-| |].
  - apply (IH _ _ H). intros x Hx. cbn in Hx |- *. destruct (decide (is_Some (t_vals t !! k))) as [Hk|Hk].
    + destruct (decide (x = k)) as [->|Hne]; [by apply Ht|]. rewrite lookup_insert_ne in Hx by done. by apply Ht.
    + apply elem_of_app. destruct (decide (x = k)) as [->|Hne]; [right; by apply elem_of_list_singleton|].
      left. rewrite lookup_insert_ne in Hx by done. by apply Ht.
  - destruct (t_vals t !! k) as [w|] eqn:E; [|done]. apply (IH _ _ H). intros x Hx. cbn in Hx |- *.
    destruct (decide (x = k)) as [->|Hne]; [by rewrite lookup_delete in Hx; destruct Hx|].
    rewrite lookup_delete_ne in Hx by done. by apply Ht.
Qed.

(** ** What the fields are added to *)

Definition attr_for (b : binding) : attr := match b with BDesc d => APropDesc d | BMethod m => APropMethod m | BValue v => AVal v end.
Definition prop_key (t : table) (k : string) : bool := match t_vals t !! k with Some b => is_prop (attr_for b) | None => false end.
Lemma contribute_inv k b names attrs h names' attrs' h' : contribute k b (names, attrs, h) = Some (names', attrs', h') ->
  names' = names ++ (if is_prop (attr_for b) then [k] else []) /\ attrs' = <[k := attr_for b]> attrs.
Proof.
  destruct b as [d|m|v]; cbn.
  - destruct (h !! d) as [x|]; [|done]. destruct (d_kind x); intros [= <- <- <-]; done.
  - by intros [= <- <- <-].
  - intros [= <- <- <-]. by rewrite app_nil_r.
Qed.
Lemma add_all_inv t ks : forall names attrs h names' attrs' h', add_all t ks (names, attrs, h) = Some (names', attrs', h') ->
  names' = names ++ filter (fun k => prop_key t k = true) ks /\
  forall k, attrs' !! k = match t_vals t !! k with Some b => if decide (k ∈ ks) then Some (attr_for b) else attrs !! k | None => attrs !! k end.
Proof.
  induction ks as [|k ks IH]; intros names attrs h names' attrs' h' H; cbn [add_all] in H.
  - injection H as <- <- <-. rewrite app_nil_r. split; [done|]. intros k. destruct (t_vals t !! k) as [b|]; [|done]. by rewrite decide_False by apply not_elem_of_nil.
  - destruct (t_vals t !! k) as [b|] eqn:Ek.
    + destruct (contribute k b _) as [[[n1 a1] h1]|] eqn:Ec; [|done]. apply contribute_inv in Ec as [-> ->].
      apply IH in H as [-> Ha]. split.
      * rewrite <- app_assoc. f_equal. rewrite filter_cons. assert (prop_key t k = is_prop (attr_for b)) as Ep by (unfold prop_key; by rewrite Ek).
        destruct (decide (prop_key t k = true)) as [Hk|Hk]; rewrite Ep in Hk; destruct (is_prop (attr_for b)); done.
      * intros x. rewrite Ha. destruct (decide (x = k)) as [->|Hne].
        -- rewrite Ek, lookup_insert. rewrite (decide_True (P := k ∈ k :: ks)) by (by left). by destruct (decide (k ∈ ks)).
        -- rewrite lookup_insert_ne by done. destruct (t_vals t !! x) as [w|]; [|done].
           destruct (decide (x ∈ ks)) as [Hx|Hx]; [by rewrite decide_True by (by right)|].
           rewrite decide_False; [done|]. intros [?|?]%elem_of_cons; done.
    + apply IH in H as [-> Ha]. split.
      * f_equal. rewrite filter_cons. rewrite decide_False; [done|]. unfold prop_key. by rewrite Ek.
      * intros x. rewrite Ha. destruct (t_vals t !! x) as [w|] eqn:Ex; [|done].
        assert (x <> k) as Hne by (intros ->; congruence).
        destruct (decide (x ∈ ks)) as [Hx|Hx]; [by rewrite decide_True by (by right)|].
        rewrite decide_False; [done|]. intros [?|?]%elem_of_cons; done.
Qed.

(** ** Class statements *)

Definition body_table (cxx : bool) (body : list stmt) : option table :=
  match exec_body (Table ∅ []) body with
  | Some t => Some (if cxx then Table (delete "namespace" (t_vals t)) (t_names t) else t)
  | None => None
  end.
Definition own_attrs (t : table) : string -> option attr := fun k => attr_for <$> t_vals t !! k.
Record made (cs : list cls) (c : cls) : Prop := {
  m_bases : forall b, b ∈ c_bases c -> b < length cs;
  m_mro : linearize cs (length cs) (c_bases c) = Some (c_mro c);
  m_cxx : c_cxx c = existsb (fun b => match cs !! b with Some c => c_cxx c | None => false end) (c_bases c);
  m_table : exists t, body_table (c_cxx c) (c_body c) = Some t /\
    (forall k, c_attrs c !! k = own_attrs t k) /\
    c_fields c = inherited cs t (c_bases c) ++ filter (fun k => prop_key t k = true) (t_names t)
}.
Lemma body_names cxx body t : body_table cxx body = Some t -> forall k, is_Some (t_vals t !! k) -> k ∈ t_names t.
Proof.
  unfold body_table. destruct (exec_body _ body) as [t0|] eqn:E; [|done]. intros [= <-] k Hk.
  pose proof (exec_names _ _ _ E ltac:(intros x [y Hy]; cbn in Hy; by rewrite lookup_empty in Hy)) as Hn.
  destruct cxx; [|by apply Hn]. cbn in Hk |- *. destruct (decide (k = "namespace")) as [->|Hne].
  - rewrite lookup_delete in Hk. by destruct Hk.
  - rewrite lookup_delete_ne in Hk by done. by apply Hn.
Qed.
Lemma new_class_made s name bases body s' : new_class s name bases body = Some s' ->
  exists c, s_classes s' = s_classes s ++ [c] /\ made (s_classes s) c /\ c_name c = name /\ c_bases c = bases /\ c_body c = body.
Proof.
  unfold new_class. destruct (forallb _ bases) eqn:Eb; [|done]. cbn [negb].
  set (cxx := existsb _ bases). destruct (exec_body _ body) as [t0|] eqn:Ee; [|done].
  set (t := if cxx then _ else t0). destruct (linearize _ _ bases) as [mro|] eqn:El; [|done].
  destruct (add_all t _ _) as [[[names attrs] h]|] eqn:Ea; [|done]. intros H.
  exists (Cls name bases mro attrs names cxx body). split; [|split; [|done]].
  - destruct (if cxx then _ else None) as [ns|].
    + destruct (fields _ _) as [fs|]; [|done]. destruct (prepend _ _ _) as [h'|]; [|done]. by injection H as <-.
    + by injection H as <-.
  - assert (body_table cxx body = Some t) as Ht by (unfold body_table; by rewrite Ee).
    split; cbn; [|done|done|].
    + intros b Hb. rewrite forallb_forall in Eb. specialize (Eb b (proj1 (elem_of_list_In _ _) Hb)). by apply Nat.ltb_lt in Eb.
    + exists t. split; [done|]. apply add_all_inv in Ea as [-> Ha]. split; [|done].
      intros k. rewrite Ha. unfold own_attrs. destruct (t_vals t !! k) as [b|] eqn:Ek; [|done].
      rewrite decide_True; [done|]. apply (body_names _ _ _ Ht). by eauto.
Qed.

(** ** The invariant *)

Definition fields_of (cs : list cls) (i : nat) : list string := match cs !! i with Some c => c_fields c | None => [] end.
Definition attrs_of (cs : list cls) (i : nat) (k : string) : option attr := match cs !! i with Some c => c_attrs c !! k | None => None end.
Definition bases_of (cs : list cls) (i : nat) : list nat := match cs !! i with Some c => c_bases c | None => [] end.
Record cinv1 (cs : list cls) (i : nat) : Prop := {
  i_head : exists r, mro_of cs i = i :: r /\ forall j, j ∈ r -> j < i /\ exists b, b ∈ bases_of cs i /\ j ∈ mro_of cs b;
  i_nodup : NoDup (mro_of cs i);
  i_bases : forall b, b ∈ bases_of cs i -> b < i;
  i_sub : forall b, b ∈ bases_of cs i -> sublist (mro_of cs b) (mro_of cs i);
  i_own : forall k a, attrs_of cs i k = Some a -> is_prop a = true -> k ∈ fields_of cs i;
  i_list : forall k, k ∈ fields_of cs i -> (exists a, attrs_of cs i k = Some a /\ is_prop a = true) \/
    attrs_of cs i k = None /\ exists b, b ∈ bases_of cs i /\ k ∈ fields_of cs b;
  i_keep : forall k b, attrs_of cs i k = None -> b ∈ bases_of cs i -> k ∈ fields_of cs b -> k ∈ fields_of cs i
}.
Definition cinv (cs : list cls) : Prop := forall i, i < length cs -> cinv1 cs i.

Lemma old_lookup (cs : list cls) (c : cls) i : i < length cs -> (cs ++ [c]) !! i = cs !! i.
Proof. intros H. by apply lookup_app_l. Qed.
Lemma new_lookup (cs : list cls) (c : cls) : (cs ++ [c]) !! length cs = Some c.
Proof. rewrite lookup_app_r by done. by rewrite Nat.sub_diag. Qed.
Lemma old_mro cs c i : i < length cs -> mro_of (cs ++ [c]) i = mro_of cs i.
Proof. intros H. unfold mro_of. by rewrite old_lookup. Qed.
Lemma old_fields cs c i : i < length cs -> fields_of (cs ++ [c]) i = fields_of cs i.
Proof. intros H. unfold fields_of. by rewrite old_lookup. Qed.
Lemma old_attrs cs c i k : i < length cs -> attrs_of (cs ++ [c]) i k = attrs_of cs i k.
Proof. intros H. unfold attrs_of. by rewrite old_lookup. Qed.
Lemma old_bases cs c i : i < length cs -> bases_of (cs ++ [c]) i = bases_of cs i.
Proof. intros H. unfold bases_of. by rewrite old_lookup. Qed.
Lemma inherited_elem cs t bases k : k ∈ inherited cs t bases <-> t_vals t !! k = None /\ exists b, b ∈ bases /\ k ∈ fields_of cs b.
Proof.
  unfold inherited. rewrite elem_of_list_In, in_flat_map. unfold fields_of. split.
  - intros (b & Hb & Hk). destruct (cs !! b) as [c|] eqn:E; [|by destruct Hk].
    apply elem_of_list_In, elem_of_list_filter in Hk as [H1 H2]. split; [done|]. exists b. split; [by apply elem_of_list_In|]. by rewrite E.
  - intros (H & b & Hb & Hk). exists b. split; [by apply elem_of_list_In|]. destruct (cs !! b) as [c|]; [|by apply elem_of_nil in Hk].
    apply elem_of_list_In, elem_of_list_filter. done.
Qed.

Lemma mro_below cs i j : cinv cs -> i < length cs -> j ∈ mro_of cs i -> j <= i.
Proof.
  intros Hc Hi Hj. destruct (i_head _ _ (Hc i Hi)) as (r & Hr & Hlt). rewrite Hr in Hj.
  apply elem_of_cons in Hj as [->|Hj]; [done|]. destruct (Hlt j Hj) as [? _]. lia.
Qed.
Lemma cinv_made cs c : cinv cs -> made cs c -> cinv (cs ++ [c]).
Proof.
  intros Hc [Hb Hm Hx (t & Ht & Ha & Hf)] i Hi. rewrite app_length in Hi. cbn in Hi.
  assert (forall j, j < length cs -> forall b, b ∈ bases_of cs j -> b < length cs) as Hbl.
  { intros j Hj b Hbj. pose proof (i_bases _ _ (Hc j Hj) b Hbj). lia. }
  destruct (decide (i < length cs)) as [Hlt|Hge].
  - destruct (Hc i Hlt) as [I1 I2 I3 I4 I5 I6 I7]. split; rewrite ?old_mro, ?old_bases, ?old_fields by done.
    + destruct I1 as (r & Hr & Hj). exists r. split; [done|]. intros j Hjr. destruct (Hj j Hjr) as [H1 (b & H2 & H3)].
      split; [done|]. exists b. split; [done|]. by rewrite old_mro by (by eapply Hbl).
    + done.
    + done.
    + intros b Hbi. rewrite old_mro by (by eapply Hbl). by apply I4.
    + intros k a. rewrite old_attrs by done. apply I5.
    + intros k Hk. rewrite old_attrs by done. destruct (I6 k Hk) as [?|[H1 (b & H2 & H3)]]; [by left|right]. split; [done|].
      exists b. split; [done|]. by rewrite old_fields by (by eapply Hbl).
    + intros k b. rewrite old_attrs by done. intros H1 H2. rewrite old_fields by (by eapply Hbl). by apply I7.
  - assert (i = length cs) as -> by lia.
    assert (bases_of (cs ++ [c]) (length cs) = c_bases c) as Eb by (unfold bases_of; by rewrite new_lookup).
    assert (mro_of (cs ++ [c]) (length cs) = c_mro c) as Em by (unfold mro_of; by rewrite new_lookup).
    assert (fields_of (cs ++ [c]) (length cs) = c_fields c) as Ef by (unfold fields_of; by rewrite new_lookup).
    assert (forall k, attrs_of (cs ++ [c]) (length cs) k = own_attrs t k) as Ea by (intros k; unfold attrs_of; by rewrite new_lookup).
    unfold linearize in Hm. destruct (merge _ _) as [r|] eqn:Er; [|done]. injection Hm as Hm.
    assert (forall j, j ∈ r -> j < length cs /\ exists b, b ∈ c_bases c /\ j ∈ mro_of cs b) as Hr.
    { intros j Hj. destruct (merge_elem _ _ _ Er j Hj) as (l & Hl & Hjl). apply elem_of_app in Hl as [Hl|Hl].
      - apply elem_of_list_fmap in Hl as (b & -> & Hbb). pose proof (mro_below cs b j Hc (Hb b Hbb) Hjl). specialize (Hb b Hbb).
        split; [lia|eauto].
      - apply elem_of_list_singleton in Hl as ->. split; [by apply Hb|]. exists j. split; [done|].
        destruct (i_head _ _ (Hc j (Hb j Hjl))) as (r' & -> & _). by left. }
    split; rewrite ?Eb, ?Em, ?Ef.
    + exists r. rewrite <- Hm. split; [done|]. intros j Hj. destruct (Hr j Hj) as [H1 (b & H2 & H3)]. split; [done|].
      exists b. split; [done|]. by rewrite old_mro by (by apply Hb).
    + rewrite <- Hm. constructor; [|by eapply merge_nodup]. intros Hj. destruct (Hr _ Hj). lia.
    + done.
    + intros b Hbb. rewrite old_mro by (by apply Hb). rewrite <- Hm. constructor. apply (merge_sublist _ _ _ Er).
      apply elem_of_app. left. apply elem_of_list_fmap. eauto.
    + intros k a. rewrite Ea, Hf. unfold own_attrs. intros Hk Hp. apply elem_of_app. right. apply elem_of_list_filter.
      destruct (t_vals t !! k) as [b|] eqn:Ek; [|done]. injection Hk as <-. split; [unfold prop_key; by rewrite Ek|].
      apply (body_names _ _ _ Ht). eauto.
    + intros k. rewrite Ea, Hf. intros [Hk|Hk]%elem_of_app.
      * apply inherited_elem in Hk as [Hk (b & H1 & H2)]. right. unfold own_attrs. rewrite Hk. split; [done|]. exists b.
        split; [done|]. by rewrite old_fields by (by apply Hb).
      * left. apply elem_of_list_filter in Hk as [Hk _]. unfold prop_key, own_attrs in *. destruct (t_vals t !! k) as [b|]; [|done]. eauto.
    + intros k b. rewrite Ea, Hf. intros Hk Hbb. rewrite old_fields by (by apply Hb). intros Hkf. apply elem_of_app. left.
      apply inherited_elem. unfold own_attrs in Hk. destruct (t_vals t !! k); [done|]. eauto.
Qed.
Lemma cinv_initial h : cinv (s_classes (initial h)).
Proof.
  intros [|[|i]] Hi; [| |cbn in Hi; lia].
  - split; cbn.
    + exists []. split; [done|]. intros j Hj. by apply elem_of_nil in Hj.
    + repeat constructor. apply not_elem_of_nil.
    + intros b Hb. by apply elem_of_nil in Hb.
    + intros b Hb. by apply elem_of_nil in Hb.
    + intros k a Ha. unfold attrs_of in Ha. cbn in Ha. by rewrite lookup_empty in Ha.
    + intros k Hk. by apply elem_of_nil in Hk.
    + intros k b _ Hb. by apply elem_of_nil in Hb.
  - split; cbn.
    + exists [0]. split; [done|]. intros j Hj%elem_of_list_singleton. subst j. split; [lia|]. exists 0. split; by left.
    + repeat constructor; [intros H%elem_of_list_singleton; done|apply not_elem_of_nil].
    + intros b Hb%elem_of_list_singleton. subst b. lia.
    + intros b Hb%elem_of_list_singleton. subst b. by repeat constructor.
    + intros k a Ha. unfold attrs_of in Ha. cbn in Ha. by rewrite lookup_empty in Ha.
    + intros k Hk. by apply elem_of_nil in Hk.
    + intros k b _ Hb%elem_of_list_singleton. by subst b.
Qed.
Lemma define_cinv p : forall s s', cinv (s_classes s) -> define s p = Some s' -> cinv (s_classes s').
Proof.
  induction p as [|c p IH]; intros s s' Hc H; cbn in H; [by injection H as <-|].
  destruct (new_class s _ _ _) as [s1|] eqn:E; [|done]. apply (IH _ _) in H; [done|].
  apply new_class_made in E as (k & -> & Hm & _). by apply cinv_made.
Qed.

(** ** Looking up attributes *)

Lemma search_some cs l k a : search cs l k = Some a -> exists l1 j l2, l = l1 ++ j :: l2 /\ attrs_of cs j k = Some a /\ forall x, x ∈ l1 -> attrs_of cs x k = None.
Proof.
  induction l as [|i l IH]; cbn; [done|]. unfold attrs_of. intros H.
  destruct (cs !! i) as [c|] eqn:E; [destruct (c_attrs c !! k) as [b|] eqn:Ek|].
  - injection H as <-. exists [], i, l. rewrite E. split; [done|]. split; [done|]. intros x Hx. by apply elem_of_nil in Hx.
  - destruct (IH H) as (l1 & j & l2 & -> & H1 & H2). exists (i :: l1), j, l2. split; [done|]. split; [done|].
    intros x [->|Hx]%elem_of_cons; [by rewrite E|by apply H2].
  - destruct (IH H) as (l1 & j & l2 & -> & H1 & H2). exists (i :: l1), j, l2. split; [done|]. split; [done|].
    intros x [->|Hx]%elem_of_cons; [by rewrite E|by apply H2].
Qed.
Lemma search_first cs l1 j l2 k a : attrs_of cs j k = Some a -> (forall x, x ∈ l1 -> attrs_of cs x k = None) -> search cs (l1 ++ j :: l2) k = Some a.
Proof.
  intros Ha. induction l1 as [|i l1 IH]; intros H; cbn.
  - unfold attrs_of in Ha. destruct (cs !! j) as [c|]; [|done]. by rewrite Ha.
  - pose proof (H i ltac:(by left)) as Hi. unfold attrs_of in Hi. rewrite IH by (intros x Hx; apply H; by right).
    destruct (cs !! i) as [c|]; [|done]. by rewrite Hi.
Qed.
Lemma search_is_some cs l k : (exists j, j ∈ l /\ is_Some (attrs_of cs j k)) -> is_Some (search cs l k).
Proof.
  intros (j & Hj & Ha). induction l as [|i l IH]; [by apply elem_of_nil in Hj|]. cbn. unfold attrs_of in *.
  destruct (cs !! i) as [c|] eqn:E.
  - destruct (c_attrs c !! k) eqn:Ek; [by eauto|]. apply elem_of_cons in Hj as [->|Hj]; [rewrite E, Ek in Ha; by destruct Ha|by apply IH].
  - apply elem_of_cons in Hj as [->|Hj]; [rewrite E in Ha; by destruct Ha|by apply IH].
Qed.
(** In a part of a list without doubles the same class comes first. *)
Lemma sublist_first (l1 l2 l : list nat) j : sublist l (l1 ++ j :: l2) -> NoDup (l1 ++ j :: l2) -> j ∈ l ->
  exists m1 m2, l = m1 ++ j :: m2 /\ forall x, x ∈ m1 -> x ∈ l1.
Proof.
  intros Hs Hn Hj. apply sublist_app_r in Hs as (k1 & k2 & -> & H1 & H2).
  apply NoDup_app in Hn as (_ & Hd & Hn).
  assert (j ∈ k2) as Hk.
  { apply elem_of_app in Hj as [Hj|Hj]; [|done]. exfalso. apply (Hd j); [|by left]. by eapply elem_of_submseteq; [|apply sublist_submseteq]. }
  apply sublist_cons_r in H2 as [H2|(k2' & -> & H2)].
  - exfalso. apply NoDup_cons in Hn as [Hn _]. apply Hn. by eapply elem_of_submseteq; [|apply sublist_submseteq].
  - exists k1, k2'. split; [done|]. intros x Hx. by eapply elem_of_submseteq; [|apply sublist_submseteq].
Qed.

(** Every name whose value in the class is a property is listed. *)
Lemma complete cs : cinv cs -> forall i k a, i < length cs -> class_attr cs i k = Some a -> is_prop a = true -> k ∈ fields_of cs i.
Proof.
  intros Hc i. induction i as [i IH] using lt_wf_ind. intros k a Hi Ha Hp. unfold class_attr in Ha.
  destruct (i_head _ _ (Hc i Hi)) as (r & Hr & Hj). pose proof (i_nodup _ _ (Hc i Hi)) as Hn.
  destruct (search_some _ _ _ _ Ha) as (l1 & j & l2 & El & Hja & Hbefore).
  destruct l1 as [|x l1].
  - rewrite Hr in El. injection El as <- _. by apply (i_own _ _ (Hc i Hi) k a).
  - assert (x = i /\ j ∈ r) as [-> Hjr] by (rewrite Hr in El; injection El as -> ->; split; [done|apply elem_of_app; right; by left]).
    destruct (Hj j Hjr) as [Hlt (b & Hb & Hjb)]. apply (i_keep _ _ (Hc i Hi) k b); [apply Hbefore; by left|done|].
    pose proof (i_bases _ _ (Hc i Hi) b Hb) as Hbi. apply (IH b Hbi k a); [lia| |done]. unfold class_attr.
    pose proof (i_sub _ _ (Hc i Hi) b Hb) as Hs. rewrite El in Hs, Hn.
    destruct (sublist_first _ _ _ _ Hs Hn Hjb) as (m1 & m2 & -> & Hm). apply search_first; [done|]. intros y Hy. by apply Hbefore, Hm.
Qed.
(** Every name that is listed has a value. *)
Lemma listed_has cs : cinv cs -> forall i k, i < length cs -> k ∈ fields_of cs i -> is_Some (class_attr cs i k).
Proof.
  intros Hc i. induction i as [i IH] using lt_wf_ind. intros k Hi Hk. unfold class_attr. apply search_is_some.
  destruct (i_list _ _ (Hc i Hi) k Hk) as [(a & Ha & _)|[_ (b & Hb & Hkb)]].
  - exists i. split; [|by eauto]. destruct (i_head _ _ (Hc i Hi)) as (r & -> & _). by left.
  - pose proof (i_bases _ _ (Hc i Hi) b Hb) as Hbi. destruct (IH b Hbi k ltac:(lia) Hkb) as [a Ha].
    destruct (search_some _ _ _ _ Ha) as (l1 & j & l2 & El & Hja & _). exists j. split; [|by eauto].
    eapply elem_of_submseteq; [|apply sublist_submseteq, (i_sub _ _ (Hc i Hi) b Hb)]. rewrite El. apply elem_of_app. right. by left.
Qed.
