(** C55: equality of persistent objects. *)
From stdpp Require Import base list gmap.
From Verif Require Import EqModel.

(** What is assumed of Python: identities tell objects apart, subclassing is a partial
    order, and equality of the attributes' values is an equivalence. *)
Record python {C A V} `{EqDecision C} `{Countable A} (subclass : C -> C -> bool) (veq : V -> V -> bool)
    (objects : @obj C A V _ _ -> Prop) : Prop := Python {
  py_identity : forall a b, objects a -> objects b -> o_id a = o_id b -> a = b;
  py_sub_refl : forall c, subclass c c = true;
  py_sub_anti : forall c d, subclass c d = true -> subclass d c = true -> c = d;
  py_refl : forall v, veq v v = true;
  py_sym : forall v w, veq v w = true -> veq w v = true;
  py_trans : forall u v w, veq u v = true -> veq v w = true -> veq u w = true
}.

Section Props.
  Context {C A V : Type} `{EqDecision C} `{Countable A}.
  Context (subclass : C -> C -> bool) (class_attr : C -> A -> option V) (veq : V -> V -> bool).
  Context (objects : @obj C A V _ _ -> Prop).
  Notation obj := (@obj C A V _ _).
  Notation py_eq := (py_eq subclass class_attr veq).
  Implicit Types a b c : obj.

  Lemma method_iff a b :
    eq_method subclass class_attr veq a b = true <->
    o_id a = o_id b \/ subclass (o_class b) (o_class a) = true /\
      forall k v, o_dict a !! k = Some v -> exists w, getattr class_attr b k = Some w /\ veq v w = true.
  Proof.
    unfold eq_method. destruct (bool_decide (o_id a = o_id b)) eqn:Ei.
    - apply bool_decide_eq_true in Ei. split; [by left|done].
    - apply bool_decide_eq_false in Ei. destruct (subclass (o_class b) (o_class a)); cbn [negb].
      + rewrite forallb_forall. split.
        * intros Hf. right. split; [done|]. intros k v Hk.
          specialize (Hf (k, v)). cbn in Hf. rewrite <- elem_of_list_In, elem_of_map_to_list in Hf.
          specialize (Hf Hk). destruct (getattr class_attr b k) as [w|]; [eauto|done].
        * intros [?|[_ Hk]]; [done|]. intros [k v] Hin. rewrite <- elem_of_list_In, elem_of_map_to_list in Hin.
          destruct (Hk k v Hin) as (w & Ew & Hw). cbn. by rewrite Ew.
      + split; [done|]. by intros [?|[? _]].
  Qed.

  (** Two objects are equal exactly when they are one, or of one class and every attribute
      of the left one has an equal value in the right one or in its class. *)
  Theorem C55_exact a b :
    python subclass veq objects -> objects a -> objects b ->
    py_eq a b = true <->
    a = b \/ o_class a = o_class b /\
      forall k v, o_dict a !! k = Some v -> exists w, getattr class_attr b k = Some w /\ veq v w = true.
  Proof.
    intros [P1 P2 P3 P4 P5 P6] Ha Hb. unfold EqModel.py_eq.
    assert (o_id a = o_id b <-> a = b) as Hid by (split; [by apply P1|by intros ->]).
    destruct (decide (o_class b = o_class a)) as [Ec|Ec].
    - rewrite bool_decide_true by done. cbn [negb andb]. rewrite method_iff, Hid, Ec, P2. naive_solver.
    - rewrite bool_decide_false by done. cbn [negb andb]. destruct (subclass (o_class b) (o_class a)) eqn:Es.
      + rewrite method_iff. split.
        * intros [Hi|[Hs _]]; [left; by apply Hid|]. destruct Ec. by apply P3.
        * intros [->|[? _]]; [by left|congruence].
      + rewrite method_iff, Es, Hid. split; [intros [?|[? _]]; [by left|done]|].
        intros [?|[? _]]; [by left|congruence].
  Qed.

  (** Reflexivity holds always. *)
  Theorem C55_reflexive a : py_eq a a = true.
  Proof.
    unfold EqModel.py_eq. rewrite bool_decide_true by done. cbn. apply method_iff. by left.
  Qed.

  (** Symmetry holds between objects with the same attributes. *)
  Theorem C55_symmetric_partial a b :
    python subclass veq objects -> objects a -> objects b -> dom (o_dict a) = dom (o_dict b) ->
    py_eq a b = true -> py_eq b a = true.
  Proof.
    intros P Ha Hb Hd. rewrite !C55_exact by done. intros [->|[Ec Hk]]; [by left|right].
    split; [done|]. intros k w Hw.
    assert (is_Some (o_dict a !! k)) as [v Hv].
    { apply (elem_of_dom (D:=gset A)). rewrite Hd. apply elem_of_dom. eauto. }
    exists v. unfold getattr. rewrite Hv. split; [done|].
    destruct (Hk k v Hv) as (w' & Hw' & Hvw). unfold getattr in Hw'. rewrite Hw in Hw'. injection Hw' as <-.
    destruct P as [_ _ _ _ P5 _]. by apply P5.
  Qed.

  (** Transitivity holds unless an attribute of the first is in the second only by its class. *)
  Theorem C55_transitive_partial a b c :
    python subclass veq objects -> objects a -> objects b -> objects c ->
    (forall k, is_Some (o_dict a !! k) -> o_dict b !! k = None -> class_attr (o_class b) k = None) ->
    py_eq a b = true -> py_eq b c = true -> py_eq a c = true.
  Proof.
    intros P Ha Hb Hc Hs. rewrite !C55_exact by done.
    intros [->|[Ec Hk]]; [done|]. intros [->|[Ec' Hk']]; [by right|]. right. split; [congruence|].
    intros k v Hv. destruct (Hk k v Hv) as (w & Hw & Hvw). unfold getattr in Hw.
    destruct (o_dict b !! k) as [w'|] eqn:Eb.
    - injection Hw as ->. destruct (Hk' k w Eb) as (u & Hu & Hwu). exists u. split; [done|].
      destruct P as [_ _ _ _ _ P6]. by apply P6 with w.
    - rewrite Hs in Hw by eauto. done.
  Qed.
End Props.

(** The claim, of a fixed set of objects. *)
Definition C55_equivalence : Prop :=
  forall (subclass : nat -> nat -> bool) (class_attr : nat -> nat -> option nat) (veq : nat -> nat -> bool)
    (objects : @obj nat nat nat _ _ -> Prop), python subclass veq objects ->
  (forall a b, objects a -> objects b -> py_eq subclass class_attr veq a b = true -> py_eq subclass class_attr veq b a = true) /\
  (forall a b c, objects a -> objects b -> objects c ->
     py_eq subclass class_attr veq a b = true -> py_eq subclass class_attr veq b c = true ->
     py_eq subclass class_attr veq a c = true).
Definition C55_symmetric : Prop :=
  forall (subclass : nat -> nat -> bool) (class_attr : nat -> nat -> option nat) (veq : nat -> nat -> bool)
    (objects : @obj nat nat nat _ _ -> Prop), python subclass veq objects ->
  forall a b, objects a -> objects b -> py_eq subclass class_attr veq a b = true -> py_eq subclass class_attr veq b a = true.
Definition C55_transitive : Prop :=
  forall (subclass : nat -> nat -> bool) (class_attr : nat -> nat -> option nat) (veq : nat -> nat -> bool)
    (objects : @obj nat nat nat _ _ -> Prop), python subclass veq objects ->
  forall a b c, objects a -> objects b -> objects c ->
     py_eq subclass class_attr veq a b = true -> py_eq subclass class_attr veq b c = true ->
     py_eq subclass class_attr veq a c = true.

(** One class with the attribute 0, of value 1; x has 0 := 1, y nothing, z 0 := 2. *)
Definition ex_sub (c d : nat) : bool := bool_decide (c = d).
Definition ex_attr (c k : nat) : option nat := if decide (k = 0) then Some 1 else None.
Definition ex_veq (v w : nat) : bool := bool_decide (v = w).
Definition ex_x : @obj nat nat nat _ _ := Obj 1 0 {[0 := 1]}.
Definition ex_y : @obj nat nat nat _ _ := Obj 2 0 ∅.
Definition ex_z : @obj nat nat nat _ _ := Obj 3 0 {[0 := 2]}.
Definition ex_w : @obj nat nat nat _ _ := Obj 4 0 {[0 := 1]}.
Definition ex_objects (o : @obj nat nat nat _ _) : Prop := o = ex_x \/ o = ex_y \/ o = ex_z \/ o = ex_w.
Lemma ex_python : python ex_sub ex_veq ex_objects.
Proof.
  split.
  - intros a b [->|[->|[->| ->]]] [->|[->|[->| ->]]]; cbn; done.
  - intros c. by apply bool_decide_eq_true.
  - intros c d Hc _. by apply bool_decide_eq_true in Hc.
  - intros v. by apply bool_decide_eq_true.
  - intros v w Hv%bool_decide_eq_true. by apply bool_decide_eq_true.
  - intros u v w Hv%bool_decide_eq_true Hw%bool_decide_eq_true. apply bool_decide_eq_true. congruence.
Qed.
Theorem C55_symmetric_refuted : ~ C55_symmetric.
Proof.
  intros HC. specialize (HC ex_sub ex_attr ex_veq ex_objects ex_python ex_y ex_z).
  assert (py_eq ex_sub ex_attr ex_veq ex_z ex_y = false) as Hf by (vm_compute; done).
  rewrite HC in Hf; [done|unfold ex_objects; tauto..|vm_compute; done].
Qed.
Theorem C55_transitive_refuted : ~ C55_transitive.
Proof.
  intros HC. specialize (HC ex_sub ex_attr ex_veq ex_objects ex_python ex_x ex_y ex_z).
  assert (py_eq ex_sub ex_attr ex_veq ex_x ex_z = false) as Hf by (vm_compute; done).
  rewrite HC in Hf; [done|unfold ex_objects; tauto..|vm_compute; done|vm_compute; done].
Qed.
Theorem C55_equivalence_refuted : ~ C55_equivalence.
Proof.
  intros HC. apply C55_symmetric_refuted. intros s ca veq obs P. by destruct (HC s ca veq obs P).
Qed.

(** Instances of the guards: x and w are two objects with one value. *)
Example C55_partial_ex :
  python ex_sub ex_veq ex_objects /\ ex_objects ex_x /\ ex_objects ex_w /\ ex_x <> ex_w /\
  dom (o_dict ex_x) = dom (o_dict ex_w) /\
  (forall k, is_Some (o_dict ex_x !! k) -> o_dict ex_w !! k = None -> ex_attr (o_class ex_w) k = None) /\
  py_eq ex_sub ex_attr ex_veq ex_x ex_w = true /\ py_eq ex_sub ex_attr ex_veq ex_w ex_x = true.
Proof.
  split; [exact ex_python|]. split; [unfold ex_objects; tauto|]. split; [unfold ex_objects; tauto|].
  split; [discriminate|]. split; [reflexivity|].
  split; [intros k [v Hv] Hn; cbn in *; congruence|]. split; vm_compute; reflexivity.
Qed.

Print Assumptions C55_exact.
Print Assumptions C55_reflexive.
Print Assumptions C55_symmetric_partial.
Print Assumptions C55_transitive_partial.
Print Assumptions C55_symmetric_refuted.
Print Assumptions C55_transitive_refuted.
Print Assumptions C55_equivalence_refuted.
