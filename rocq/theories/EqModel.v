(** Model of lib/fbuild/db/__init__.py:137-152 (PersistentObject.__eq__) and of the ==
    operator calling it.  Attributes are looked up in the instance, then in the class;
    properties and other data descriptors are not modelled.  Equality of attribute values
    is a parameter. *)
From stdpp Require Import base list gmap.

Section Eq.
  Context {C A V : Type} `{EqDecision C} `{Countable A}.
  (** The class hierarchy, the attributes found in a class, equality of values. *)
  Context (subclass : C -> C -> bool) (class_attr : C -> A -> option V) (veq : V -> V -> bool).

  Record obj := Obj { o_id : nat; o_class : C; o_dict : gmap A V }.

  Definition getattr (o : obj) (k : A) : option V :=
    match o_dict o !! k with Some v => Some v | None => class_attr (o_class o) k end.

  (** db/__init__.py:137-152; [None] of getattr is AttributeError. *)
  Definition eq_method (self other : obj) : bool :=
    if bool_decide (o_id self = o_id other) then true
    else if negb (subclass (o_class other) (o_class self)) then false
    else forallb (fun kv => match getattr other kv.1 with Some w => veq kv.2 w | None => false end)
           (map_to_list (o_dict self)).

  (** The == operator: an instance of a strict subclass on the right is asked first
      (Python reference, 3.3.1). *)
  Definition py_eq (a b : obj) : bool :=
    if negb (bool_decide (o_class b = o_class a)) && subclass (o_class b) (o_class a) then eq_method b a
    else eq_method a b.
End Eq.
Arguments Obj {C A V _ _} _ _ _.
Arguments o_id {C A V _ _}.
Arguments o_class {C A V _ _}.
Arguments o_dict {C A V _ _}.
