(** Model of records and of reading configuration by path: lib/fbuild/record.py 1-13 and lib/fbuild/config/__init__.py 71-82. *)
From Coq Require Import List ZArith Bool String Ascii.
Import ListNotations.
Open Scope string_scope.

(** Values: None, records, other objects with attributes, and methods of dict.  Properties that raise AttributeError are
    attributes that are not there; properties that raise other exceptions are not modelled. *)
Inductive val :=
  | VNone
  | VNum (z : Z)
  | VRecord (items : list (string * val))
  | VObject (attributes : list (string * val))
  | VMethod (name : string).

Fixpoint find (k : string) (l : list (string * val)) : option val :=
  match l with [] => None | (k', v) :: l => if k =? k' then Some v else find k l end.
(** dict.__setitem__: a key that is there keeps its place. *)
Fixpoint set_item (k : string) (v : val) (l : list (string * val)) : list (string * val) :=
  match l with
  | [] => [(k, v)]
  | (k', v') :: l => if k =? k' then (k', v) :: l else (k', v') :: set_item k v l
  end.
(** record.py 2-5 *)
Definition set_attribute (k : string) (v : val) (items : list (string * val)) : list (string * val) := set_item k v items.
(** Attributes of dict, such as items, are found before [__getattr__] is asked; [builtin] says which they are.
    record.py 7-13; None: AttributeError. *)
Definition get_attribute (builtin : string -> bool) (items : list (string * val)) (k : string) : option val :=
  if builtin k then Some (VMethod k) else find k items.
(** A record is filled by attributes or as a dict. *)
Inductive setting := ByAttribute (k : string) (v : val) | ByItem (k : string) (v : val).
Definition do_set (items : list (string * val)) (s : setting) : list (string * val) :=
  match s with ByAttribute k v => set_attribute k v items | ByItem k v => set_item k v items end.
Definition filled (l : list setting) : list (string * val) := fold_left do_set l [].

(** getattr(o, k), None where it raises AttributeError; the attributes of numbers and methods are not modelled. *)
Definition attribute (builtin : string -> bool) (o : val) (k : string) : option val :=
  match o with
  | VRecord items => get_attribute builtin items k
  | VObject attributes => find k attributes
  | _ => None
  end.
(** str.split of the path at dots. *)
Fixpoint split_from (cur s : string) : list string :=
  match s with
  | EmptyString => [cur]
  | String c s => if Ascii.eqb c "."%char then cur :: split_from "" s else split_from (cur ++ String c "") s
  end.
(** config/__init__.py 76-82 *)
Fixpoint walk (builtin : string -> bool) (o : val) (keys : list string) (default : val) : val :=
  match keys with
  | [] => o
  | k :: keys =>
      match attribute builtin o k with
      | None | Some VNone => default
      | Some o => walk builtin o keys default
      end
  end.
Definition get (builtin : string -> bool) (o : val) (key : string) (default : val) : val := walk builtin o (split_from "" key) default.
