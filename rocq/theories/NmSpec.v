(** What is expected of the order of object files. *)
From Coq Require Import List NArith.
From Verif Require Import FnModel NmModel.
Import ListNotations.

Section Spec.
  Variable nm : str -> symbols.
  Variable objs : list str.

  (** [d] is the last of the objects defining [sym]. *)
  Definition provides (d : str) (sym : str) : Prop :=
    exists l1 l2, objs = l1 ++ d :: l2 /\ In sym (defined (nm d)) /\ forall o, In o l2 -> ~ In sym (defined (nm o)).
  (** [o] needs a symbol that another object, [d], provides. *)
  Definition needs (o d : str) : Prop := o <> d /\ exists sym, In sym (undefined (nm o)) /\ provides d sym.

  Inductive needs_path : str -> str -> Prop :=
    | np_one o d : needs o d -> needs_path o d
    | np_more o d e : needs o d -> needs_path d e -> needs_path o e.
  Definition acyclic : Prop := forall o, ~ needs_path o o.
End Spec.

Definition left_of (a b : str) (l : list str) : Prop := exists l1 l2 l3, l = l1 ++ a :: l2 ++ b :: l3.
