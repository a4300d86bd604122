(** What is expected of the libraries on the command line. *)
From Coq Require Import List NArith Bool.
From Verif Require Import FnModel PathModel LinkModel.
Import ListNotations.

Definition deps (l : lib) : list lib := match l with Plain _ => [] | Library _ _ ls _ => ls end.
Definition needs_external (l : lib) : list str := match l with Plain _ => [] | Library _ _ _ e => e end.

(** [d] is [l] or something it depends on. *)
Inductive reach : lib -> lib -> Prop :=
  | reach_refl l : reach l l
  | reach_step l d e : In d (deps l) -> reach d e -> reach l e.
Definition used (roots : list lib) (l : lib) : Prop := exists r, In r roots /\ reach r l.

Definition named (l : lib) : str := link_name (path_of l).

(** [a] stands somewhere left of [b]. *)
Definition left_of (a b : str) (l : list str) : Prop := exists l1 l2 l3, l = l1 ++ a :: l2 ++ b :: l3.

(** Libraries are told apart by the names used for linking, and no plain path is
    written as such a name. *)
Definition distinct_names (roots : list lib) : Prop :=
  (forall l l', used roots l -> used roots l' -> named l = named l' -> l = l') /\
  (forall p l, used roots (Plain p) -> used roots l -> p <> named l).
