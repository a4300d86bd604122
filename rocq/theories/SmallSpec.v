(** What is expected of the builders for Haskell, Felix, LLVM and Bison. *)
From Coq Require Import List NArith Bool.
From Verif Require Import FnModel PathModel PathSpec TryModel TrySpec OwnSpec.
Import ListNotations.
Open Scope N_scope.

(** [p'] is [p] with the extension of its last name replaced. *)
Definition with_suffix (p suffix p' : str) : Prop :=
  exists h n r, p = h ++ n /\ (h = [] \/ exists h', h = h' ++ [47]) /\ ~ In 47 n /\ stem n r /\ p' = h ++ r ++ suffix.
(** An argument that was given and is not empty, or what is taken instead. *)
Definition chosen (o : option str) (x y : str) : Prop := (o = Some y /\ y <> []) \/ ((o = None \/ o = Some []) /\ y = x).

(** *** Arguments *)
Definition has_pair (a b : str) (l : list str) : Prop := exists pre post, l = pre ++ a :: b :: post.
Definition ends_with (l y : list str) : Prop := exists pre, l = pre ++ y.
