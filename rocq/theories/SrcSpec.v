(** Lines that open functions and classes. *)
From Coq Require Import List NArith Bool Arith.
From Verif Require Import FnModel VerModel SrcModel.
Import ListNotations.
Open Scope nat_scope.

Definition blank (s : str) : Prop := forall c, In c s -> is_space c = true.
(** def, and something after it. *)
Definition is_def (l : str) : Prop := exists ws c rest, blank ws /\ is_space c = true /\ l = ws ++ w_def ++ c :: rest.
(** A decorator. *)
Definition is_decorator (l : str) : Prop := exists ws rest, blank ws /\ l = ws ++ 64%N :: rest.
(** A lambda somewhere in the line: a word of its own, followed by a colon or space. *)
Definition has_lambda (l : str) : Prop :=
  exists pre c rest, ~ In 10%N pre /\ (forall pre' d, pre = pre' ++ [d] -> is_word d = false) /\
  (c = 58%N \/ is_space c = true) /\ l = pre ++ w_lambda ++ c :: rest.
Definition opening (l : str) : Prop := is_def l \/ has_lambda l \/ is_decorator l.

(** Names of Python. *)
Definition is_name (s : str) : Prop := s <> [] /\ forall c, In c s -> is_word c = true.
(** The line has the word class, and then, after any space or none, the name as a whole word. *)
Definition class_line (name : str) (ws l : str) : Prop :=
  exists sp rest, blank ws /\ blank sp /\ (forall c rest', rest = c :: rest' -> is_word c = false) /\
  l = ws ++ w_class ++ sp ++ name ++ rest.
(** Indented by [k] blanks. *)
Definition blanks (k : nat) : str := repeat 32%N k.
