(** What is expected of the log. *)
From Coq Require Import List Bool Arith.
From Verif Require Import LogModel.
Import ListNotations.

(** The calls of a thread, in order. *)
Fixpoint calls (t : tid) (es : list event) : list op :=
  match es with
  | [] => []
  | EStart u o :: es' => if Nat.eqb u t then o :: calls t es' else calls t es'
  | EMicro _ :: es' => calls t es'
  end.

(** The messages it wrote. *)
Fixpoint written (os : list op) : list msg :=
  match os with
  | [] => []
  | OWrite m _ :: os' => m :: written os'
  | _ :: os' => written os'
  end.

(** The messages of a thread that arrived. *)
Definition arrived (t : tid) (l : list (tid * msg)) : list msg :=
  map snd (filter (fun p => Nat.eqb (fst p) t) l).

(** log_from_thread is entered and left like parentheses; the depth at the end. *)
Fixpoint depth (d : nat) (os : list op) : option nat :=
  match os with
  | [] => Some d
  | OEnter :: os' => depth (S d) os'
  | OExit :: os' => match d with O => None | S d' => depth d' os' end
  | OWrite _ _ :: os' => depth d os'
  end.

(** One level of buffering at most, and no unbuffered message within it. *)
Fixpoint simple (inside : bool) (os : list op) : bool :=
  match os with
  | [] => true
  | OEnter :: os' => negb inside && simple true os'
  | OExit :: os' => inside && simple false os'
  | OWrite _ buffer :: os' => (buffer || negb inside) && simple inside os'
  end.
