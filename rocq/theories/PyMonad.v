(** Exceptions as values and the state/exception monad used to transcribe the
    Python methods of the database layer.  A Python exception leaves the object
    in the state reached when it was raised, so the state is returned in both
    cases. *)
From stdpp Require Import base list strings gmap.

Definition name := string.
Definition digest := string.
Definition content := string.

(** The Python exceptions that the modelled code can raise. *)
Inductive exn :=
  | OSErr          (* OSError: missing file *)
  | KeyErr         (* KeyError *)
  | IndexErr       (* IndexError *)
  | IntegrityErr   (* sqlite3.IntegrityError *)
  | RecursionErr.  (* RecursionError *)

Global Instance exn_eq_dec : EqDecision exn.
Proof. solve_decision. Defined.

Definition M (S A : Type) : Type := S -> (exn + A) * S.

Definition ret {S A} (a : A) : M S A := fun s => (inr a, s).
Definition raise {S A} (e : exn) : M S A := fun s => (inl e, s).
Definition bind {S A B} (m : M S A) (k : A -> M S B) : M S B :=
  fun s => match m s with
           | (inl e, s') => (inl e, s')
           | (inr a, s') => k a s'
           end.
Definition gets {S A} (f : S -> A) : M S A := fun s => (inr (f s), s).
Definition modify {S} (f : S -> S) : M S unit := fun s => (inr tt, f s).

(** [try: m  except OSError: pass  else: ...] *)
Definition try_os {S A} (m : M S A) : M S (option A) :=
  fun s => match m s with
           | (inl OSErr, s') => (inr None, s')
           | (inl e, s') => (inl e, s')
           | (inr a, s') => (inr (Some a), s')
           end.

Declare Scope m_scope.
Delimit Scope m_scope with m.
Notation "'let*' x ':=' m 'in' k" := (bind m (fun x => k))
  (at level 200, x pattern, m at level 100, k at level 200,
   format "'[v' 'let*'  x  ':='  m  'in' '/' k ']'").
