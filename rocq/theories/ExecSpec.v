(** What is claimed about running commands and builds. *)
From stdpp Require Import base list strings gmap.
From Coq Require Import ZArith Ascii.
From Verif Require Import PyMonad ExecModel.
Local Open Scope string_scope.
Local Open Scope list_scope.

(** *** Commands *)
(** The process was started, ran to its end and was not ended by an interrupt. *)
Definition exited (w : world) (out err : string) (code : Z) : Prop :=
  w_process w = SStarted (WExit out err code) /\ code <> (-2)%Z.
Definition late (timeout : bool) (w : world) : Prop := timeout = true /\ w_fired w = true.
Definition interrupted (w : world) : Prop :=
  w_process w = SStarted WInterrupt \/ exists out err, w_process w = SStarted (WExit out err (-2)%Z).

(** The position of [y] in [l] is after that of [x]. *)
Definition follows {A} (x y : A) (l : list A) : Prop := exists a b c, l = a ++ x :: b ++ y :: c.

(** How a POSIX shell splits a line of ordinary characters, blanks, single quotes and
    backslashes into words. *)
Definition add (cur : option string) (a : ascii) : option string := Some (default "" cur +:+ String a "").
Fixpoint words (quoted : bool) (cur : option string) (s : string) : option (list string) :=
  match s with
  | EmptyString => if quoted then None else Some (match cur with Some w => [w] | None => [] end)
  | String a s' =>
      if quoted then
        if Ascii.eqb a "'"%char then words false cur s' else words true (add cur a) s'
      else if Ascii.eqb a " "%char then
        match cur with
        | Some w => match words false None s' with Some ws => Some (w :: ws) | None => None end
        | None => words false None s'
        end
      else if Ascii.eqb a "'"%char then words true (Some (default "" cur)) s'
      else if Ascii.eqb a "\"%char then
        match s' with String b s'' => words false (add cur b) s'' | EmptyString => None end
      else words false (add cur a) s'
  end.
Definition shell (s : string) : option (list string) := words false None s.

(** Characters without special meaning to a shell. *)
Definition ordinary (a : ascii) : bool :=
  existsb (Ascii.eqb a)
    (list_ascii_of_string "abcdefghijklmnopqrstuvwxyzABCDEFGHIJKLMNOPQRSTUVWXYZ0123456789_-./=:,+@%").
(** Nonempty arguments of ordinary characters and blanks. *)
Definition easy (c : string) : Prop :=
  c <> "" /\ forall a, In a (list_ascii_of_string c) -> ordinary a = true \/ a = " "%char.
Definition pasteable (cmd : list string) : Prop := shell (cmd_string cmd) = Some cmd.

(** *** Builds *)
(** In the trace [tr] the action [a] took place and raised [r] (None: nothing). *)
Definition happened (w : list act -> act -> option xn) (tr : list act) (a : act) (r : option xn) : Prop :=
  exists tr1 tr2, tr = tr1 ++ a :: tr2 /\ w tr1 a = r.
(** Nothing calls sys.exit itself. *)
Definition no_exit (w : list act -> act -> option xn) : Prop := forall tr a n, w tr a <> Some (XExit n).
