(** What sleeping does, and what is expected of waiting. *)
From Coq Require Import List ZArith Bool.
From Verif Require Import WaitModel.
Import ListNotations.
Open Scope Z_scope.

(** Time does not go back. *)
Definition forward (sl : sleeper) : Prop := forall t d, t <= sl t d.
(** Sleeping ends on time. *)
Definition punctual (sl : sleeper) : Prop := forall t d, 0 <= d -> sl t d <= t + d.
(** The end of the child wakes up a sleeper. *)
Definition woken (p : proc) (sl : sleeper) : Prop := forall t d e, p_ends p = Some e -> t < e <= t + d -> sl t d <= e.
(** Sleeping for a while takes a while. *)
Definition passes (sl : sleeper) : Prop := forall t d, 0 < d -> t + 1 <= sl t d.
(** A child that was started, and nobody waited for. *)
Definition running (s : state) : Prop := rc s = None /\ reaped s = false /\ killed s = None /\ sigchld s = Before.

(** It has ended by itself, was reaped, and its code is known. *)
Definition finished (p : proc) (s : state) : Prop :=
  rc s = Some (p_code p) /\ reaped s = true /\ killed s = None /\ exists e, p_ends p = Some e /\ e <= now s.
(** It was killed when the time was up. *)
Definition timed_out (deadline : Z) (s : state) : Prop :=
  rc s = Some (-9) /\ killed s = Some (now s) /\ deadline - 10 <= now s.
