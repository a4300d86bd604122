(** What a result from the database says about the files of the call, with any number of threads. *)
From stdpp Require Import base list strings gmap.
From Coq Require Import ZArith.
From Verif Require Import PyMonad DbModel DbSpec DbClaims CodeSpec TargetSpec.

Section Latest.
  Context {V R : Type} (veq : V -> V -> bool) (md5 : content -> digest).
  Context {S FunId CallId FileId : Type}.
  Context (BK : backend V R S FunId CallId FileId).
  Notation sys := (sys V R S FunId CallId FileId).
  Notation op := (op V R).
  Notation occ := (occ V R).
  Notation step := (step md5 BK).
  Notation runs := (runs md5 BK).
  Context (s0 : sys).

  (** Some thread is inside a call of the same function with equal arguments. *)
  Definition busy (s : sys) (rq : request V R) : Prop :=
    exists t fr, fr ∈ thread s t /\ equal_call veq rq (fr_req fr).

  (** Calls that ran are recorded. *)
  Definition recorded (os : list op) : Prop :=
    forall a t r c x, os = a ++ OEnd t r :: c -> snd (step (runs s0 a) (OEnd t r)) <> RErr x.
  (** None raises. *)
  Definition returns (os : list op) : Prop :=
    forall a t c, os = a ++ ORaise t :: c -> thread (runs s0 a) t = [].
  (** The process ends when none is running. *)
  Definition ends (os : list op) : Prop :=
    forall a funs c, os = a ++ ORestart funs :: c -> quiescent (runs s0 a).
  (** Equal calls are not made at the same time. *)
  Definition one_at_a_time (os : list op) : Prop :=
    forall a t rq c, os = a ++ OBegin t rq :: c -> ~ busy (runs s0 a) rq.
  Record calm (os : list op) : Prop := Calm {
    cm_recorded : recorded os; cm_returns : returns os; cm_ends : ends os; cm_apart : one_at_a_time os }.

  (** A call that ran and returned in thread [t], and since then no equal call ran. *)
  Definition latest (os : list op) (t : nat) (oc : occ) : Prop :=
    exists rest, os = oc_upto t oc ++ OEnd t (oc_result oc) :: rest /\
      runs_during md5 BK s0 t (oc_req oc) (oc_before oc) (oc_during oc) /\
      forall c1 c2, rest = c1 ++ c2 ->
        ~ busy (runs s0 (oc_upto t oc ++ OEnd t (oc_result oc) :: c1)) (oc_req oc).

  (** The file is written only while such a call runs. *)
  Definition only_written_in (os : list op) (rq : request V R) (f : name) : Prop :=
    forall a ct m c, os = a ++ OWrite f ct m :: c -> busy (runs s0 a) rq.

  (** A call [rq] answered from the database stands for one earlier run, the last one with equal
      arguments: its result is given, its code and declared sources are those of now, and the targets
      that nothing else writes are as it left them. *)
  Definition hit_latest (os : list op) (rq : request V R) (r : R) (dsts : list name) : Prop :=
    let e := s_env (runs s0 os) in
    exists t oc, latest os t oc /\ oc_result oc = r /\ equal_call veq rq (oc_req oc) /\
      is_Some (e_fun e !! rq_fun rq) /\ e_fun e !! rq_fun rq = oc_code md5 BK s0 oc /\
      (forall f, f ∈ rq_srcs rq -> f ∈ rq_srcs (oc_req oc) ->
         is_Some (digest_at md5 e f) /\ digest_at md5 e f = digest_at md5 (s_env (runs s0 (oc_before oc))) f) /\
      (forall f, f ∈ rq_dsts rq \/ f ∈ rq_ret rq r -> f ∈ dsts) /\
      forall f, f ∈ dsts -> is_Some (e_fs e !! f) /\
        (only_written_in os rq f -> e_fs e !! f = e_fs (oc_end md5 BK t s0 oc) !! f).
End Latest.
