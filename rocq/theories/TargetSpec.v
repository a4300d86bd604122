(** What a result from the database says about the files of the call. *)
From stdpp Require Import base list strings gmap.
From Coq Require Import ZArith.
From Verif Require Import PyMonad DbModel DbSpec DbClaims CodeSpec.

Section Target.
  Context {V R : Type} (veq : V -> V -> bool) (md5 : content -> digest).
  Context {S FunId CallId FileId : Type}.
  Context (BK : backend V R S FunId CallId FileId).
  Notation sys := (sys V R S FunId CallId FileId).
  Notation op := (op V R).
  Notation occ := (occ V R).
  Notation step := (step md5 BK).
  Notation runs := (runs md5 BK).

  (** One thread [t], starting in [s0]. *)
  Context (t : nat) (s0 : sys).

  (** The same function with equal arguments. *)
  Definition equal_call (rq rq' : request V R) : Prop :=
    rq_fun rq' = rq_fun rq /\ veq (rq_bound rq) (rq_bound rq') = true.
  (** The thread is inside such a call. *)
  Definition inside (s : sys) (rq : request V R) : Prop :=
    exists fr, fr ∈ thread s t /\ equal_call rq (fr_req fr).

  (** When it returned. *)
  Definition oc_upto (oc : occ) : list op :=
    oc_before oc ++ OBegin t (oc_req oc) :: oc_during oc.
  Definition oc_end (oc : occ) : env := s_env (runs s0 (oc_upto oc)).

  (** A call that ran and returned, and since then no equal call ran. *)
  Definition last_run (os : list op) (oc : occ) : Prop :=
    exists rest, os = oc_upto oc ++ OEnd t (oc_result oc) :: rest /\
      runs_during md5 BK s0 t (oc_req oc) (oc_before oc) (oc_during oc) /\
      forall c1 c2, rest = c1 ++ c2 ->
        ~ inside (runs s0 (oc_upto oc ++ OEnd t (oc_result oc) :: c1)) (oc_req oc).

  (** Nothing else writes the file: it is written only inside of calls equal to [rq]. *)
  Definition only_written_by (os : list op) (rq : request V R) (f : name) : Prop :=
    forall a ct m c, os = a ++ OWrite f ct m :: c -> inside (runs s0 a) rq.

  (** When the process ends, nothing is running and all results are saved. *)
  Definition saved (os : list op) : Prop :=
    forall a c, os = a ++ c -> thread (runs s0 a) t <> [] -> OSave ∈ c.
  Definition ends_saved (os : list op) : Prop :=
    forall a funs c, os = a ++ ORestart funs :: c -> saved a.

  Record steady (rank : name -> nat) (os : list op) : Prop := Steady {
    sd_thread : Forall (on_thread t) os;
    sd_rank : calls_below md5 BK rank s0 os;
    sd_fails : nothing_fails md5 BK t s0 os;
    sd_saves : saves_between md5 BK t s0 os;
    sd_ends : ends_saved os
  }.

  (** What the earlier run [oc] has to do with the present environment [e] when it stands for
      the call [rq]: same code, declared sources as when it began, registered sources that
      exist as when it returned. *)
  Record stands_for (e : env) (rq : request V R) (oc : occ) : Prop := StandsFor {
    sf_call : equal_call rq (oc_req oc);
    sf_code : is_Some (e_fun e !! rq_fun rq) /\ e_fun e !! rq_fun rq = oc_code md5 BK s0 oc;
    sf_declared : forall f, f ∈ rq_srcs rq -> f ∈ rq_srcs (oc_req oc) ->
      is_Some (digest_at md5 e f) /\
      digest_at md5 e f = digest_at md5 (s_env (runs s0 (oc_before oc))) f;
    sf_registered : forall f, registered md5 BK s0 (fun xs _ => xs) t (oc_req oc) (oc_before oc) (oc_during oc) f ->
      is_Some (e_fs e !! f) -> digest_at md5 e f = digest_at md5 (oc_end oc) f
  }.
End Target.
