(** What it means that a result was computed by the present code, nested calls included. *)
From stdpp Require Import base list strings gmap.
From Coq Require Import ZArith.
From Verif Require Import PyMonad DbModel DbSpec DbClaims.

(** A call that ran and returned: what happened before it, the call, what happened while it
    ran, and its result. *)
Record occ (V R : Type) := Occ {
  oc_before : list (op V R);
  oc_req : request V R;
  oc_during : list (op V R);
  oc_result : R
}.
Arguments Occ {V R}.
Arguments oc_before {V R}.
Arguments oc_req {V R}.
Arguments oc_during {V R}.
Arguments oc_result {V R}.

Section Code.
  Context {V R : Type} (veq : V -> V -> bool) (md5 : content -> digest).
  Context {S FunId CallId FileId : Type}.
  Context (BK : backend V R S FunId CallId FileId).
  Notation sys := (sys V R S FunId CallId FileId).
  Notation op := (op V R).
  Notation occ := (occ V R).
  Notation step := (step md5 BK).
  Notation runs := (runs md5 BK).

  (** One thread [t], starting in [s0]. *)
  Context (t : nat) (s0 : sys).

  Definition oc_fun (oc : occ) : name := rq_fun (oc_req oc).
  Definition completed (os : list op) (oc : occ) : Prop :=
    exists rest, os = oc_before oc ++ OBegin t (oc_req oc) :: oc_during oc ++ OEnd t (oc_result oc) :: rest /\
      runs_during md5 BK s0 t (oc_req oc) (oc_before oc) (oc_during oc).
  (** The digest its function had. *)
  Definition oc_code (oc : occ) : option digest := e_fun (s_env (runs s0 (oc_before oc))) !! oc_fun oc.

  (** During the run [a ++ OBegin t rq :: b] its function itself made the call [rq'], after [b1]. *)
  Definition makes_call (a : list op) (rq : request V R) (b : list op)
      (b1 : list op) (rq' : request V R) (b2 : list op) : Prop :=
    b = b1 ++ OBegin t rq' :: b2 /\
    depth (runs s0 (a ++ OBegin t rq :: b1)) t = Datatypes.S (depth (runs s0 a) t).
  (** That call got its answer from [oc']: it ran there and then, or it was answered from the
      database and [oc'] is an earlier run of the same function with equal arguments and
      that result. *)
  Definition answered_by (a : list op) (rq : request V R)
      (b1 : list op) (rq' : request V R) (b2 : list op) (oc' : occ) : Prop :=
    let before := a ++ OBegin t rq :: b1 in
    (oc_before oc' = before /\ oc_req oc' = rq' /\
     (exists b4, b2 = oc_during oc' ++ OEnd t (oc_result oc') :: b4) /\
     runs_during md5 BK s0 t rq' before (oc_during oc')) \/
    (exists srcs dsts, snd (step (runs s0 before) (OBegin t rq')) = RHit (oc_result oc') srcs dsts /\
       completed before oc' /\ oc_fun oc' = rq_fun rq' /\
       veq (rq_bound rq') (rq_bound (oc_req oc')) = true).

  (** The run was made by code that is still the same in [e], and so were the runs that
      answered its calls. *)
  Inductive up_to_date (e : env) : occ -> Prop :=
    | UpToDate oc :
        e_fun e !! oc_fun oc = oc_code oc -> is_Some (oc_code oc) ->
        (forall b1 rq' b2, makes_call (oc_before oc) (oc_req oc) (oc_during oc) b1 rq' b2 ->
           exists oc', answered_by (oc_before oc) (oc_req oc) b1 rq' b2 oc' /\ up_to_date e oc') ->
        up_to_date e oc.

  (** *** Restrictions *)
  (** Which cached functions a function calls depends only on its code. *)
  Definition same_calls (os : list op) : Prop :=
    forall oc oc' g, completed os oc -> completed os oc' -> oc_fun oc = oc_fun oc' -> oc_code oc = oc_code oc' ->
      calls_during md5 BK s0 t (oc_req oc) (oc_before oc) (oc_during oc) g ->
      calls_during md5 BK s0 t (oc_req oc') (oc_before oc') (oc_during oc') g.

  Definition running (s : sys) (f : name) : Prop := exists fr, fr ∈ thread s t /\ rq_fun (fr_req fr) = f.

  (** The function was already called, with an answer, since the process started or something was
      deleted from the database. *)
  Definition lasting (o : op) : Prop :=
    match o with ORestart _ | ODelFun _ => False | _ => True end.
  Definition seen (os : list op) (f : name) : Prop :=
    (exists a rq c r srcs dsts, os = a ++ OBegin t rq :: c /\ rq_fun rq = f /\ Forall lasting c /\
       snd (step (runs s0 a) (OBegin t rq)) = RHit r srcs dsts) \/
    (exists oc c, oc_fun oc = f /\ Forall lasting c /\
       os = oc_before oc ++ OBegin t (oc_req oc) :: oc_during oc ++ OEnd t (oc_result oc) :: c /\
       runs_during md5 BK s0 t (oc_req oc) (oc_before oc) (oc_during oc)).

  (** The first time a function runs in a process, all functions that ever called it are running. *)
  Definition callers_first (os : list op) : Prop :=
    forall a rq c, os = a ++ OBegin t rq :: c ->
      snd (step (runs s0 a) (OBegin t rq)) = RRun -> seen a (rq_fun rq) \/
      forall oc, completed a oc ->
        calls_during md5 BK s0 t (oc_req oc) (oc_before oc) (oc_during oc) (rq_fun rq) -> running (runs s0 a) (oc_fun oc).

  (** Nothing fails, except that calls which are not made by cached functions may be refused. *)
  Definition nothing_fails (os : list op) : Prop :=
    forall a o c, os = a ++ o :: c -> fails md5 BK (runs s0 a) o = true ->
      (exists rq, o = OBegin t rq) /\ thread (runs s0 a) t = [].

  (** The database is saved, and functions are deleted from it, when nothing runs. *)
  Definition saves_between (os : list op) : Prop :=
    forall a o c, os = a ++ o :: c -> match o with OSave | ODelFun _ => thread (runs s0 a) t = [] | _ => True end.

  Record tidy (rank : name -> nat) (os : list op) : Prop := Tidy {
    td_thread : Forall (on_thread t) os;
    td_rank : calls_below md5 BK rank s0 os;
    td_fails : nothing_fails os;
    td_saves : saves_between os;
    td_calls : same_calls os;
    td_callers : callers_first os
  }.

  (** Every function is called from one place: by one other function, or not by cached functions. *)
  Definition one_caller (os : list op) : Prop :=
    exists caller : name -> option name, forall a rq c, os = a ++ OBegin t rq :: c ->
      match thread (runs s0 a) t with
      | [] => caller (rq_fun rq) = None
      | fr :: _ => caller (rq_fun rq) = Some (rq_fun (fr_req fr))
      end.
End Code.
