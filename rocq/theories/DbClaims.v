(** Claims one would like to hold of cached calls and which the code does not
    satisfy without restrictions.  They only use the vocabulary of DbSpec. *)
From stdpp Require Import base list strings gmap.
From Coq Require Import ZArith.
From Verif Require Import PyMonad DbModel DbSpec.

Section Claims.
  Context {V R : Type} (md5 : content -> digest).
  Context {S FunId CallId FileId : Type}.
  Context (BK : backend V R S FunId CallId FileId) (db0 : S).
  Notation sys := (sys V R S FunId CallId FileId).
  Notation op := (op V R).
  Notation step := (step md5 BK).
  Notation runs := (runs md5 BK).

  Definition hits (s : sys) (t : nat) (rq : request V R) : Prop :=
    exists r srcs dsts, snd (step s (OBegin t rq)) = RHit r srcs dsts.

  (** [a ++ OBegin t rq :: b ++ OEnd t r :: c]: the call [rq] runs during [b] and
      then returns [r]. *)
  Definition runs_during (s0 : sys) (t : nat) (rq : request V R) (a b : list op) : Prop :=
    still_running md5 BK s0 t rq a b /\
    depth (runs s0 (a ++ OBegin t rq :: b)) t = Datatypes.S (depth (runs s0 a) t).

  (** While it runs, that call itself calls the cached function [g]. *)
  Definition calls_during (s0 : sys) (t : nat) (rq : request V R) (a b : list op) (g : name) : Prop :=
    exists b1 rq' b2, b = b1 ++ OBegin t rq' :: b2 /\ rq_fun rq' = g /\
      depth (runs s0 (a ++ OBegin t rq :: b1)) t = Datatypes.S (depth (runs s0 a) t).

  (** ... and that call, or another call of [g] nested anywhere in the run, is not
      refused at once with an error. *)
  Definition answered_during (s0 : sys) (t : nat) (rq : request V R) (a b : list op) (g : name) : Prop :=
    exists b1 rq' b2, b = b1 ++ OBegin t rq' :: b2 /\ rq_fun rq' = g /\
      forall x, snd (step (runs s0 (a ++ OBegin t rq :: b1)) (OBegin t rq')) <> RErr x.

  (** If a run called the cached function [g] and [g] was changed since, then the
      same call does not return the stored value.  [ok] restricts the histories
      considered; the function of [rq] is not called in [c]. *)
  Definition nested_change_detected
      (ok : sys -> nat -> request V R -> list op -> list op -> list op -> name -> Prop) : Prop :=
    forall (s0 : sys) t rq a b r c g t',
      fresh db0 s0 -> ok s0 t rq a b c g ->
      runs_during s0 t rq a b ->
      calls_during s0 t rq a b g ->
      (forall t1 rq1, OBegin t1 rq1 ∈ c -> rq_fun rq1 <> rq_fun rq) ->
      let s := runs s0 (a ++ OBegin t rq :: b ++ OEnd t r :: c) in
      e_fun (s_env s) !! g <> e_fun (s_env (runs s0 a)) !! g ->
      ~ hits s t' rq.

  Definition on_thread (t : nat) (o : op) : Prop :=
    match o with
    | OBegin t' _ | OAddExt t' _ _ _ | OEnd t' _ | ORaise t' => t' = t
    | _ => True
    end.
  Definition no_raise (o : op) : Prop := match o with ORaise _ => False | _ => True end.
  Definition no_begin (o : op) : Prop := match o with OBegin _ _ => False | _ => True end.
  Definition not_called (fn : name) (os : list op) : Prop :=
    forall t rq, OBegin t rq ∈ os -> rq_fun rq <> fn.

  (** A call that returns without running reports only source files that exist. *)
  Definition sources_exist : Prop :=
    forall (s0 : sys) os t rq r srcs dsts,
      fresh db0 s0 ->
      let s := runs s0 os in
      snd (step s (OBegin t rq)) = RHit r srcs dsts ->
      forall f, f ∈ srcs -> is_Some (e_fs (s_env s) !! f).

  (** A file system that stamps files with the current time cut to a multiple
      of [res], and a clock that never runs backwards. *)
  Definition stamped_op (res : Z) (s : sys) (o : op) : Prop :=
    match o with
    | OWrite _ _ m => m = (e_now (s_env s) / res * res)%Z
    | OTick dt => (0 <= dt)%Z
    | _ => True
    end.
  Fixpoint stamped (res : Z) (s : sys) (os : list op) : Prop :=
    match os with
    | [] => True
    | o :: os' => stamped_op res s o /\ stamped res (fst (step s o)) os'
    end.

  (** C02 for such a file system. *)
  Definition mtime_shortcut_sound (res : Z) : Prop :=
    forall (s0 : sys) a t rq b r c t',
      fresh db0 s0 -> e_fs (s_env s0) = ∅ ->
      stamped res s0 (a ++ OBegin t rq :: b ++ OEnd t r :: c) ->
      runs_during s0 t rq a b ->
      (forall t1 rq1, OBegin t1 rq1 ∈ c -> rq_fun rq1 <> rq_fun rq) ->
      let s := runs s0 (a ++ OBegin t rq :: b ++ OEnd t r :: c) in
      (exists f, f ∈ rq_srcs rq /\ digest_at md5 (s_env s) f <> digest_at md5 (s_env (runs s0 a)) f) ->
      ~ hits s t' rq.

  (** [looked_at veq s0 a o f]: the operation [o], performed after the history [a],
      takes the modification time of [f].  A call looks at its declared sources and at
      the external sources an earlier run with equal arguments registered; the return
      of a function at the external sources registered for it. *)
  Definition looked_at (veq : V -> V -> bool) (s0 : sys) (a : list op) (o : op) (f : name) : Prop :=
    match o with
    | OBegin _ rq =>
        f ∈ rq_srcs rq \/
        exists ru, ran md5 BK s0 a ru /\ rq_fun (ru_req ru) = rq_fun rq /\
          veq (rq_bound rq) (rq_bound (ru_req ru)) = true /\ f ∈ ru_xsrcs ru
    | OEnd t _ => exists fr frs, thread (runs s0 a) t = fr :: frs /\ f ∈ fr_xsrcs fr
    | _ => False
    end.

  (** A file that is written after it was looked at gets a modification time other
      than the one it had then, or the content it had then. *)
  Definition rewrites_show (veq : V -> V -> bool) (s0 : sys) (os : list op) : Prop :=
    forall a o b f c m c' rest, os = a ++ o :: b ++ OWrite f c m :: rest ->
      looked_at veq s0 a o f -> e_fs (s_env (runs s0 a)) !! f = Some (m, c') -> c = c'.

  (** Files are looked at only when their last modification is at least [res] ago. *)
  Definition settled (veq : V -> V -> bool) (res : Z) (s0 : sys) (os : list op) : Prop :=
    forall a o b f m c, os = a ++ o :: b -> looked_at veq s0 a o f ->
      e_fs (s_env (runs s0 a)) !! f = Some (m, c) -> (m + res <= e_now (s_env (runs s0 a)))%Z.

  (** Sources of running calls are left alone, functions are deleted only when nothing runs. *)
  Definition careful (s0 : sys) (os : list op) : Prop :=
    forall a o b, os = a ++ o :: b -> well_behaved (runs s0 a) o.

  (** A call that reported an error, repeated at once, is not served from the database. *)
  Definition failed_not_served : Prop :=
    forall (s0 : sys) a t rq b r x t',
      fresh db0 s0 -> (forall rq1 t1, OBegin t1 rq1 ∈ a -> rq_fun rq1 <> rq_fun rq) ->
      runs_during s0 t rq a b ->
      let s := runs s0 (a ++ OBegin t rq :: b) in
      snd (step s (OEnd t r)) = RErr x ->
      ~ hits (fst (step s (OEnd t r))) t' rq.

  (** Returning from a cached function never raises an internal error. *)
  Definition internal (x : exn) : bool :=
    match x with IndexErr | IntegrityErr => true | _ => false end.
  Definition no_internal_error (ok : list op -> Prop) : Prop :=
    forall (s0 : sys) os t r x,
      fresh db0 s0 -> ok os ->
      snd (step (runs s0 os) (OEnd t r)) = RErr x -> internal x = false.

  (** A call that found an outdated version of its function in the database runs
      alone: no other call of that function is running. *)
  Definition changes_alone (s : sys) : Prop :=
    forall t i fr t' j fr', thread s t !! i = Some fr -> thread s t' !! j = Some fr' ->
      rq_fun (fr_req fr) = rq_fun (fr_req fr') ->
      pr_fun_dirty (fr_prep fr) = true -> is_Some (pr_fun_id (fr_prep fr)) -> t = t' /\ i = j.
  (** ... at all times, and functions are deleted only while nothing runs. *)
  Definition orderly (s0 : sys) (os : list op) : Prop :=
    (forall a b, os = a ++ b -> changes_alone (runs s0 a)) /\
    (forall a f b, os = a ++ ODelFun f :: b -> quiescent (runs s0 a)).

  (** Deciding whether a call is up to date does not exhaust the recursion limit. *)
  Definition validation_answers (limit : nat) : Prop :=
    forall (s0 : sys) os t rq,
      fresh db0 s0 -> e_limit (s_env s0) = limit ->
      snd (step (runs s0 os) (OBegin t rq)) <> RErr RecursionErr.

  (** Functions call only themselves or functions of lower rank. *)
  Definition calls_descend (rank : name -> nat) (s0 : sys) (os : list op) : Prop :=
    forall a t rq b fr frs, os = a ++ OBegin t rq :: b -> thread (runs s0 a) t = fr :: frs ->
      rq_fun rq = rq_fun (fr_req fr) \/ rank (rq_fun rq) < rank (rq_fun (fr_req fr)).
  (** Functions call only functions of lower rank. *)
  Definition calls_below (rank : name -> nat) (s0 : sys) (os : list op) : Prop :=
    forall a t rq b fr frs, os = a ++ OBegin t rq :: b -> thread (runs s0 a) t = fr :: frs ->
      rank (rq_fun rq) < rank (rq_fun (fr_req fr)).

  (** The operation ends with an exception in the thread. *)
  Definition fails (s : sys) (o : op) : bool :=
    match o, snd (step s o) with
    | ORaise _, _ | _, RErr _ => true
    | _, _ => false
    end.
  (** After [os], an exception is on its way through the cached functions thread [t] is inside of. *)
  Fixpoint unwinding (t : nat) (raised : bool) (s : sys) (os : list op) : bool :=
    match os with
    | [] => raised
    | o :: os' =>
        let s' := fst (step s o) in
        unwinding t (negb (Nat.eqb (depth s' t) 0) && (raised || fails s o)) s' os'
    end.
  (** No cached function catches an exception: while one is on its way no cached function
      is called and none returns. *)
  Definition uncaught (t : nat) (s0 : sys) (os : list op) : Prop :=
    forall a o b, os = a ++ o :: b -> unwinding t false s0 a = true ->
      match o with OBegin _ _ | OEnd _ _ => False | _ => True end.

  (** After a call of [fn], nothing that matters for [fn] is deleted from the database, and the process is
      only restarted with its data saved and with the same functions up to the rank of [fn]. *)
  Fixpoint undisturbed (rank : name -> nat) (fn : name) (funs : gmap name digest) (saved : bool)
      (os : list op) : Prop :=
    match os with
    | [] => True
    | o :: os' =>
        match o with
        | ODelFun g => rank fn < rank g
        | ORestart funs' => saved = true /\ forall g, rank g <= rank fn -> funs' !! g = funs !! g
        | _ => True
        end /\
        undisturbed rank fn funs (match o with OSave => true | _ => saved end) os'
    end.
End Claims.

Section Noop.
  Context {V R : Type} (md5 : content -> digest).
  Context {S FunId CallId FileId : Type}.
  Context (BK : backend V R S FunId CallId FileId) (db0 : S).
  Notation sys := (sys V R S FunId CallId FileId).
  Notation op := (op V R).
  Notation step := (step md5 BK).
  Notation runs := (runs md5 BK).

  (** No file changes, the same functions. *)
  Definition same_surroundings (e e' : env) : Prop :=
    e_fs e' = e_fs e /\ e_fun e' = e_fun e /\ e_limit e' = e_limit e.

  (** A completed call whose surroundings did not change is served from the database. *)
  Definition nothing_changed_nothing_runs : Prop :=
    forall (s0 : sys) a t rq b r c srcs dsts t',
      fresh db0 s0 -> runs_during md5 BK s0 t rq a b ->
      let s1 := runs s0 (a ++ OBegin t rq :: b) in
      let s2 := runs s0 (a ++ OBegin t rq :: b ++ OEnd t r :: c) in
      snd (step s1 (OEnd t r)) = RDone r srcs dsts ->
      Forall (on_thread t) c -> Forall no_begin c -> Forall no_raise c ->
      (forall f, f ∈ dsts -> is_Some (e_fs (s_env s2) !! f)) ->
      same_surroundings (s_env (runs s0 a)) (s_env s2) ->
      hits md5 BK s2 t' rq.
End Noop.
