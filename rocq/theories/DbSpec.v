(** Vocabulary in which the properties of cached calls are stated.  Nothing
    here refers to the tables of a backend. *)
From stdpp Require Import base list strings gmap.
From Coq Require Import ZArith.
From Verif Require Import PyMonad DbModel.

Section Spec.
  Context {V R : Type} (md5 : content -> digest).
  Context {S FunId CallId FileId : Type}.
  Notation sys := (sys V R S FunId CallId FileId).
  Notation op := (op V R).

  (** The digest of the content a file has in an environment. *)
  Definition digest_at (e : env) (f : name) : option digest :=
    (fun mc => md5 (snd mc)) <$> e_fs e !! f.

  (** Modification times identify contents: [F f m] is the only content file
      [f] ever has with modification time [m]. *)
  Definition fs_faithful (F : name -> Z -> content) (e : env) : Prop :=
    forall f m c, e_fs e !! f = Some (m, c) -> c = F f m.

  Definition op_faithful (F : name -> Z -> content) (o : op) : Prop :=
    match o with
    | OWrite f c m => c = F f m
    | _ => True
    end.

  (** No thread is inside a cached function. *)
  Definition quiescent (s : sys) : Prop :=
    forall t, thread s t = [].

  (** A file is in use while a running call declared it as a source. *)
  Definition in_use (s : sys) (f : name) : Prop :=
    exists t fr, fr ∈ thread s t /\ f ∈ rq_srcs (fr_req fr).

  (** What the surroundings of the database promise: sources of running calls
      are left alone, and functions are deleted from the database only
      while nothing runs (as fbuild.main does, main.py:84-94). *)
  Definition well_behaved (s : sys) (o : op) : Prop :=
    match o with
    | OWrite f _ _ | ORemove f => ~ in_use s f
    | ODelFun _ => quiescent s
    | _ => True
    end.

  Fixpoint history_ok (md5 : content -> digest) (BK : backend V R S FunId CallId FileId)
      (F : name -> Z -> content) (s : sys) (os : list op) : Prop :=
    match os with
    | [] => True
    | o :: os' => op_faithful F o /\ well_behaved s o /\
                  history_ok md5 BK F (fst (step md5 BK s o)) os'
    end.

  (** A fresh process on a fresh database [db]. *)
  Definition fresh (db : S) (s : sys) : Prop :=
    s_db s = db /\ s_callstack s = [] /\ s_threads s = ∅ /\ s_log s = [].
  (** How many cached functions thread [t] is inside of. *)
  Definition depth (s : sys) (t : nat) : nat := length (thread s t).

  (** In the history [a ++ OBegin t rq :: b] from [s0] the call [rq] starts
      running and is still running at the end. *)
  Definition still_running (BK : backend V R S FunId CallId FileId) (s0 : sys)
      (t : nat) (rq : request V R) (a b : list op) : Prop :=
    snd (step md5 BK (runs md5 BK s0 a) (OBegin t rq)) = RRun /\
    forall b1 b2, b = b1 ++ b2 ->
      depth (runs md5 BK s0 a) t < depth (runs md5 BK s0 (a ++ OBegin t rq :: b1)) t.

  (** During [b] some call of add_external_dependencies_to_call made in the
      same thread, by the function itself or by a cached function it calls,
      names [f] ([pick] selects srcs or dsts).  Arguments that are one-shot
      iterators count only for the innermost call. *)
  Definition registered (BK : backend V R S FunId CallId FileId) (s0 : sys)
      (pick : list name -> list name -> list name)
      (t : nat) (rq : request V R) (a b : list op) (f : name) : Prop :=
    exists b1 xs xd oneshot b2, b = b1 ++ OAddExt t xs xd oneshot :: b2 /\ f ∈ pick xs xd /\
      (oneshot = false \/
       depth (runs md5 BK s0 (a ++ OBegin t rq :: b1)) t = Datatypes.S (depth (runs md5 BK s0 a) t)).

  (** [ru] describes a run that took place in the history [os] from [s0]: the
      call started running, later its own function returned [ru_result]. *)
  Definition ran (BK : backend V R S FunId CallId FileId) (s0 : sys) (os : list op)
      (ru : run V R) : Prop :=
    exists t a b c, let rq := ru_req ru in
      os = a ++ OBegin t rq :: b ++ OEnd t (ru_result ru) :: c /\
      still_running BK s0 t rq a b /\
      depth (runs md5 BK s0 (a ++ OBegin t rq :: b)) t = Datatypes.S (depth (runs md5 BK s0 a) t) /\
      ru_begin ru = s_env (runs md5 BK s0 a) /\
      ru_end ru = s_env (runs md5 BK s0 (a ++ OBegin t rq :: b)) /\
      e_fun (ru_begin ru) !! rq_fun rq = Some (ru_digest ru) /\
      (forall f, f ∈ ru_xsrcs ru <-> registered BK s0 (fun xs _ => xs) t rq a b f) /\
      (forall f, f ∈ ru_xdsts ru <-> registered BK s0 (fun _ xd => xd) t rq a b f) /\
      (ru_recorded ru = true <->
       exists srcs dsts, snd (step md5 BK (runs md5 BK s0 (a ++ OBegin t rq :: b))
                               (OEnd t (ru_result ru))) = RDone (ru_result ru) srcs dsts).
  (** Operations a function body of thread [t] may perform when it calls no
      other cached function. *)
  Definition body_op (t : nat) (o : op) : Prop :=
    match o with
    | OAddExt t' _ _ _ => t' = t
    | OWrite _ _ _ | ORemove _ | OTick _ => True
    | _ => False
    end.

  (** Time passes, files are written, the database is saved and the build
      script is started again with the same functions; a restart comes after a save. *)
  Fixpoint quiet (funs : gmap name digest) (saved : bool) (os : list op) : Prop :=
    match os with
    | [] => True
    | OTick _ :: os' | OWrite _ _ _ :: os' | ORemove _ :: os' => quiet funs saved os'
    | OSave :: os' => quiet funs true os'
    | ORestart fs :: os' => saved = true /\ fs = funs /\ quiet funs true os'
    | _ => False
    end.
End Spec.

(** The files a call declares as sources are determined by the function and
    its bound arguments, and equal arguments declare the same files. *)
Definition declared_by {V R} (veq : V -> V -> bool) (D : name -> V -> list name)
    (os : list (op V R)) : Prop :=
  (forall t rq, OBegin t rq ∈ os -> rq_srcs rq = D (rq_fun rq) (rq_bound rq)) /\
  (forall fn b b', veq b b' = true -> D fn b = D fn b').
