(** Model of the cached-call machinery that is independent of the storage
    backend: lib/fbuild/db/backend.py (class Backend) and
    lib/fbuild/db/database.py (class Database).

    The file system, the clock and the digests of the functions of the running
    build script form the environment [env].  A *request* stands for a call of
    a cached function after argument binding.  Function bodies are not modelled:
    what a body does (nested calls, registering external dependencies, editing
    files, returning, raising) is given by the sequence of operations, so that
    quantifying over operation lists quantifies over all bodies and schedules. *)
From stdpp Require Import base list strings gmap.
From Coq Require Import ZArith.
From Verif Require Import PyMonad.

(** Environment seen by the database process.
    Simplification: a file is a pair (mtime, content); directories, symbolic
    links and permissions are not modelled; times are integers in microseconds. *)
Record env := Env {
  e_fs : gmap name (Z * content);   (* the file system *)
  e_now : Z;                        (* time.time() *)
  e_fun : gmap name digest;         (* Database._FUN_DIGESTS, database.py:22,223-234 *)
  e_limit : nat                     (* recursion depth left before RecursionError *)
}.

(** 1.0 second, backend.py:291 *)
Definition one_second : Z := 1000000.

(** [Path(f).exists()] *)
Definition exists_file (e : env) (f : name) : bool :=
  match e_fs e !! f with Some _ => true | None => false end.

Section Generic.
  Context {V R : Type}.           (* bound arguments, results *)
  Context (md5 : content -> digest).  (* Path.digest, path.py:295-304 *)
  Context {S FunId CallId FileId : Type}.

  (** The abstract methods of class Backend, backend.py:146-330. *)
  Record core := Core {
    find_function : name -> M S (option FunId * option digest * list name);
    save_function : option FunId -> name -> digest -> list name -> M S FunId;
    delete_function : name -> M S bool;
    find_call : FunId -> V -> M S (bool * option CallId * option R);
    save_call : option CallId -> FunId -> V -> R -> M S CallId;
    find_call_file : CallId -> FileId -> M S (option digest);
    save_call_file : CallId -> FileId -> digest -> M S unit;
    find_external_srcs : CallId -> M S (list name);
    find_external_dsts : CallId -> M S (list name);
    find_file : name -> M S (option FileId * option Z * option digest);
    save_file : option FileId -> name -> Z -> digest -> M S FileId;
    delete_file : name -> M S bool
  }.

  Context (B : core).

  (** Backend.add_file, backend.py:273-314. Returns (dirty, file id, digest);
      the mtime component of the Python result is never used by callers. *)
  Definition add_file (e : env) (f : name) : M S (bool * FileId * digest) :=
    let* (fid, old_mtime, old_digest) := find_file B f in
    match e_fs e !! f with
    | None => raise OSErr                                   (* line 285 *)
    | Some (mtime, c) =>
        let slow :=
          let d := md5 c in                                  (* line 295 *)
          if match old_digest with Some o => String.eqb d o | None => false end
          then
            let* fid' := save_file B fid f mtime d in        (* line 299 *)
            ret (false, match fid with Some i => i | None => fid' end, d)
          else
            let* _ := match fid with
                      | Some _ => delete_file B f             (* line 305 *)
                      | None => ret true
                      end in
            let* fid' := save_file B None f mtime d in       (* line 311 *)
            ret (true, fid', d)
        in
        match old_mtime, old_digest, fid with
        | Some om, Some od, Some i =>
            if (Z.eqb mtime om && Z.ltb one_second (e_now e - mtime))%bool
            then ret (false, i, od)                          (* lines 291-292 *)
            else slow
        | _, _, _ => slow
        end
    end.

  (** Backend.check_call_file, backend.py:194-216. *)
  Definition check_call_file (e : env) (cid : option CallId) (f : name)
    : M S (bool * FileId * digest) :=
    let* (dirty, fid, d) := add_file e f in
    match cid with
    | None => ret (true, fid, d)
    | Some c =>
        let* old := find_call_file B c fid in
        match old with
        | Some o => if String.eqb d o then ret (dirty, fid, d) else ret (true, fid, d)
        | None => ret (true, fid, d)
        end
    end.

  (** Backend.check_call_files, backend.py:174-183 (dirty files only).
      The Python set of file names is a list here. *)
  Fixpoint check_call_files (e : env) (cid : option CallId) (fs : list name)
    : M S (list (FileId * name * digest)) :=
    match fs with
    | [] => ret []
    | f :: fs' =>
        let* (d, fid, dg) := check_call_file e cid f in
        let* rest := check_call_files e cid fs' in
        ret (if d then (fid, f, dg) :: rest else rest)
    end.

  (** Backend.save_call_files, backend.py:186-190. *)
  Fixpoint save_call_files (cid : CallId) (ds : list (FileId * name * digest)) : M S unit :=
    match ds with
    | [] => ret tt
    | (fid, _, dg) :: ds' =>
        let* _ := save_call_file B cid fid dg in
        save_call_files cid ds'
    end.

  (** The loop of Backend.check_external_files, backend.py:244-252: an OSError
      raised for a file is swallowed. *)
  Fixpoint check_external_loop (e : env) (cid : CallId) (fs : list name)
    : M S (list (FileId * name * digest)) :=
    match fs with
    | [] => ret []
    | f :: fs' =>
        let* r := try_os (check_call_file e (Some cid) f) in
        let* rest := check_external_loop e cid fs' in
        ret (match r with
             | Some (true, fid, dg) => (fid, f, dg) :: rest
             | _ => rest
             end)
    end.

  (** Backend.check_external_files, backend.py:231-254. *)
  Definition check_external_files (e : env) (cid : CallId)
    : M S (list name * list name * list (FileId * name * digest)) :=
    let* srcs := find_external_srcs B cid in
    let* dsts := find_external_dsts B cid in
    let* ds := check_external_loop e cid srcs in
    ret (srcs, dsts, ds).

  (** Backend.check_function, backend.py:119-143.  [limit] is the remaining
      recursion depth.  The recursive call does not pass [already_checked], so
      only the function itself is excluded from its dependents.  Python iterates
      over a set; the model iterates in list order. *)
  Fixpoint check_function (limit : nat) (e : env) (fn : name) {struct limit}
    : M S (bool * option FunId) :=
    match limit with
    | O => raise RecursionErr
    | Datatypes.S n =>
        match e_fun e !! fn with
        | None => raise KeyErr                               (* line 130 *)
        | Some d =>
            let* (fid, old, deps) := find_function B fn in
            let dirty := match old with
                         | None => true
                         | Some o => negb (String.eqb d o)
                         end in
            if dirty then ret (true, fid)
            else
              let fix check_deps ds :=
                match ds with
                | [] => ret false
                | dep :: ds' =>
                    let* r := check_function n e dep in
                    if fst r then ret true else check_deps ds'
                end in
              let* dd := check_deps (filter (fun x => x <> fn) deps) in
              ret (dd, fid)
        end
    end.

  (** Result of Backend.prepare, backend.py:74-83. *)
  Record prepared := Prepared {
    pr_fun_dirty : bool;
    pr_fun_id : option FunId;
    pr_call_dirty : bool;
    pr_call_id : option CallId;
    pr_old_result : option R;
    pr_files : list (FileId * name * digest);
    pr_xsrcs : list name;
    pr_xdsts : list name;
    pr_xfiles : list (FileId * name * digest)
  }.

  (** Backend.prepare, backend.py:47-83. *)
  Definition prepare (e : env) (fn : name) (bound : V) (srcs : list name) : M S prepared :=
    let* (fun_dirty, fun_id) := check_function (e_limit e) e fn in
    let* (call_dirty, call_id, old) :=
      match fun_dirty, fun_id with
      | false, Some fid => find_call B fid bound
      | _, _ => ret (true, None, None)
      end in
    let* files := check_call_files e call_id srcs in
    let* (xs, xd, xf) :=
      match call_id with
      | None => ret ([], [], [])
      | Some c => check_external_files e c
      end in
    ret (Prepared fun_dirty fun_id call_dirty call_id old files xs xd xf).

End Generic.

Arguments core V R S FunId CallId FileId : clear implicits.
Arguments prepared R FunId CallId FileId : clear implicits.

(** A complete backend: the primitive methods, save_external_files (overridden
    by each backend), the override of [cache] (a transaction for SQLite) and
    what saving, and restarting the process, do to the stored data. *)
Record backend (V R S FunId CallId FileId : Type) := Backend {
  b_core : core V R S FunId CallId FileId;
  b_save_external : env -> CallId -> list name -> list name -> M S unit;
  b_transaction : M S unit -> M S unit;
  b_save : S -> S;
  b_restart : S -> S
}.
Arguments Backend {V R S FunId CallId FileId}.
Arguments b_core {V R S FunId CallId FileId}.
Arguments b_save_external {V R S FunId CallId FileId}.
Arguments b_transaction {V R S FunId CallId FileId}.
Arguments b_save {V R S FunId CallId FileId}.
Arguments b_restart {V R S FunId CallId FileId}.

Section System.
  Context {V R : Type}.
  Context (md5 : content -> digest).
  Context {S FunId CallId FileId : Type}.
  Context (BK : backend V R S FunId CallId FileId).
  Let B := b_core BK.

  (** Backend.cache, backend.py:85-115 (sqlite_backend.py:135-137 wraps it in a
      transaction). *)
  Definition cache (e : env) (fun_dirty : bool) (fun_id : option FunId) (fn : name)
      (fd : digest) (deps : list name) (call_id : option CallId) (bound : V) (r : R)
      (files : list (FileId * name * digest)) (xsrcs xdsts : list name) : M S unit :=
    b_transaction BK (
      let* fid :=
        if fun_dirty then
          let* _ := match fun_id with
                    | Some _ => delete_function B fn
                    | None => ret true
                    end in
          let* i := save_function B None fn fd deps in
          ret (Some i)
        else ret fun_id in
      match fid with
      | None => raise KeyErr   (* unreachable: a clean function has an id *)
      | Some i =>
          let* cid := save_call B call_id i bound r in
          let* _ := save_call_files B cid files in
          b_save_external BK e cid xsrcs xdsts
      end).

  (** A call of a cached function after _find_function_name and
      _find_call_filenames (database.py:83-109): name, bound arguments, files
      given through SRC and DST annotations, and the destination files named by
      a result when the return annotation is a DST (else none). *)
  Record request := Request {
    rq_fun : name;
    rq_bound : V;
    rq_srcs : list name;
    rq_dsts : list name;
    rq_ret : R -> list name
  }.

  (** The local variables of an activation of Database.call whose function is
      running (database.py:176-184). [fr_begin] is ghost: the environment when
      the call was prepared. *)
  Record frame := Frame {
    fr_req : request;
    fr_digest : digest;
    fr_prep : prepared R FunId CallId FileId;
    fr_xsrcs : list name;
    fr_xdsts : list name;
    fr_begin : env
  }.

  (** Ghost record of a run of a cached function whose body returned. *)
  Record run := Run {
    ru_req : request;
    ru_digest : digest;      (* digest of the function that ran *)
    ru_result : R;
    ru_begin : env;          (* environment when the call was prepared *)
    ru_end : env;            (* environment when the body returned *)
    ru_xsrcs : list name;    (* external dependencies the body registered *)
    ru_xdsts : list name;
    ru_recorded : bool       (* recording the result did not raise *)
  }.

  Record sys := Sys {
    s_env : env;
    s_db : S;
    s_callstack : list (list name);       (* Database._callstack, innermost first *)
    s_threads : gmap nat (list frame);    (* frames of Database.call per thread, innermost first *)
    s_log : list run                      (* ghost *)
  }.

  Inductive op :=
    | OBegin (t : nat) (rq : request)     (* thread t calls a cached function *)
    | OAddExt (t : nat) (srcs dsts : list name) (oneshot : bool)
        (* add_external_dependencies_to_call in thread t; oneshot: the arguments are
           iterators, which the first update exhausts *)
    | OEnd (t : nat) (r : R)              (* innermost running function of t returns r *)
    | ORaise (t : nat)                    (* ... raises *)
    | OWrite (f : name) (c : content) (mtime : Z)
    | ORemove (f : name)
    | OTick (dt : Z)
    | OSave                               (* Database.close: write the database *)
    | ORestart (funs : gmap name digest)  (* the process ends (or dies) and a new one starts *)
    | ODelFun (f : name)                  (* Database.delete_function *)
    | ODelFile (f : name).                (* Database.delete_file *)

  Inductive out :=
    | RHit (r : R) (srcs dsts : list name)    (* returned without running *)
    | RRun                                    (* the function is now running *)
    | RDone (r : R) (srcs dsts : list name)   (* ran, recorded and returned *)
    | RErr (e : exn)                          (* an error is raised to the caller *)
    | RBool (b : bool)
    | RNone.

  Definition thread (s : sys) (t : nat) : list frame := default [] (s_threads s !! t).

  (** database.py:97-100 *)
  Definition note_callee (fn : name) (cs : list (list name)) : list (list name) :=
    match cs with
    | [] => []
    | top :: rest => (top ++ [fn]) :: rest
    end.

  (** Database.call up to the point where the function starts running,
      database.py:97-181. *)
  Definition begin_call (s : sys) (t : nat) (rq : request) : sys * out :=
    let e := s_env s in
    let cs := note_callee (rq_fun rq) (s_callstack s) in
    match e_fun e !! rq_fun rq with
    | None => (Sys e (s_db s) cs (s_threads s) (s_log s), RErr KeyErr)   (* line 103 *)
    | Some d =>
        match prepare md5 B e (rq_fun rq) (rq_bound rq) (rq_srcs rq) (s_db s) with
        | (inl x, db) => (Sys e db cs (s_threads s) (s_log s), RErr x)
        | (inr p, db) =>
            let fr := Frame rq d p [] [] e in
            let run := (Sys e db ([] :: cs) (<[t := fr :: thread s t]> (s_threads s)) (s_log s),
                        RRun) in
            match pr_fun_dirty p, pr_call_dirty p, pr_files p, pr_xfiles p, pr_old_result p with
            | false, false, [], [], Some r =>
                if forallb (exists_file e) (rq_ret rq r ++ rq_dsts rq ++ pr_xdsts p) then
                  (Sys e db cs (s_threads s) (s_log s),
                   RHit r (rq_srcs rq ++ pr_xsrcs p) (rq_dsts rq ++ pr_xdsts p ++ rq_ret rq r))
                else run
            | _, _, _, _, _ => run
            end
        end
    end.

  (** Database.call from the return of the function on, database.py:185-207. *)
  Definition end_call (s : sys) (t : nat) (r : R) : sys * out :=
    match thread s t with
    | [] => (s, RNone)
    | fr :: frs =>
        let e := s_env s in
        let rq := fr_req fr in
        let p := fr_prep fr in
        let ts := <[t := frs]> (s_threads s) in
        match s_callstack s with
        | [] => (Sys e (s_db s) [] ts (s_log s), RErr IndexErr)   (* line 185: pop from empty list *)
        | deps :: cs =>
            let lg ok := Run rq (fr_digest fr) r (fr_begin fr) e (fr_xsrcs fr) (fr_xdsts fr) ok
                         :: s_log s in
            match cache e (pr_fun_dirty p) (pr_fun_id p) (rq_fun rq) (fr_digest fr) deps
                    (pr_call_id p) (rq_bound rq) r (pr_files p)
                    (fr_xsrcs fr) (fr_xdsts fr) (s_db s) with
            | (inl x, db) => (Sys e db cs ts (lg false), RErr x)
            | (inr _, db) =>
                (Sys e db cs ts (lg true),
                 RDone r (rq_srcs rq ++ fr_xsrcs fr) (rq_dsts rq ++ fr_xdsts fr ++ rq_ret rq r))
            end
        end
    end.

  (** The function raises: the frame disappears; _callstack is not popped
      (database.py:184-185 has no try/finally). *)
  Definition raise_call (s : sys) (t : nat) : sys * out :=
    match thread s t with
    | [] => (s, RNone)
    | _ :: frs =>
        (Sys (s_env s) (s_db s) (s_callstack s) (<[t := frs]> (s_threads s)) (s_log s), RNone)
    end.

  Definition frame_add (srcs dsts : list name) (fr : frame) : frame :=
    Frame (fr_req fr) (fr_digest fr) (fr_prep fr)
          (srcs ++ fr_xsrcs fr) (dsts ++ fr_xdsts fr) (fr_begin fr).

  (** Database.add_external_dependencies_to_call, database.py:313-332: every
      activation of Database.call on the Python stack of the thread is updated,
      innermost first. *)
  Definition add_ext (s : sys) (t : nat) (srcs dsts : list name) (oneshot : bool) : sys :=
    let frs' := match thread s t with
                | [] => []
                | fr :: frs => frame_add srcs dsts fr ::
                               (if oneshot then frs else frame_add srcs dsts <$> frs)
                end in
    Sys (s_env s) (s_db s) (s_callstack s) (<[t := frs']> (s_threads s)) (s_log s).

  Definition with_env (s : sys) (e : env) : sys :=
    Sys e (s_db s) (s_callstack s) (s_threads s) (s_log s).

  Definition with_fs (e : env) (fs : gmap name (Z * content)) : env :=
    Env fs (e_now e) (e_fun e) (e_limit e).

  Definition step (s : sys) (o : op) : sys * out :=
    let e := s_env s in
    match o with
    | OBegin t rq => begin_call s t rq
    | OAddExt t srcs dsts g => (add_ext s t srcs dsts g, RNone)
    | OEnd t r => end_call s t r
    | ORaise t => raise_call s t
    | OWrite f c m => (with_env s (with_fs e (<[f := (m, c)]> (e_fs e))), RNone)
    | ORemove f => (with_env s (with_fs e (delete f (e_fs e))), RNone)
    | OTick dt => (with_env s (Env (e_fs e) (e_now e + dt) (e_fun e) (e_limit e)), RNone)
    | OSave => (Sys e (b_save BK (s_db s)) (s_callstack s) (s_threads s) (s_log s), RNone)
    | ORestart funs =>
        (Sys (Env (e_fs e) (e_now e) funs (e_limit e)) (b_restart BK (s_db s)) [] ∅ (s_log s),
         RNone)
    | ODelFun f =>
        match delete_function B f (s_db s) with
        | (inl x, db) => (Sys e db (s_callstack s) (s_threads s) (s_log s), RErr x)
        | (inr b, db) => (Sys e db (s_callstack s) (s_threads s) (s_log s), RBool b)
        end
    | ODelFile f =>
        match delete_file B f (s_db s) with
        | (inl x, db) => (Sys e db (s_callstack s) (s_threads s) (s_log s), RErr x)
        | (inr b, db) => (Sys e db (s_callstack s) (s_threads s) (s_log s), RBool b)
        end
    end.

  Fixpoint runs (s : sys) (os : list op) : sys :=
    match os with
    | [] => s
    | o :: os' => runs (fst (step s o)) os'
    end.

  (** Outputs of a history, in order. *)
  Fixpoint outs (s : sys) (os : list op) : list out :=
    match os with
    | [] => []
    | o :: os' => snd (step s o) :: outs (fst (step s o)) os'
    end.
End System.

Arguments request V R : clear implicits.
Arguments run V R : clear implicits.
Arguments frame V R FunId CallId FileId : clear implicits.
Arguments sys V R S FunId CallId FileId : clear implicits.
Arguments op V R : clear implicits.
Arguments out R : clear implicits.
