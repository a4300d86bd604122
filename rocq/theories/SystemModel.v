(** Model of lib/fbuild/sched.py with its threads: the worker threads (321-380), the ready
    queue they share (82), the controlling lock (92), threads outside the scheduler that
    start evaluations, evaluations started from inside tasks (228-257), interruptible
    sections (104-137) and shutdown (305-317).  Each evaluation is one of SchedModel. *)
From Coq Require Import List Bool Arith.
From Verif Require Import SchedModel.
Import ListNotations.

Notation eid := nat (only parsing).

(** What the call of _evaluate gives: how it ended and the tasks' results, or an exception
    that is not an Exception passing through from a task run meanwhile (248). *)
Inductive answer := AEnd (st : status) (out : task -> option outcome) | AFatal (e : exn).

(** What a task or a thread outside does next. *)
Inductive prog :=
  | Done (o : outcome)
  | Work (k : prog)                                                     (* anything not mentioned below *)
  | Spawn (n : nat) (deps : task -> list task) (body : task -> prog) (k : answer -> prog)   (* _evaluate *)
  | Enter (k : prog)                                                    (* with interruptible(): *)
  | Leave (k : prog)                                                    (* its end *)
  | Shutdown (k : prog).

(** The loop of _evaluate, 211-281. *)
Inductive stage :=
  | SPut (l : list task)                                  (* 218, 281: tasks still to be put on the ready queue *)
  | SLoop                                                 (* 238 *)
  | SRead (was : bool)                                    (* 244, inside interruptible *)
  | SAcq (was : bool) (got : option (option (eid * task)))   (* 243, leaving interruptible; None: the queue was empty *)
  | SNested                                               (* 248 *)
  | SDone                                                 (* 252 *)
  | SWait.                                                (* 257 *)
Inductive mode :=
  | MCode (p : prog)
  | MEval (e : eid) (k : answer -> prog) (st : stage)
  | MShut (puts : nat) (joins : list nat) (told : bool) (k : prog).     (* 309-314 *)

(** A task being run (None: the program of a thread outside), when it was started, the
    interruptible sections entered (126-131), and where it is. *)
Record frame := Fr { f_task : option (eid * task); f_time : nat; f_flags : list bool; f_mode : mode }.

(** 340-351 *)
Inductive pc :=
  | PTop                                (* 342 *)
  | PGet                                (* 344 *)
  | PLock (q : option (eid * task))     (* 345 *)
  | PStack                              (* inside run_one, or a thread outside *)
  | PUnlock (leave : bool)              (* the end of 345's block; leave: 347 or an exception *)
  | PExit.
Record thread := Th { t_worker : bool; t_finished : bool; t_pc : pc; t_stack : list frame }.

Record ev := Ev { v_n : nat; v_deps : task -> list task; v_body : task -> prog; v_est : est }.

Inductive happening := HStart (t : nat) (e : eid) (i : task) | HFinish (t : nat) (e : eid) (i : task) (o : outcome)
  | HProcess (t : nat) (e : eid) | HPut (t : nat) | HSpawn (t : nat) (e : eid) | HEnd (t : nat) (e : eid) | HCode (t : nat).

Record sys := Sys {
  s_threads : list thread;
  s_queue : list (option (eid * task));   (* the ready queue, last in first out; None: shut down *)
  s_lock : bool;
  s_evals : list ev;
  s_clock : nat;
  s_events : list happening               (* the latest first *)
}.

Fixpoint setnth {X} (l : list X) (k : nat) (x : X) : list X :=
  match l, k with
  | [], _ => []
  | _ :: l', O => x :: l'
  | y :: l', S k' => y :: setnth l' k' x
  end.

Definition set_est (v : ev) (s : est) : ev := Ev (v_n v) (v_deps v) (v_body v) s.
Definition eval_step (evs : list ev) (e : eid) (l : label) : option (list ev) :=
  match nth_error evs e with
  | Some v => match step (v_n v) (v_deps v) (v_est v) l with
              | Some s' => Some (setnth evs e (set_est v s'))
              | None => None
              end
  | None => None
  end.
Definition ready_of (evs : list ev) (e : eid) : list task :=
  match nth_error evs e with Some v => e_ready (v_est v) | None => [] end.

(** The thread [t] continues as [th], with the lock [lk]; [h] is what happened. *)
Definition go (s : sys) (t : nat) (th : thread) (lk : bool) (h : list happening) : sys :=
  Sys (setnth (s_threads s) t th) (s_queue s) lk (s_evals s) (s_clock s) (h ++ s_events s).
Definition locked (s : sys) (lk : bool) : sys := Sys (s_threads s) (s_queue s) lk (s_evals s) (s_clock s) (s_events s).
Definition at_pc (th : thread) (p : pc) : thread := Th (t_worker th) (t_finished th) p (t_stack th).
Definition with_stack (th : thread) (l : list frame) : thread := Th (t_worker th) (t_finished th) (t_pc th) l.
Definition in_mode (fr : frame) (m : mode) : frame := Fr (f_task fr) (f_time fr) (f_flags fr) m.
Definition with_flags (fr : frame) (l : list bool) (m : mode) : frame := Fr (f_task fr) (f_time fr) l m.

(** 360-376, up to the call: task [i] of evaluation [e] starts above [below]. *)
Definition start_task (s : sys) (t : nat) (th : thread) (below : list frame) (e : eid) (i : task) : option sys :=
  match nth_error (s_evals s) e, eval_step (s_evals s) e (LStart i) with
  | Some v, Some evs =>
      Some (Sys (setnth (s_threads s) t
                   (Th (t_worker th) (t_finished th) PStack
                       (Fr (Some (e, i)) (s_clock s) [] (MCode (v_body v i)) :: below)))
                (s_queue s) (s_lock s) evs (S (s_clock s)) (HStart t e i :: s_events s))
  | _, _ => None
  end.

(** 373-378: the function has ended with [o]. *)
Definition finish_task (s : sys) (t : nat) (th : thread) (below : list frame) (e : eid) (i : task) (o : outcome) : option sys :=
  match eval_step (s_evals s) e (LFinish i o) with
  | None => None
  | Some evs =>
      let fatal := match o with OFatal x => Some x | _ => None end in
      let th' :=
        match below with
        | [] => Th (t_worker th) (t_finished th) (PUnlock (match fatal with Some _ => true | None => false end)) []
        | fr :: below' =>
            match f_mode fr with
            | MEval e' k SNested =>
                Th (t_worker th) (t_finished th) PStack
                   (in_mode fr (match fatal with Some x => MCode (k (AFatal x)) | None => MEval e' k SDone end) :: below')
            | _ => Th (t_worker th) (t_finished th) PStack below
            end
        end in
      Some (Sys (setnth (s_threads s) t th') (s_queue s) (s_lock s) evs (s_clock s) (HFinish t e i o :: s_events s))
  end.

(** 197-218: a new evaluation; its first tasks are put on the queue one at a time. *)
Definition spawn (s : sys) (t : nat) (th : thread) (fr : frame) (below : list frame)
    (n : nat) (deps : task -> list task) (body : task -> prog) (k : answer -> prog) : sys :=
  let e := length (s_evals s) in
  let e0 := init n deps in
  Sys (setnth (s_threads s) t (with_stack th (in_mode fr (MEval e k (SPut (e_ready e0))) :: below)))
      (s_queue s) (s_lock s) (s_evals s ++ [Ev n deps body e0]) (s_clock s) (HSpawn t e :: s_events s).

(** 259-281 *)
Definition process_done (s : sys) (t : nat) (th : thread) (fr : frame) (below : list frame) (e : eid) (k : answer -> prog) : option sys :=
  match eval_step (s_evals s) e LProcess with
  | None => None
  | Some evs =>
      Some (Sys (setnth (s_threads s) t
                   (with_stack th (in_mode fr (MEval e k (SPut (skipn (length (ready_of (s_evals s) e)) (ready_of evs e)))) :: below)))
                (s_queue s) (s_lock s) evs (s_clock s) (HProcess t e :: s_events s))
  end.

Definition is_exit (s : sys) (j : nat) : bool :=
  match nth_error (s_threads s) j with
  | Some th => match t_pc th with PExit => true | _ => false end
  | None => true
  end.
Definition tell (l : list thread) (j : nat) : list thread :=
  match nth_error l j with
  | Some th => setnth l j (Th (t_worker th) true (t_pc th) (t_stack th))
  | None => l
  end.
Definition workers (s : sys) : list nat :=
  filter (fun j => match nth_error (s_threads s) j with Some th => t_worker th | None => false end) (seq 0 (length (s_threads s))).

(** One step of the topmost frame. *)
Definition frame_step (s : sys) (t : nat) (th : thread) (fr : frame) (below : list frame) : option sys :=
  let top m := with_stack th (in_mode fr m :: below) in
  match f_mode fr with
  | MCode (Work k) => Some (go s t (top (MCode k)) (s_lock s) [HCode t])
  | MCode (Done o) =>
      match f_task fr with
      | Some (e, i) => finish_task s t th below e i o
      | None => Some (go s t (Th (t_worker th) (t_finished th) PExit []) (s_lock s) [HCode t])
      end
  | MCode (Spawn n deps body k) => Some (spawn s t th fr below n deps body k)
  | MCode (Enter k) =>   (* 126-131: releasing a lock that is not locked is a RuntimeError *)
      Some (go s t (with_stack th (with_flags fr (s_lock s :: f_flags fr) (MCode k) :: below)) false [HCode t])
  | MCode (Leave k) =>   (* 135-137 *)
      match f_flags fr with
      | [] => Some (go s t (top (MCode k)) (s_lock s) [HCode t])
      | false :: fl => Some (go s t (with_stack th (with_flags fr fl (MCode k) :: below)) (s_lock s) [HCode t])
      | true :: fl => if s_lock s then None else Some (go s t (with_stack th (with_flags fr fl (MCode k) :: below)) true [HCode t])
      end
  | MCode (Shutdown k) =>
      if t_worker th then None   (* a task does not shut down its scheduler *)
      else Some (go s t (top (MShut (length (workers s)) (workers s) false k)) (s_lock s) [HCode t])
  | MShut (S p) js b k =>   (* 309-310 *)
      Some (Sys (setnth (s_threads s) t (top (MShut p js b k))) (None :: s_queue s) (s_lock s) (s_evals s) (s_clock s) (HPut t :: s_events s))
  | MShut O (j :: js) false k =>   (* 313 *)
      Some (Sys (tell (setnth (s_threads s) t (top (MShut O (j :: js) true k))) j) (s_queue s) (s_lock s) (s_evals s) (s_clock s)
                (HCode t :: s_events s))
  | MShut O (j :: js) true k =>   (* 314 *)
      if is_exit s j then Some (go s t (top (MShut O js false k)) (s_lock s) [HCode t]) else None
  | MShut O [] _ k => Some (go s t (top (MCode k)) (s_lock s) [HCode t])
  | MEval e k (SPut (i :: l)) =>
      Some (Sys (setnth (s_threads s) t (top (MEval e k (SPut l)))) (Some (e, i) :: s_queue s) (s_lock s) (s_evals s) (s_clock s)
                (HPut t :: s_events s))
  | MEval e k (SPut []) => Some (go s t (top (MEval e k SLoop)) (s_lock s) [])
  | MEval e k SLoop =>
      match nth_error (s_evals s) e with
      | None => None
      | Some v =>
          match e_status (v_est v) with
          | Running => if t_worker th then Some (go s t (top (MEval e k (SRead (s_lock s)))) false [])
                       else Some (go s t (top (MEval e k SWait)) (s_lock s) [])
          | st => Some (go s t (top (MCode (k (AEnd st (e_out (v_est v)))))) (s_lock s) [HEnd t e])
          end
      end
  | MEval e k (SRead was) =>
      match s_queue s with
      | [] => Some (go s t (top (MEval e k (SAcq was None))) (s_lock s) [])
      | q :: qs => Some (Sys (setnth (s_threads s) t (top (MEval e k (SAcq was (Some q))))) qs (s_lock s) (s_evals s) (s_clock s) (s_events s))
      end
  | MEval e k (SAcq was got) =>
      if was && s_lock s then None
      else
        let lk := s_lock s || was in
        match got with
        | None | Some None => Some (go s t (top (MEval e k SDone)) lk [])   (* 245, 369: run_one does nothing *)
        | Some (Some (e', i')) =>
            start_task (locked s lk) t th (in_mode fr (MEval e k SNested) :: below) e' i'
        end
  | MEval e k SNested => None
  | MEval e k SDone =>
      match nth_error (s_evals s) e with
      | Some v => match e_doneq (v_est v) with
                  | [] => Some (go s t (top (MEval e k SLoop)) (s_lock s) [])   (* 253-255 *)
                  | _ :: _ => process_done s t th fr below e k
                  end
      | None => None
      end
  | MEval e k SWait => process_done s t th fr below e k
  end.

(** One step of thread [t]; None if it is blocked or has ended. *)
Definition sys_step (s : sys) (t : nat) : option sys :=
  match nth_error (s_threads s) t with
  | None => None
  | Some th =>
      match t_pc th with
      | PTop => Some (go s t (at_pc th (if t_finished th then PExit else PGet)) (s_lock s) [])
      | PGet => match s_queue s with
                | [] => None
                | q :: qs => Some (Sys (setnth (s_threads s) t (at_pc th (PLock q))) qs (s_lock s) (s_evals s) (s_clock s) (s_events s))
                end
      | PLock q =>
          if s_lock s then None
          else match q with
               | None => Some (go s t (at_pc th (PUnlock true)) true [])   (* 346-347 *)
               | Some (e, i) => start_task (locked s true) t th [] e i
               end
      | PUnlock leave =>   (* releasing a lock that is not locked is a RuntimeError *)
          Some (go s t (at_pc th (if leave || negb (s_lock s) then PExit else PTop)) false [])
      | PStack => match t_stack th with
                  | fr :: below => frame_step s t th fr below
                  | [] => None
                  end
      | PExit => None
      end
  end.

Fixpoint sys_runs (s : sys) (ts : list nat) : option sys :=
  match ts with
  | [] => Some s
  | t :: ts' => match sys_step s t with Some s' => sys_runs s' ts' | None => None end
  end.

(** A scheduler with [w] workers (71-98; at least one) and threads outside running [mains]. *)
Definition worker : thread := Th true false PTop [].
Definition outside (p : prog) : thread := Th false false PStack [Fr None 0 [] (MCode p)].
Definition sys_init (w : nat) (mains : list prog) : sys :=
  Sys (repeat worker (max 1 w) ++ map outside mains) [] false [] 1 [].
