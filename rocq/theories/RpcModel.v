(** Model of lib/fbuild/rpc.py: RPC (26-132).  Small steps of any number of client
    threads and of the server thread; every access to shared state is a step of its own.
    A step that blocks is not enabled.  The handler is any sequence of outcomes.  Calls
    of the server thread to itself and join with a timeout are not modelled; starting the
    server happens once (threading.Thread.start raises otherwise).  _started is also the
    name of the event by which threading.Thread tells that the thread has begun; the two
    settings of it are one step here. *)
From Coq Require Import List Bool Arith.
Import ListNotations.

Definition tid := nat.
Definition call := nat.        (* the identity of a _Result, rpc.py:19-23 *)
Definition arg := nat.

(** What a handler may return: any object, also an instance of an exception class. *)
Inductive val := Plain (n : nat) | ExcInstance (n : nat).
(** How a handler ends: RFatal is an exception that is not an Exception. *)
Inductive outcome := RValue (v : val) | RExc (n : nat) | RFatal (n : nat).
(** How a call ends. *)
Inductive answer := AReturn (v : val) | ARaise (n : nat) | AAssert.

Inductive msg := Null | Req (t : tid) (c : call) (a : arg).

(** The server thread, rpc.py:77-121. *)
Inductive server :=
  | SNew                               (* not started *)
  | SBegin                             (* 80: before _started.set() *)
  | SSetRunning                        (* 81: before _running = True *)
  | SGet                               (* 85: queue.get *)
  | SGot (m : msg)                     (* 86-93 *)
  | SRan (t : tid) (c : call) (fatal : bool)   (* 121: result stored, before event.set() *)
  | SSet (fatal : bool)                (* 96: before task_done *)
  | SFinal                             (* 105: before _running = False *)
  | SDead.

(** A client thread, rpc.py:39-75, 123-132. *)
Inductive client :=
  | CIdle
  | CStart                             (* 75: _started.wait() *)
  | CLock (a : arg)                    (* 42: acquire *)
  | CCheck (a : arg)                   (* 43: has the lock *)
  | CGo (a : arg)                      (* 46-58: before queue.put *)
  | CPut (c : call)                    (* 59: before release *)
  | CWait (c : call)                   (* 61: event.wait() *)
  | JCheck                             (* 126 *)
  | JLock                              (* 127 *)
  | JPut                               (* 129 *)
  | JQueue                             (* 130: queue.join() *)
  | JThread.                           (* 132: Thread.join() *)

(** What is observable. *)
Inductive event :=
  | EStarted (t : tid)                 (* start() returned *)
  | EPut (t : tid) (c : call) (a : arg)        (* a request is queued *)
  | ENotRunning (t : tid)              (* call() raised RPCNotRunning *)
  | EHandle (c : call) (a : arg) (o : outcome)
  | EAnswer (t : tid) (c : call) (r : answer)
  | EJoin (t : tid)                    (* join() called *)
  | EJoined (t : tid).                 (* join() returned *)

Record state := St {
  s_server : server;
  s_client : tid -> client;
  s_lock : option tid;
  s_queue : list msg;
  s_unfinished : nat;                  (* queue.Queue.unfinished_tasks *)
  s_started : bool;
  s_running : bool;
  s_event : tid -> bool;               (* the thread's cached threading.Event *)
  s_result : call -> option outcome;   (* None is _NULL *)
  s_next : call;
  s_trace : list event                 (* the latest first *)
}.

Definition upd {X} (f : nat -> X) (k : nat) (x : X) : nat -> X := fun j => if Nat.eqb j k then x else f j.

Definition init : state :=
  St SNew (fun _ => CIdle) None [] 0 false false (fun _ => false) (fun _ => None) 0 [].

(** rpc.py:66-70 *)
Definition answer_of (o : option outcome) : answer :=
  match o with
  | None => AAssert
  | Some (RValue (Plain n)) => AReturn (Plain n)
  | Some (RValue (ExcInstance n)) => ARaise n
  | Some (RExc n) => ARaise n
  | Some (RFatal n) => ARaise n
  end.
Definition is_fatal (o : outcome) : bool := match o with RFatal _ => true | _ => false end.

Inductive label :=
  | LStart (t : tid)                   (* t calls start() *)
  | LCall (t : tid) (a : arg)          (* t calls call(a) *)
  | LJoin (t : tid)                    (* t calls join() *)
  | LClient (t : tid)                  (* the next step of client t *)
  | LServer (o : outcome).             (* the next step of the server; o for the handler *)

Definition set_server (s : state) (x : server) : state :=
  St x (s_client s) (s_lock s) (s_queue s) (s_unfinished s) (s_started s) (s_running s)
     (s_event s) (s_result s) (s_next s) (s_trace s).
Definition set_client (s : state) (t : tid) (x : client) : state :=
  St (s_server s) (upd (s_client s) t x) (s_lock s) (s_queue s) (s_unfinished s) (s_started s) (s_running s)
     (s_event s) (s_result s) (s_next s) (s_trace s).
Definition set_lock (s : state) (l : option tid) : state :=
  St (s_server s) (s_client s) l (s_queue s) (s_unfinished s) (s_started s) (s_running s)
     (s_event s) (s_result s) (s_next s) (s_trace s).
Definition note (s : state) (e : event) : state :=
  St (s_server s) (s_client s) (s_lock s) (s_queue s) (s_unfinished s) (s_started s) (s_running s)
     (s_event s) (s_result s) (s_next s) (e :: s_trace s).

(** One step of the server, rpc.py:77-121. *)
Definition server_step (s : state) (o : outcome) : option state :=
  match s_server s with
  | SNew | SDead => None
  | SBegin => (* 80 *)
      Some (St SSetRunning (s_client s) (s_lock s) (s_queue s) (s_unfinished s) true (s_running s)
              (s_event s) (s_result s) (s_next s) (s_trace s))
  | SSetRunning => (* 81 *)
      Some (St SGet (s_client s) (s_lock s) (s_queue s) (s_unfinished s) (s_started s) true
              (s_event s) (s_result s) (s_next s) (s_trace s))
  | SGet => (* 85 *)
      match s_queue s with
      | [] => None
      | m :: q => Some (St (SGot m) (s_client s) (s_lock s) q (s_unfinished s) (s_started s) (s_running s)
                          (s_event s) (s_result s) (s_next s) (s_trace s))
      end
  | SGot Null => Some (set_server s (SSet true)) (* 89-91 *)
  | SGot (Req t c a) => (* 111-119 *)
      Some (St (SRan t c (is_fatal o)) (s_client s) (s_lock s) (s_queue s) (s_unfinished s) (s_started s) (s_running s)
              (s_event s) (upd (s_result s) c (Some o)) (s_next s) (EHandle c a o :: s_trace s))
  | SRan t c fatal => (* 121 *)
      Some (St (SSet fatal) (s_client s) (s_lock s) (s_queue s) (s_unfinished s) (s_started s) (s_running s)
              (upd (s_event s) t true) (s_result s) (s_next s) (s_trace s))
  | SSet fatal => (* 96: task_done, then the next round or the end of the loop *)
      Some (St (if fatal then SFinal else SGet) (s_client s) (s_lock s) (s_queue s) (pred (s_unfinished s))
              (s_started s) (s_running s) (s_event s) (s_result s) (s_next s) (s_trace s))
  | SFinal => (* 105 *)
      Some (St SDead (s_client s) (s_lock s) (s_queue s) (s_unfinished s) (s_started s) false
              (s_event s) (s_result s) (s_next s) (s_trace s))
  end.

(** One step of a client, rpc.py:39-75 and 123-132. *)
Definition client_step (s : state) (t : tid) : option state :=
  match s_client s t with
  | CIdle => None
  | CStart => if s_started s then Some (note (set_client s t CIdle) (EStarted t)) else None
  | CLock a => match s_lock s with
               | None => Some (set_lock (set_client s t (CCheck a)) (Some t))
               | Some _ => None
               end
  | CCheck a => if s_running s then Some (set_client s t (CGo a))
                else Some (note (set_lock (set_client s t CIdle) None) (ENotRunning t))
  | CGo a => (* a fresh _Result, the thread's event cleared, the message queued *)
      let c := s_next s in
      Some (St (s_server s) (upd (s_client s) t (CPut c)) (s_lock s) (s_queue s ++ [Req t c a])
              (S (s_unfinished s)) (s_started s) (s_running s) (upd (s_event s) t false) (s_result s)
              (S c) (EPut t c a :: s_trace s))
  | CPut c => Some (set_lock (set_client s t (CWait c)) None)
  | CWait c => if s_event s t then Some (note (set_client s t CIdle) (EAnswer t c (answer_of (s_result s c))))
               else None
  | JCheck => if s_running s then Some (set_client s t JLock)
              else Some (note (set_client s t CIdle) (EJoined t))
  | JLock => match s_lock s with
             | None => Some (set_lock (set_client s t JPut) (Some t))
             | Some _ => None
             end
  | JPut => Some (St (s_server s) (upd (s_client s) t JQueue) (s_lock s) (s_queue s ++ [Null])
                    (S (s_unfinished s)) (s_started s) (s_running s) (s_event s) (s_result s)
                    (s_next s) (s_trace s))
  | JQueue => match s_unfinished s with O => Some (set_client s t JThread) | S _ => None end
  | JThread => match s_server s with
               | SDead => Some (note (set_lock (set_client s t CIdle) None) (EJoined t))
               | _ => None
               end
  end.

Definition step (s : state) (l : label) : option state :=
  match l with
  | LStart t => match s_client s t, s_server s with
                | CIdle, SNew => Some (set_server (set_client s t CStart) SBegin)
                | _, _ => None
                end
  | LCall t a => match s_client s t with CIdle => Some (set_client s t (CLock a)) | _ => None end
  | LJoin t => match s_client s t with CIdle => Some (note (set_client s t JCheck) (EJoin t)) | _ => None end
  | LClient t => client_step s t
  | LServer o => server_step s o
  end.

Fixpoint runs (s : state) (ls : list label) : option state :=
  match ls with
  | [] => Some s
  | l :: ls' => match step s l with Some s' => runs s' ls' | None => None end
  end.
