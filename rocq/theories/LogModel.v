(** Model of lib/fbuild/console.py: Log (105-168): write, _write, flush, log_from_thread.
    Threads take turns at every message; the lock is left out, so that the model has
    at least the interleavings of the code.  Errors of the file are not modelled. *)
From Coq Require Import List Bool Arith NArith.
Import ListNotations.

Record msg := Msg {
  m_text : N;          (* which text *)
  m_newline : bool;    (* msg.endswith('\n') *)
  m_verbose : nat
}.

(** What a thread calls. *)
Inductive op :=
  | OEnter                              (* enter log_from_thread *)
  | OExit                               (* leave it *)
  | OWrite (m : msg) (buffer : bool).

(** What a thread still has to do before the call returns. *)
Inductive micro := MEmit (m : msg) | MFlush.

Record tstate := T {
  stack : list (list msg);              (* _thread_stack, the last element first *)
  todo : list micro
}.

(** console.py:124-149; [one] is threadcount == 1. *)
Definition start (one : bool) (s : tstate) (o : op) : tstate :=
  match o with
  | OEnter => T ([] :: stack s) (todo s)
  | OExit => T (stack s) [MFlush]
  | OWrite m buffer =>
      if negb buffer || one then T (stack s) [MEmit m]
      else match stack s with
           | b :: st => T ((b ++ [m]) :: st) (if m_newline m then [MFlush] else [])
           | [] => T [] [MEmit m]
           end
  end.

(** console.py:151-168: _write ends with flush; flush pops the last buffer and writes
    what is in it. *)
Definition micro_step (s : tstate) : option (tstate * option msg) :=
  match todo s with
  | [] => None
  | MEmit m :: k => Some (T (stack s) (MFlush :: k), Some m)
  | MFlush :: k =>
      match stack s with
      | b :: st => Some (T st (map MEmit b ++ k), None)
      | [] => Some (T [] k, None)
      end
  end.

Definition tid := nat.
Record state := St { threads : tid -> tstate; out : list (tid * msg) }.
Definition upd (f : tid -> tstate) (t : tid) (s : tstate) : tid -> tstate :=
  fun u => if Nat.eqb u t then s else f u.

Inductive event := EStart (t : tid) (o : op) | EMicro (t : tid).

(** One step of some thread; None: not possible. *)
Definition step (one : bool) (s : state) (e : event) : option state :=
  match e with
  | EStart t o =>
      match todo (threads s t) with
      | [] => Some (St (upd (threads s) t (start one (threads s t) o)) (out s))
      | _ :: _ => None
      end
  | EMicro t =>
      match micro_step (threads s t) with
      | Some (ts, o) =>
          Some (St (upd (threads s) t ts) (out s ++ match o with Some m => [(t, m)] | None => [] end))
      | None => None
      end
  end.

Fixpoint run (one : bool) (s : state) (es : list event) : option state :=
  match es with
  | [] => Some s
  | e :: es' => match step one s e with Some s' => run one s' es' | None => None end
  end.

Definition init : state := St (fun _ => T [] []) [].

(** What goes to the log file, and what to the terminal. *)
Definition file_out (s : state) : list (tid * msg) := out s.
Definition console_out (verbose : nat) (s : state) : list (tid * msg) :=
  filter (fun p => Nat.leb (m_verbose (snd p)) verbose) (out s).
