(** Model of lib/fbuild/subprocess/killableprocess.py: Popen.kill and Popen.wait (186-259), POSIX.  Time is in
    milliseconds and passes in [time.sleep] and in the blocking wait only. *)
From Coq Require Import List ZArith Bool.
Import ListNotations.
Open Scope Z_scope.

(** A child: when it ends by itself, if it does, and the code it ends with. *)
Record proc := Proc { p_ends : option Z; p_code : Z }.
(** What SIGCHLD does. *)
Inductive handler := Before | DoNothing.
(** [rc]: returncode; [reaped]: waitpid has returned the child; [killed]: when the group was sent a signal. *)
Record state := State { now : Z; rc : option Z; reaped : bool; killed : option Z; sigchld : handler }.

(** When time.sleep(d) called at t comes back: earlier by a signal, or later. *)
Definition sleeper := Z -> Z -> Z.

Definition ended (p : proc) (t : Z) : bool := match p_ends p with Some e => e <=? t | None => false end.

(** 186-206: a child that was not reaped has a group; ESRCH is ignored.  The code is set in any case. *)
Definition kill (s : state) : state :=
  State (now s) (Some (-9)) (reaped s) (if reaped s then killed s else Some (now s)) (sigchld s).
(** subprocess.Popen.wait(self), without a timeout: None is waiting for ever.  A child that was sent SIGKILL ends. *)
Definition block (p : proc) (s : state) : option state :=
  match rc s with
  | Some _ => Some s
  | None =>
      match p_ends p with
      | Some e => Some (State (Z.max (now s) e) (Some (p_code p)) true (killed s) (sigchld s))
      | None => None
      end
  end.
Definition set_now (s : state) (t : Z) : state := State t (rc s) (reaped s) (killed s) (sigchld s).
Definition set_handler (s : state) (h : handler) : state := State (now s) (rc s) (reaped s) (killed s) h.

(** 241-252: the loop; the result tells whether the child was reaped.  None: more rounds than [fuel], or
    the ValueError of a negative time.sleep. *)
Fixpoint poll (fuel : nat) (p : proc) (sl : sleeper) (start timeout : Z) (s : state) : option (state * bool) :=
  match fuel with
  | O => None
  | S fuel =>
      if now s <? start + timeout - 10 then
        if ended p (now s) then Some (State (now s) (Some (p_code p)) true (killed s) Before, true)
        else
          let d := timeout - now s + start in
          if d <? 0 then None
          else
            let t := sl (now s) d in
            let t := sl t 100 in
            poll fuel p sl start timeout (set_now s t)
      else Some (s, false)
  end.

(** 213-259: the returncode, and the state after it.  The default of [timeout] is -1. *)
Definition wait (fuel : nat) (p : proc) (sl : sleeper) (timeout : option Z) (s : state) : option state :=
  match rc s with
  | Some _ => Some s
  | None =>
      let timeout := match timeout with None => -1000 | Some t => t end in
      if timeout =? -1000 then block p s
      else
        let s := set_handler s DoNothing in
        match poll fuel p sl (now s) timeout s with
        | None => None
        | Some (s, true) => Some s
        | Some (s, false) => block p (set_handler (kill s) Before)
        end
  end.
