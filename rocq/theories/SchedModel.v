(** Model of lib/fbuild/sched.py: one evaluation of Scheduler._evaluate (197-299) with
    Task.can_run (398-408) and Task.run (410-416).  Which thread runs a queued task, and
    when, is left open: any queued task may start at any time, any started task may finish
    at any time.  Tasks are numbered by their place in the list; SchedSystem models the
    threads. *)
From Coq Require Import List Bool Arith.
Import ListNotations.

Notation task := nat (only parsing).
Definition value := nat.
Definition exn := nat.

(** How a function ends; OFatal is an exception that is not an Exception, which Task.run
    (415) does not catch; run_one still puts the task on the done queue (376). *)
Inductive outcome := OVal (v : value) | OExc (e : exn) | OFatal (e : exn).

Inductive status :=
  | Running
  | Returned (results : list task)                 (* 299 *)
  | Raised (e : exn)                               (* 270 *)
  | LoopError (pairs : list (task * task)).        (* 297 *)

Inductive event := Started (i : task) | Finished (i : task) (o : outcome) | Processed (i : task).

Record est := E {
  e_running : task -> bool;
  e_done : task -> bool;
  e_out : task -> option outcome;       (* result or exc, once the function has ended *)
  e_count : nat;
  e_ready : list task;                  (* of this evaluation on the shared ready queue *)
  e_active : list task;                 (* being run *)
  e_doneq : list task;                  (* the done queue, first in first out *)
  e_results : list task;
  e_status : status;
  e_trace : list event                  (* the latest first *)
}.

Definition upd {X} (f : nat -> X) (k : nat) (x : X) : nat -> X := fun j => if Nat.eqb j k then x else f j.

Section Eval.
  (** The number of tasks and their dependencies. *)
  Context (n : nat) (deps : task -> list task).

  (** sched.py:398-408 *)
  Definition can_run (s : est) (i : task) : bool :=
    negb (e_running s i || e_done s i) && forallb (e_done s) (deps i).

  (** sched.py:215-218, 278-281 *)
  Definition offer (s : est) (i : task) : est :=
    if can_run s i then
      E (upd (e_running s) i true) (e_done s) (e_out s) (S (e_count s)) (e_ready s ++ [i]) (e_active s)
        (e_doneq s) (e_results s) (e_status s) (e_trace s)
    else s.

  (** sched.py:212-213: the table of dependents, one entry for each mention. *)
  Definition children (i : task) : list task :=
    flat_map (fun t => map (fun _ => t) (filter (Nat.eqb i) (deps t))) (seq 0 n).

  (** sched.py:289-295 *)
  Definition loop_pairs (s : est) : list (task * task) :=
    flat_map (fun t => if e_done s t then []
                       else map (fun d => (t, d))
                         (filter (fun d => existsb (Nat.eqb t) (deps d) && existsb (Nat.eqb d) (deps t)) (children t)))
             (seq 0 n).

  (** sched.py:238, 283-299: the loop ends when no task is active. *)
  Definition check (s : est) : est :=
    match e_count s with
    | O => E (e_running s) (e_done s) (e_out s) (e_count s) (e_ready s) (e_active s) (e_doneq s) (e_results s)
             (if Nat.eqb (length (e_results s)) n then Returned (e_results s) else LoopError (loop_pairs s)) (e_trace s)
    | S _ => s
    end.

  (** sched.py:200-218 *)
  Definition start_state : est :=
    E (fun _ => false) (fun _ => false) (fun _ => None) 0 [] [] [] [] Running [].
  Definition init : est := check (fold_left offer (seq 0 n) start_state).

  (** sched.py:259-281 for the task taken from the done queue. *)
  Definition process (s : est) (i : task) (q : list task) : est :=
    match e_out s i with
    | Some (OExc e) =>
        E (e_running s) (fun j => if Nat.ltb j n then true else e_done s j) (e_out s) (pred (e_count s)) (e_ready s) (e_active s)
          q (e_results s) (Raised e) (Processed i :: e_trace s)
    | _ =>
        check (fold_left offer (children i)
          (E (e_running s) (upd (e_done s) i true) (e_out s) (pred (e_count s)) (e_ready s) (e_active s)
             q (e_results s ++ [i]) (e_status s) (Processed i :: e_trace s)))
    end.

  Inductive label := LStart (i : task) | LFinish (i : task) (o : outcome) | LProcess.

  Definition step (s : est) (l : label) : option est :=
    match l with
    | LStart i =>
        if existsb (Nat.eqb i) (e_ready s) then
          Some (E (e_running s) (e_done s) (e_out s) (e_count s) (remove Nat.eq_dec i (e_ready s)) (i :: e_active s)
                  (e_doneq s) (e_results s) (e_status s) (Started i :: e_trace s))
        else None
    | LFinish i o =>
        if existsb (Nat.eqb i) (e_active s) then
          Some (E (e_running s) (e_done s) (upd (e_out s) i (Some o)) (e_count s) (e_ready s)
                  (remove Nat.eq_dec i (e_active s)) (e_doneq s ++ [i]) (e_results s) (e_status s)
                  (Finished i o :: e_trace s))
        else None
    | LProcess =>
        match e_status s, e_doneq s with
        | Running, i :: q => Some (process s i q)
        | _, _ => None
        end
    end.

  Fixpoint runs (s : est) (ls : list label) : option est :=
    match ls with
    | [] => Some s
    | l :: ls' => match step s l with Some s' => runs s' ls' | None => None end
    end.
End Eval.

(** sched.py:139-145: map sorts the tasks by index and takes their results; a task
    without one is an AttributeError. *)
Fixpoint insert (i : nat) (l : list nat) : list nat :=
  match l with
  | [] => [i]
  | j :: l' => if Nat.leb i j then i :: l else j :: insert i l'
  end.
Definition sorted (l : list nat) : list nat := fold_right insert [] l.

Inductive mapped := MList (vs : list value) | MRaised (e : exn) | MLoop (pairs : list (task * task)) | MAttributeError.
Fixpoint values_of (out : task -> option outcome) (l : list task) : option (list value) :=
  match l with
  | [] => Some []
  | i :: l' => match out i, values_of out l' with
               | Some (OVal v), Some vs => Some (v :: vs)
               | _, _ => None
               end
  end.
Definition map_result (s : est) : option mapped :=
  match e_status s with
  | Running => None
  | Raised e => Some (MRaised e)
  | LoopError p => Some (MLoop p)
  | Returned rs => match values_of (e_out s) (sorted rs) with
                   | Some vs => Some (MList vs)
                   | None => Some MAttributeError
                   end
  end.

(** ** map_with_dependencies, sched.py:147-195 *)
Notation src := nat (only parsing).
Section Depends.

  (** 155-157: a dictionary from sources to tasks, in the order of first occurrence. *)
  Fixpoint keys_from (seen : list src) (srcs : list src) : list src :=
    match srcs with
    | [] => []
    | x :: srcs' => if existsb (Nat.eqb x) seen then keys_from seen srcs' else x :: keys_from (x :: seen) srcs'
    end.
  Definition keys (srcs : list src) : list src := keys_from [] srcs.
  Fixpoint index_of (x : src) (l : list src) : option task :=
    match l with
    | [] => None
    | y :: l' => if Nat.eqb x y then Some 0 else option_map S (index_of x l')
    end.

  (** 160-172: [rs] are the dependency tasks in the order they are returned, [dres] their
      results; dependencies that are no sources are ignored. *)
  Definition known (ks : list src) (ds : list src) : list task :=
    flat_map (fun d => match index_of d ks with Some k => [k] | None => [] end) ds.
  Definition add_dependencies (srcs : list src) (dres : task -> list src) (g : task -> list task) (j : task) : task -> list task :=
    match index_of (nth j srcs 0) (keys srcs) with
    | Some k => upd g k (g k ++ known (keys srcs) (dres j))
    | None => g
    end.
  Definition graph (srcs : list src) (rs : list task) (dres : task -> list src) : task -> list task :=
    fold_left (add_dependencies srcs dres) rs (fun _ => []).

  (** 180-195: depth first; None is RecursionError. *)
  Fixpoint visit (deps : task -> list task) (depth : nat) (st : list task * list task) (t : task)
      : option (list task * list task) :=
    match depth with
    | O => None
    | S depth' =>
        if existsb (Nat.eqb t) (fst st) then Some st
        else
          match (fix loop (ds : list task) (st : list task * list task) : option (list task * list task) :=
                   match ds with
                   | [] => Some st
                   | d :: ds' => match visit deps depth' st d with Some st' => loop ds' st' | None => None end
                   end) (deps t) (t :: fst st, snd st) with
          | Some (visited, results) => Some (visited, results ++ [t])
          | None => None
          end
    end.
  Fixpoint visit_all (deps : task -> list task) (depth : nat) (st : list task * list task) (ts : list task)
      : option (list task * list task) :=
    match ts with
    | [] => Some st
    | t :: ts' => match visit deps depth st t with Some st' => visit_all deps depth st' ts' | None => None end
    end.
  Definition result_order (deps : task -> list task) (depth : nat) (srcs : list src) : option (list task) :=
    option_map snd (visit_all deps depth ([], [])
      (flat_map (fun x => match index_of x (keys srcs) with Some k => [k] | None => [] end) srcs)).
End Depends.

(** sched.py:147-195 as a whole: [ls1] is the schedule of the first evaluation (160),
    [ls2] that of the second (175).  None: not finished, or no such schedule. *)
Inductive mwd := WList (vs : list value) | WRaised (e : exn) | WLoop (pairs : list (task * task)) | WAttributeError | WRecursionError.

Section Whole.
  (** [decode]: the list of sources a result of [depends] stands for. *)
  Context (decode : value -> list src) (depth : nat) (srcs : list src).

  Definition deps_of (s : est) (j : task) : list src :=
    match e_out s j with Some (OVal v) => decode v | _ => [] end.
  (** 160-172 *)
  Definition second_graph (s : est) (rs : list task) : option (task -> list task) :=
    match values_of (e_out s) rs with
    | Some _ => Some (graph srcs rs (deps_of s))
    | None => None
    end.
  (** 175-195 *)
  Definition mwd_end (g : task -> list task) (s : est) : option mwd :=
    match e_status s with
    | Running => None
    | Raised e => Some (WRaised e)
    | LoopError p => Some (WLoop p)
    | Returned _ =>
        match result_order g depth srcs with
        | None => Some WRecursionError
        | Some order => match values_of (e_out s) order with
                        | Some vs => Some (WList vs)
                        | None => Some WAttributeError
                        end
        end
    end.
  Definition first_run (ls : list label) : option est :=
    runs (length srcs) (fun _ => []) (init (length srcs) (fun _ => [])) ls.
  Definition second_run (g : task -> list task) (ls : list label) : option est :=
    runs (length (keys srcs)) g (init (length (keys srcs)) g) ls.
  Definition mwd_result (ls1 ls2 : list label) : option mwd :=
    match first_run ls1 with
    | None => None
    | Some s1 =>
        match e_status s1 with
        | Running => None
        | Raised e => Some (WRaised e)
        | LoopError p => Some (WLoop p)
        | Returned rs =>
            match second_graph s1 rs with
            | None => Some WAttributeError
            | Some g => match second_run g ls2 with Some s2 => mwd_end g s2 | None => None end
            end
        end
    end.
End Whole.
