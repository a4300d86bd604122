(** Model of lib/fbuild/main.py: build (81-133) and target.py: find (29-35): which targets
    run, in which order.  The early exits for --state, --delete-function and
    --delete-file are not part of it. *)
From Coq Require Import String List Bool ZArith.
Import ListNotations.
Open Scope string_scope.
Open Scope list_scope.

Definition tname := string.
Definition is_name (a b : tname) : bool := String.eqb a b.
Definition mem (a : tname) (l : list tname) : bool := existsb (is_name a) l.

(** list.index, for a member. *)
Fixpoint index (a : tname) (l : list tname) : nat :=
  match l with
  | [] => 0
  | b :: l' => if is_name a b then 0 else S (index a l')
  end.

(** list.insert: a negative position counts from the end, others are cut to the list. *)
Definition insert (l : list tname) (i : Z) (x : tname) : list tname :=
  let n := Z.of_nat (length l) in
  let i := if (i <? 0)%Z then Z.max 0 (i + n) else Z.min i n in
  firstn (Z.to_nat i) l ++ x :: skipn (Z.to_nat i) l.

Definition last_is_install (l : list tname) : bool :=
  match rev l with a :: _ => is_name a "install" | [] => false end.

(** main.py:101-109; None is Error('install must be last target'). *)
Definition plan (targets : list tname) : option (list tname) :=
  if mem "install" targets then
    if last_is_install targets then
      if forallb (fun t => mem t ["configure"; "install"]) targets then
        Some (insert targets (Z.of_nat (index "install" targets) - 1) "build")
      else Some targets
    else None
  else Some targets.

(** What is run: hooks of fbuildroot, the installation of files, target functions. *)
Inductive event := EPre | EFiles | EPost | ETarget (t : tname).

(** The build script: registered targets, whether the hooks exist, and which call
    raises, given what ran before. *)
Record script := Script {
  s_targets : list tname;
  s_pre : bool;
  s_post : bool;
  s_raises : list event -> event -> bool
}.

Inductive result := Done | Raised (e : event) | Invalid (t : tname).

(** Events one after the other; the first that raises is the last. *)
Fixpoint fire (s : script) (done : list event) (es : list event) : list event * option event :=
  match es with
  | [] => (done, None)
  | e :: es' => if s_raises s done e then (done ++ [e], Some e) else fire s (done ++ [e]) es'
  end.

Definition install_events (s : script) : list event :=
  (if s_pre s then [EPre] else []) ++ [EFiles] ++ (if s_post s then [EPost] else []).

(** main.py:112-131 *)
Fixpoint run (s : script) (done : list event) (targets : list tname) : list event * result :=
  match targets with
  | [] => (done, Done)
  | t :: targets' =>
      if is_name t "install" then
        match fire s done (install_events s) with
        | (done', None) => run s done' targets'
        | (done', Some e) => (done', Raised e)
        end
      else if mem t (s_targets s) then
        match fire s done [ETarget t] with
        | (done', None) => run s done' targets'
        | (done', Some e) => (done', Raised e)
        end
      else (done, Invalid t)
  end.

(** None: install is not last. *)
Definition build (s : script) (targets : list tname) : option (list event * result) :=
  match plan targets with
  | Some p => Some (run s [] p)
  | None => None
  end.
