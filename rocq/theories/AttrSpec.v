(** What records hold and what a path stands for. *)
From Coq Require Import List ZArith Bool String Ascii.
From Verif Require Import AttrModel.
Import ListNotations.
Open Scope string_scope.

Definition key_of (s : setting) : string := match s with ByAttribute k _ | ByItem k _ => k end.
Definition value_of (s : setting) : val := match s with ByAttribute _ v | ByItem _ v => v end.
(** v is the last value that k was set to. *)
Definition last_set (l : list setting) (k : string) (v : val) : Prop :=
  exists before s after, l = List.app before (s :: after) /\ key_of s = k /\ value_of s = v /\ Forall (fun s => key_of s <> k) after.
(** v is where these attributes lead, over values other than None. *)
Inductive leads (builtin : string -> bool) : val -> list string -> val -> Prop :=
  | leads_end v : leads builtin v [] v
  | leads_step o k o' keys v : attribute builtin o k = Some o' -> o' <> VNone -> leads builtin o' keys v -> leads builtin o (k :: keys) v.
Fixpoint no_dot (s : string) : Prop := match s with EmptyString => True | String c s => c <> "."%char /\ no_dot s end.
Definition dotted (first : string) (rest : list string) : string := first ++ fold_right (fun k s => "." ++ k ++ s) "" rest.
(** The keys in the order in which they were first set. *)
Fixpoint firsts (seen l : list string) : list string :=
  match l with [] => [] | k :: l => if existsb (String.eqb k) seen then firsts seen l else k :: firsts (k :: seen) l end.
