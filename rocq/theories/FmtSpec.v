(** Templates of pieces. *)
From Coq Require Import List Bool String Ascii.
Import ListNotations.
Open Scope string_scope.

Inductive piece := Text (s : string) | Field (name : string).
Fixpoint each (P : ascii -> Prop) (s : string) : Prop := match s with EmptyString => True | String c s => P c /\ each P s end.
(** Braces in texts are doubled. *)
Fixpoint doubled (s : string) : string :=
  match s with
  | EmptyString => ""
  | String c s => (if Ascii.eqb c "{"%char then "{{" else if Ascii.eqb c "}"%char then "}}" else String c "") ++ doubled s
  end.
Definition written (p : piece) : string := match p with Text s => doubled s | Field name => "{" ++ name ++ "}" end.
Fixpoint template (ps : list piece) : string := match ps with [] => "" | p :: ps => written p ++ template ps end.
(** Names of patterns: not empty, no number, none of the characters with a meaning in fields. *)
Definition digit (c : ascii) : Prop := In c ["0"; "1"; "2"; "3"; "4"; "5"; "6"; "7"; "8"; "9"]%char.
Definition plain (name : string) : Prop := each (fun c => ~ In c ["{"; "}"; "."; "["; ":"; "!"]%char) name /\ ~ each digit name.
Definition plain_piece (p : piece) : Prop := match p with Text _ => True | Field name => plain name end.
Definition value (patterns : string -> option string) (p : piece) : option string := match p with Text s => Some s | Field name => patterns name end.
Fixpoint meaning (patterns : string -> option string) (ps : list piece) : option string :=
  match ps with
  | [] => Some ""
  | p :: ps => match value patterns p, meaning patterns ps with Some v, Some t => Some (v ++ t) | _, _ => None end
  end.
