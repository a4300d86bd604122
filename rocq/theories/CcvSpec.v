(** Where compilers print their version. *)
From Coq Require Import List Bool String Ascii.
Import ListNotations.
Open Scope string_scope.

Fixpoint each (P : ascii -> Prop) (s : string) : Prop := match s with EmptyString => True | String c s => P c /\ each P s end.
Definition starts (P : ascii -> Prop) (s : string) : Prop := match s with EmptyString => True | String c _ => P c end.
(** White space of Python within ASCII. *)
Definition white (c : ascii) : Prop := In c [" "; "009"; "010"; "011"; "012"; "013"; "028"; "029"; "030"; "031"]%char.
Definition part_of_number (c : ascii) : Prop := In c ["0"; "1"; "2"; "3"; "4"; "5"; "6"; "7"; "8"; "9"; "."]%char.
Definition line_break (c : ascii) : Prop := c = "010"%char.

(** The third word of the first line, words being separated by one blank. *)
Definition third_word (text v : string) : Prop :=
  exists first second rest, text = first ++ " " ++ second ++ " " ++ v ++ rest /\
  each (fun c => c <> " "%char /\ ~ line_break c) (first ++ second ++ v) /\ starts (fun c => c = " "%char \/ line_break c) rest.
(** clang version V *)
Definition says_clang (text v : string) : Prop :=
  exists rest, text = "clang version " ++ v ++ rest /\ v <> "" /\ each (fun c => ~ white c) v /\ starts white rest.
(** Apple clang A (based on LLVM V) *)
Definition says_apple (text a v : string) : Prop :=
  exists rest, text = "Apple clang " ++ a ++ " (based on LLVM " ++ v ++ ")" ++ rest /\ v <> "" /\
  each (fun c => ~ line_break c) a /\ each (fun c => ~ white c) v.
(** The last such place in the line, and there the longest version. *)
Definition says_apple_last (text v : string) : Prop :=
  exists a, says_apple text a v /\
  forall a' v', says_apple text a' v' -> length a' < length a \/ (length a' = length a /\ length v' <= length v).
(** icc (ICC) V or icpc (ICC) V *)
Definition says_intel (text v : string) : Prop :=
  exists name rest, In name ["icc"; "icpc"] /\ text = name ++ " (ICC) " ++ v ++ rest /\ v <> "" /\
  each part_of_number v /\ starts (fun c => ~ part_of_number c) rest.
