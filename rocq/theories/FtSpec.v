(** What the programs of configuration tests are to be: how C runs those of types, and which variables and calls the others have. *)
From Coq Require Import List ZArith Bool String Ascii DecimalString.
Import ListNotations.
Open Scope string_scope.

Fixpoint one_line (s : string) : Prop := match s with EmptyString => True | String c s => c <> "010"%char /\ one_line s end.
Fixpoint lines_from (cur s : string) : list string :=
  match s with
  | EmptyString => [cur]
  | String c s => if Ascii.eqb c "010"%char then cur :: lines_from "" s else lines_from (cur ++ String c "") s
  end.
Definition lines (s : string) : list string := lines_from "" s.

(** A type of C: its alignment and size, and, for integers, its sign. *)
Record ctype := CType { c_alignment : Z; c_size : Z; c_signed : bool }.
(** A C compiler with bytes of 8 bits and integers of 32 bits, two's complement. *)
Definition to_signed (bits x : Z) : Z := ((x + 2 ^ (bits - 1)) mod 2 ^ bits - 2 ^ (bits - 1))%Z.
Definition to_int (x : Z) : Z := to_signed 32 x.
Definition to_type (t : ctype) (x : Z) : Z := (if c_signed t then to_signed (8 * c_size t) x else x mod 2 ^ (8 * c_size t))%Z.
(** The least multiple of the alignment that is not before the end of the first member. *)
Definition offset_after (x alignment : Z) : Z := ((x + alignment - 1) / alignment * alignment)%Z.
Definition print (z : Z) : string := NilZero.string_of_int (Z.to_int z) ++ String "010"%char "".
(** What a line prints. *)
Definition run_line (t : option ctype) (line : string) : option string :=
  if (line =? "    printf(""%d\n"", (int)offsetof(struct TEST, mem));") then option_map (fun t => print (to_int (offset_after 1 (c_alignment t)))) t
  else if (line =? "    printf(""%d\n"", (int)sizeof(type));") then option_map (fun t => print (to_int (c_size t))) t
  else if (line =? "    printf(""%d\n"", (type)~3 < (type)0);") then option_map (fun t => print (if (to_type t (-4) <? to_type t 0)%Z then 1 else 0)) t
  else Some "".
(** What comes after a prefix and before a suffix. *)
Fixpoint after (p s : string) : option string :=
  match p, s with
  | EmptyString, _ => Some s
  | String c p, String d s => if Ascii.eqb c d then after p s else None
  | String _ _, EmptyString => None
  end.
Fixpoint before (q s : string) : option string :=
  if s =? q then Some "" else match s with EmptyString => None | String c s => option_map (String c) (before q s) end.
(** What a line defines: typedef NAME type; *)
Definition typedef (types : string -> option ctype) (line : string) : option ctype :=
  match after "typedef " line with
  | Some rest => match before " type;" rest with Some name => types name | None => None end
  | None => None
  end.
Fixpoint run_lines (types : string -> option ctype) (t : option ctype) (ls : list string) : option string :=
  match ls with
  | [] => Some ""
  | l :: ls =>
      let t := match typedef types l with Some t => Some t | None => t end in
      match run_line t l, run_lines types t ls with Some a, Some b => Some (a ++ b) | _, _ => None end
  end.
Definition includes (ls : list string) : list string := filter (fun l => match after "#include <" l with Some _ => true | None => false end) ls.
Definition has (ls : list string) (l : string) : bool := existsb (String.eqb l) ls.
(** The output of a program, given the types that are known after these includes; None: it does not compile. *)
Definition run (types : list string -> string -> option ctype) (text : string) : option string :=
  let ls := lines text in
  if forallb (has ls) ["#include <stddef.h>"; "#include <stdio.h>"; "struct TEST { char c; type mem; };"; "int main() {"; "    return 0;"; "}"]
  then run_lines (types (includes ls)) None ls else None.

(** The arguments that are not void, with their positions. *)
Fixpoint counted (i : nat) (types : list string) : list (nat * string) :=
  match types with [] => [] | t :: types => (i, t) :: counted (S i) types end.
Definition wanted (types : list string) : list (nat * string) := filter (fun p => negb (snd p =? "void")) (counted 0 types).
Definition variable (i : nat) : string := "arg_" ++ NilZero.string_of_uint (Nat.to_uint i).
Definition commas (l : list string) : string :=
  match l with [] => "" | a :: l => a ++ fold_right (fun b s => ", " ++ b ++ s) "" l end.
Definition included (header : option string) : list string := match header with Some h => ["#include <" ++ h ++ ">"] | None => [] end.
Definition line_of (l : list string) : list string := match l with [] => [""] | _ => l end.
(** The lines of a program with these lines in main. *)
Definition program (header : option string) (main : list string) : list string :=
  [""] ++ line_of (included header) ++ ["int main() {"] ++ map (fun l => "    " ++ l) main ++ ["    return 0;"; "}"; ""].
(** The right way to declare a variable: in types of pointers to functions it goes after the star. *)
Fixpoint declare (t name : string) : string :=
  match after "(*)" t with
  | Some rest => "(*" ++ name ++ ")" ++ rest
  | None => match t with EmptyString => " " ++ name | String c t => String c (declare t name) end
  end.
Definition no_pointer_to_function (t : string) : Prop := forall a b, t <> a ++ "(*)" ++ b.
