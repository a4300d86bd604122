(** Model of the programs of configuration tests and what is read from the output of those of types:
    lib/fbuild/config/c/__init__.py 287-334, 387-448, 464-491. *)
From Coq Require Import List ZArith Bool String Ascii DecimalString.
From Verif Require Import CmpModel.
Import ListNotations.
Open Scope string_scope.

Definition newline : string := String "010"%char "".
Definition number (i : nat) : string := NilZero.string_of_uint (Nat.to_uint i).
Fixpoint join (sep : string) (l : list string) : string :=
  match l with
  | [] => ""
  | [a] => a
  | a :: l => a ++ sep ++ join sep l
  end.
(** A template after textwrap.dedent: lines, each ended by a line break.  The first line of all templates is empty. *)
Fixpoint template (lines : list string) : string :=
  match lines with [] => "" | l :: lines => l ++ newline ++ template lines end.
Definition include (header : option string) : string := match header with None => "" | Some h => "#include <" ++ h ++ ">" end.

(** 309-320, types as strings; arguments that are Functions are not modelled.  i counts the arguments. *)
Fixpoint arguments (i : nat) (types : list string) : list string :=
  match types with
  | [] => []
  | t :: types => (if t =? "void" then [] else ["arg_" ++ number i]) ++ arguments (S i) types
  end.
Fixpoint definitions (i : nat) (types : list string) : list string :=
  match types with
  | [] => []
  | t :: types => (if t =? "void" then [] else [t ++ " arg_" ++ number i ++ ";"]) ++ definitions (S i) types
  end.
(** 293-297; default arguments after str. *)
Definition format_call (name : string) (args : list string) : string := name ++ "(" ++ join ", " args ++ ")".
(** 299-334; [] stands for default_args that are None or empty. *)
Definition function_text (header : option string) (name return_type : string) (types default_args : list string) : string :=
  let (args, defs) := match default_args with [] => (arguments 0 types, definitions 0 types) | _ => (default_args, []) end in
  let call := format_call name args in
  let call := if return_type =? "void" then call else return_type ++ " res = " ++ call in
  template [""; include header; "int main() {"; "    " ++ join (newline ++ "    ") defs; "    " ++ call ++ ";"; "    return 0;"; "}"].

(** 475-490 *)
Fixpoint member_definitions (i : nat) (members : list (string * string)) : list string :=
  match members with
  | [] => []
  | (t, m) :: members => (t ++ " arg_" ++ number i ++ " = arg." ++ m ++ ";") :: member_definitions (S i) members
  end.
Definition struct_text (header : option string) (name : string) (members : list (string * string)) : string :=
  template [""; include header; "int main() {"; "    " ++ name ++ " arg;"; "    " ++ join (newline ++ "    ") (member_definitions 0 members);
            "    return 0;"; "}"].

(** 392-405 *)
Definition type_text (header : option string) (name : string) : string :=
  template [""; "#include <stddef.h>"; "#include <stdio.h>"; include header; ""; "typedef " ++ name ++ " type;";
            "struct TEST { char c; type mem; };"; "int main() {";
            "    printf(""%d\n"", (int)offsetof(struct TEST, mem));"; "    printf(""%d\n"", (int)sizeof(type));"; "    return 0;"; "}"].
(** 421-435 *)
Definition int_type_text (header : option string) (name : string) : string :=
  template [""; "#include <stddef.h>"; "#include <stdio.h>"; include header; ""; "typedef " ++ name ++ " type;";
            "struct TEST { char c; type mem; };"; "int main() {";
            "    printf(""%d\n"", (int)offsetof(struct TEST, mem));"; "    printf(""%d\n"", (int)sizeof(type));";
            "    printf(""%d\n"", (type)~3 < (type)0);"; "    return 0;"; "}"].

(** str.split() of ASCII texts. *)
Definition is_white (c : ascii) : bool := let n := nat_of_ascii c in Nat.eqb n 32 || (Nat.leb 9 n && Nat.leb n 13) || (Nat.leb 28 n && Nat.leb n 31).
Fixpoint words_from (cur s : string) : list string :=
  match s with
  | "" => if cur =? "" then [] else [cur]
  | String c s => if is_white c then (if cur =? "" then [] else [cur]) ++ words_from "" s else words_from (cur ++ String c "") s
  end.
Definition words (s : string) : list string := words_from "" s.
(** int, without the plus signs and underscores it also takes. *)
Definition int_of (s : string) : option Z := option_map Z.of_int (NilZero.int_of_string s).

(** What process_stdout answers; None: it raises IndexError or ValueError.  407-415 and 437-448. *)
Definition type_answer (stdout : string) : option result :=
  match words stdout with
  | a :: s :: _ => match int_of a, int_of s with Some a, Some s => Some (Type_ a s) | _, _ => None end
  | _ => None
  end.
Definition int_type_answer (stdout : string) : option result :=
  match words stdout with
  | a :: s :: g :: _ =>
      match int_of a, int_of s, int_of g with Some a, Some s, Some g => Some (IntType a s (Z.eqb g 1)) | _, _, _ => None end
  | _ => None
  end.
