(** Model of format_substitute, lib/fbuild/builders/text.py 65-87: the text it writes is src_file.read().format( **patterns ).
    str.format is modelled as of Python 3.4 for patterns that are texts.  Reading and writing the files is as in TextModel. *)
From Coq Require Import List Bool String Ascii.
Import ListNotations.
Open Scope string_scope.

(** Text, KeyError with its key, ValueError, IndexError; and fields with attributes, items, conversions or formats, which are not modelled. *)
Inductive result := Done (text : string) | Missing (key : string) | Malformed | Positional | Unmodelled.
Definition prefix (v : string) (r : result) : result := match r with Done t => Done (v ++ t) | _ => r end.
Definition is_digit (c : ascii) : bool := let n := nat_of_ascii c in Nat.leb 48 n && Nat.leb n 57.
Fixpoint digits (s : string) : bool := match s with EmptyString => true | String c s => is_digit c && digits s end.
(** A field without a name, or with a number, is one of the positional arguments, of which there are none. *)
Definition field (patterns : string -> option string) (name : string) (rest : result) : result :=
  if digits name then Positional else match patterns name with Some v => prefix v rest | None => Missing name end.
(** Within text; after an opening brace; after a closing one; within the name of a field. *)
Inductive mode := Lit | Open | Close | Name (acc : string).
Definition other (c : ascii) : bool := existsb (Ascii.eqb c) ["."; "["; ":"; "!"]%char.
Fixpoint go (patterns : string -> option string) (m : mode) (s : string) : result :=
  match s with
  | EmptyString => match m with Lit => Done "" | _ => Malformed end
  | String c s =>
      let name acc :=
        if Ascii.eqb c "}"%char then field patterns acc (go patterns Lit s)
        else if Ascii.eqb c "{"%char then Malformed
        else if other c then Unmodelled
        else go patterns (Name (acc ++ String c "")) s in
      match m with
      | Lit =>
          if Ascii.eqb c "{"%char then go patterns Open s
          else if Ascii.eqb c "}"%char then go patterns Close s
          else prefix (String c "") (go patterns Lit s)
      | Open => if Ascii.eqb c "{"%char then prefix "{" (go patterns Lit s) else name ""
      | Close => if Ascii.eqb c "}"%char then prefix "}" (go patterns Lit s) else Malformed
      | Name acc => name acc
      end
  end.
Definition format (patterns : string -> option string) (text : string) : result := go patterns Lit text.
