(** Model of reading the version of a compiler from what it prints, for ASCII texts: lib/fbuild/builders/c/gcc/__init__.py 312-316,
    lib/fbuild/builders/c/clang/__init__.py 8-23 and lib/fbuild/builders/c/intel.py 8-14.  Running the compiler is C68. *)
From Coq Require Import List Bool String Ascii.
From Verif Require Import FtModel.
Import ListNotations.
Open Scope string_scope.

(** str.split with a separator of one character. *)
Fixpoint split_on (sep : ascii) (s : string) : list string :=
  match s with
  | EmptyString => [""]
  | String c s =>
      if Ascii.eqb c sep then "" :: split_on sep s
      else match split_on sep s with w :: ws => String c w :: ws | [] => [String c ""] end
  end.
(** gcc 316; None: IndexError. *)
Definition gcc_version (stdout : string) : option string :=
  match split_on "010"%char stdout with
  | line :: _ => nth_error (split_on " "%char line) 2
  | [] => None
  end.

(** A fixed text in a regular expression. *)
Fixpoint literal (p s : string) : option string :=
  match p, s with
  | EmptyString, _ => Some s
  | String c p, String d s => if Ascii.eqb c d then literal p s else None
  | String _ _, EmptyString => None
  end.
(** The longest text of characters that satisfy f: what a class with a plus matches at the end of a regular expression. *)
Fixpoint longest (f : ascii -> bool) (s : string) : string :=
  match s with String c s => if f c then String c (longest f s) else "" | EmptyString => "" end.
Definition some_of (f : ascii -> bool) (s : string) : option string := match longest f s with EmptyString => None | v => Some v end.
(** Characters other than white space, as many as possible, before a closing parenthesis; at least one of them. *)
Fixpoint closed_ (s : string) : option string :=
  match s with
  | EmptyString => None
  | String c s =>
      match (if is_white c then None else option_map (String c) (closed_ s)) with
      | Some v => Some v
      | None => if Ascii.eqb c ")"%char then Some "" else None
      end
  end.
Definition closed (s : string) : option string :=
  match s with EmptyString => None | String c s => if is_white c then None else option_map (String c) (closed_ s) end.
Definition llvm (s : string) : option string := match literal " (based on LLVM " s with Some s => closed s | None => None end.
(** As many characters as possible before that, but no line break. *)
Fixpoint based (s : string) : option string :=
  match s with
  | EmptyString => llvm s
  | String c s' =>
      match (if Ascii.eqb c "010"%char then None else based s') with
      | Some v => Some v
      | None => llvm s
      end
  end.
Definition apple (s : string) : option string := match literal "Apple clang " s with Some s => based s | None => None end.
Definition plain_clang (s : string) : option string :=
  match literal "clang version " s with Some s => some_of (fun c => negb (is_white c)) s | None => None end.
(** clang 13-23 *)
Definition clang_version (stdout : string) : option string :=
  match apple stdout with Some v => Some v | None => plain_clang stdout end.

Definition digit_or_dot (c : ascii) : bool := let n := nat_of_ascii c in (Nat.leb 48 n && Nat.leb n 57) || Ascii.eqb c "."%char.
(** intel 13-14 *)
Definition intel_version (stdout : string) : option string :=
  match literal "ic" stdout with
  | None => None
  | Some s =>
      match (match literal "c" s with Some s => Some s | None => literal "pc" s end) with
      | None => None
      | Some s => match literal " (ICC) " s with Some s => some_of digit_or_dot s | None => None end
      end
  end.
