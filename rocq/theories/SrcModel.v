(** Model of lib/fbuild/inspect.py: findsource for classes and functions (27-64), getsourcelines and getsource (66-86).
    Where the lines of the file come from (getsourcefile, linecache) is not modelled, nor is getblock of the standard library:
    it is any function that tells how many lines the block at the top has.  Texts are ASCII. *)
From Coq Require Import List NArith Bool Arith.
From Verif Require Import FnModel VerModel.
Import ListNotations.
Open Scope nat_scope.

(** [\w] of re. *)
Definition is_word (c : chr) : bool :=
  ((48 <=? c)%N && (c <=? 57)%N) || ((65 <=? c)%N && (c <=? 90)%N) || ((97 <=? c)%N && (c <=? 122)%N) || (c =? 95)%N.
(** "def", "class" and "lambda". *)
Definition w_def : str := [100; 101; 102]%N.
Definition w_class : str := [99; 108; 97; 115; 115]%N.
Definition w_lambda : str := [108; 97; 109; 98; 100; 97]%N.
(** What follows a prefix. *)
Fixpoint after (p s : str) : option str :=
  match p, s with
  | [], _ => Some s
  | c :: p', d :: s' => if N.eqb c d then after p' s' else None
  | _, [] => None
  end.

(** 57: ^(\s*def\s), ^(\s*@) *)
Definition def_line (l : str) : bool :=
  match after w_def (lstrip l) with Some (c :: _) => is_space c | _ => false end.
Definition at_line (l : str) : bool := match lstrip l with c :: _ => N.eqb c 64 | [] => false end.
(** 57: .*(?<!\w)lambda(:|\s); [prev]: there is a letter before. *)
Fixpoint lambda_line (prev : bool) (l : str) : bool :=
  match l with
  | [] => false
  | c :: l' =>
      negb prev && (match after w_lambda l with Some (d :: _) => N.eqb d 58 || is_space d | _ => false end)
      || (if N.eqb c 10 then false else lambda_line (is_word c) l')
  end.
Definition opens (l : str) : bool := def_line l || lambda_line false l || at_line l.

Inductive res := Found (n : nat) | IOError | IndexError.
(** 58-60 *)
Fixpoint up (lines : list str) (n : nat) : res :=
  match n with
  | O => Found O
  | S n' =>
      match nth_error lines n with
      | None => IndexError
      | Some l => if opens l then Found n else up lines n'
      end
  end.
(** 16-17, 53-61; [first] is co_firstlineno, which is at least 1. *)
Definition find_code (lines : list str) (first : nat) : res :=
  match lines with [] => IOError | _ => up lines (first - 1) end.

(** 24: space, class, any space or none, the name as a whole word: the group, if it matches. *)
Fixpoint leading (l : str) : str :=
  match l with c :: l' => if is_space c then c :: leading l' else [] | [] => [] end.
Definition class_match (name l : str) : option str :=
  match after w_class (lstrip l) with
  | Some r =>
      match after name (lstrip r) with
      | Some [] => Some (leading l)
      | Some (c :: _) => if is_word c then None else Some (leading l)
      | None => None
      end
  | None => None
  end.
(** Comparison of tuples. *)
Definition less (a b : str * nat) : bool :=
  str_ltb (fst a) (fst b) || (negb (str_ltb (fst b) (fst a)) && (snd a <? snd b)).
(** 40-43: the first one after sorting. *)
Fixpoint least (a : str * nat) (l : list (str * nat)) : str * nat :=
  match l with [] => a | b :: l' => least (if less b a then b else a) l' end.
(** 29-45 *)
Fixpoint scan (name : str) (lines : list str) (i : nat) (cands : list (str * nat)) : res :=
  match lines with
  | [] => match cands with [] => IOError | a :: l => Found (snd (least a l)) end
  | l :: ls =>
      match class_match name l with
      | None => scan name ls (S i) cands
      | Some ws =>
          match l with
          | c :: _ => if N.eqb c 99 then Found i else scan name ls (S i) (cands ++ [(ws, i)])
          | [] => IndexError
          end
      end
  end.
Definition find_class (lines : list str) (name : str) : res := scan name lines 0 [].

(** 66-86, for what was found. *)
Definition source (block : list str -> nat) (lines : list str) (n : nat) : str :=
  concat (firstn (block (skipn n lines)) (skipn n lines)).
Definition get_source (block : list str -> nat) (lines : list str) (first : nat) : str + res :=
  match find_code lines first with Found n => inl (source block lines n) | e => inr e end.
