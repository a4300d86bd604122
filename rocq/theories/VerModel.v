(** Model of lib/fbuild/builders/__init__.py: check_version (73-122).  int() is given for
    ASCII text; other decimal digits and spaces of Unicode are not modelled. *)
From Coq Require Import List NArith ZArith Bool.
From Verif Require Import FnModel.
Import ListNotations.
Open Scope N_scope.

(** s.split('.') *)
Fixpoint split_dot (s : str) : list str :=
  match s with
  | [] => [[]]
  | c :: s' => if N.eqb c c_dot then [] :: split_dot s'
               else match split_dot s' with
                    | w :: ws => (c :: w) :: ws
                    | [] => [[c]]
                    end
  end.

Definition is_space (c : chr) : bool := ((9 <=? c) && (c <=? 13)) || ((28 <=? c) && (c <=? 32)).
Fixpoint lstrip (s : str) : str :=
  match s with c :: s' => if is_space c then lstrip s' else s | [] => [] end.
Definition strip (s : str) : str := rev (lstrip (rev (lstrip s))).

Definition is_digit (c : chr) : bool := (48 <=? c) && (c <=? 57).
(** Digits, single underscores between them. *)
Fixpoint digits (acc : Z) (after_digit : bool) (s : str) : option Z :=
  match s with
  | [] => if after_digit then Some acc else None
  | c :: s' =>
      if is_digit c then digits (acc * 10 + Z.of_N (c - 48))%Z true s'
      else if (c =? 95) && after_digit then digits acc false s'
      else None
  end.

(** int(s); None is ValueError. *)
Definition py_int (s : str) : option Z :=
  match strip s with
  | c :: s' => if c =? 45 then option_map Z.opp (digits 0 false s')
               else if c =? 43 then digits 0 false s'
               else digits 0 false (c :: s')
  | [] => None
  end.

Inductive comp := CInt (z : Z) | CStr (s : str).
Definition version := list comp.

(** builders/__init__.py:87-96 *)
Definition component (s : str) : comp := match py_int s with Some z => CInt z | None => CStr s end.
Definition version_of (s : str) : version := map component (split_dot s).

(** str order: code points from the left. *)
Fixpoint str_ltb (a b : str) : bool :=
  match a, b with
  | [], _ :: _ => true
  | c :: a', d :: b' => (c <? d) || ((c =? d) && str_ltb a' b')
  | _, [] => false
  end.

Definition comp_eqb (a b : comp) : bool :=
  match a, b with
  | CInt x, CInt y => Z.eqb x y
  | CStr x, CStr y => str_eqb x y
  | _, _ => false
  end.
(** None is TypeError. *)
Definition comp_ltb (a b : comp) : option bool :=
  match a, b with
  | CInt x, CInt y => Some (Z.ltb x y)
  | CStr x, CStr y => Some (str_ltb x y)
  | _, _ => None
  end.

(** Tuples: the first different elements decide, then the lengths. *)
Fixpoint tuple_eqb (a b : version) : bool :=
  match a, b with
  | [], [] => true
  | x :: a', y :: b' => comp_eqb x y && tuple_eqb a' b'
  | _, _ => false
  end.
Fixpoint tuple_ltb (a b : version) : option bool :=
  match a, b with
  | x :: a', y :: b' => if comp_eqb x y then tuple_ltb a' b' else comp_ltb x y
  | [], _ :: _ => Some true
  | _, [] => Some false
  end.

Inductive verdict := Accept | Reject | TypeErr.

Record requirement := Req {
  r_exact : option version;
  r_least : option version;
  r_most : option version
}.

(** builders/__init__.py:98-121 *)
Definition check (r : requirement) (v : version) : verdict :=
  let most :=
    match r_most r with
    | Some m => match tuple_ltb m v with None => TypeErr | Some true => Reject | Some false => Accept end
    | None => Accept
    end in
  let least :=
    match r_least r with
    | Some l => match tuple_ltb v l with None => TypeErr | Some true => Reject | Some false => most end
    | None => most
    end in
  match r_exact r with
  | Some e => if tuple_eqb e v then least else Reject
  | None => least
  end.
Definition check_version (r : requirement) (s : str) : verdict := check r (version_of s).
