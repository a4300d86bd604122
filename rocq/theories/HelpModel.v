(** Model of lib/fbuild/target.py (8-55): registering targets and describing them. *)
From Coq Require Import List NArith Bool Arith.
From Verif Require Import FnModel GccModel.
Import ListNotations.
Open Scope nat_scope.

(** A function: which one, __name__ and __doc__. *)
Record fn := Fn { f_id : nat; f_name : str; f_doc : option str }.
(** 9-13 *)
Record target := Target { t_function : fn; t_name : str; t_help : option str }.
Definition mk_target (f : fn) (name help : option str) : target :=
  Target f (match name with Some n => n | None => f_name f end)
           (match help with Some h => Some h | None => f_doc f end).

(** _targets: a dict, by order of insertion. *)
Definition targets := list (str * target).
Fixpoint store (k : str) (t : target) (d : targets) : targets :=
  match d with
  | [] => [(k, t)]
  | (k', t') :: d' => if str_eqb k k' then (k', t) :: d' else (k', t') :: store k t d'
  end.
(** 19-27: register(name=..., help=...)(function); the function itself is returned. *)
Definition register (d : targets) (f : fn) (name help : option str) : targets * fn :=
  let t := mk_target f name help in (store (t_name t) t d, f).
(** 29-35; None is Error('invalid target ...'). *)
Fixpoint find (d : targets) (name : str) : option target :=
  match d with [] => None | (k, t) :: d' => if str_eqb name k then Some t else find d' name end.

(** sorted(..., key=attrgetter('name')): stable. *)
Fixpoint insert_by (t : target) (l : list target) : list target :=
  match l with
  | [] => [t]
  | u :: l' => if str_leb (t_name t) (t_name u) then t :: l else u :: insert_by t l'
  end.
Definition sorted_by (l : list target) : list target := fold_right insert_by [] l.
(** str.ljust *)
Definition ljust (s : str) (n : nat) : str := s ++ repeat 32%N (n - length s).
(** '\n'.join *)
Fixpoint join_lines (l : list str) : str :=
  match l with
  | [] => []
  | [s] => s
  | s :: l' => s ++ 10%N :: join_lines l'
  end.
(** 37-55 *)
Definition help_line (w : nat) (t : target) : str :=
  [32; 32]%N ++ ljust (t_name t) w ++ 9%N :: match t_help t with Some h => h | None => [] end.
Definition help_string (d : targets) : str :=
  let ts := sorted_by (map snd d) in
  match ts with
  | [] => []
  | _ => join_lines (map (help_line (list_max (map (fun t => length (t_name t)) ts))) ts)
  end.
