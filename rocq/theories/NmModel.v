(** Model of lib/fbuild/builders/nm.py: Nm.object_dependencies (18-49).  What nm prints
    is given: for each object file its defined and its undefined symbols, as lists in
    the order the sets are iterated in. *)
From Coq Require Import List NArith Bool Arith.
From Verif Require Import FnModel.
Import ListNotations.

Record symbols := Symbols { defined : list str; undefined : list str }.

Definition memb (s : str) (l : list str) : bool := existsb (str_eqb s) l.

Section Nm.
  (** _run (51-74), for each object *)
  Variable nm : str -> symbols.

  (** 20-28: defined_symbols_lookup after the loop over [objs]; a later object replaces
      an earlier one. *)
  Fixpoint definer (objs : list str) (sym : str) : option str :=
    match objs with
    | [] => None
    | o :: objs' => match definer objs' sym with
                    | Some o' => Some o'
                    | None => if memb sym (defined (nm o)) then Some o else None
                    end
    end.

  (** 31-44; [fuel]: how deep functions may call each other, None: RecursionError.  [acc]: new_objs. *)
  Fixpoint f (fuel : nat) (objs : list str) (obj : str) (acc : list str) : option (list str) :=
    if memb obj acc then Some acc
    else match fuel with
         | O => None
         | S fuel' =>
             match fold_left (fun a sym =>
                     match a with
                     | None => None
                     | Some acc => match definer objs sym with
                                   | None => Some acc
                                   | Some o => if str_eqb obj o then Some acc else f fuel' objs o acc
                                   end
                     end) (undefined (nm obj)) (Some acc) with
             | None => None
             | Some acc => Some (acc ++ [obj])
             end
         end.

  (** 46-49, the values of the returned iterator *)
  Definition object_dependencies (fuel : nat) (objs : list str) : option (list str) :=
    match fold_left (fun a obj => match a with None => None | Some acc => f fuel objs obj acc end) objs (Some []) with
    | None => None
    | Some new_objs => Some (rev new_objs)
    end.
End Nm.
