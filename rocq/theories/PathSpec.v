(** What is expected of path operations. *)
From Coq Require Import List NArith Bool Arith.
From Verif Require Import FnModel PathModel.
Import ListNotations.
Open Scope N_scope.

(** The names between the slashes; empty names and "." do not count. *)
Fixpoint names (p : str) : list str :=
  match p with
  | [] => [[]]
  | c :: p' => if is_sep c then [] :: names p'
               else match names p' with
                    | n :: ns => (c :: n) :: ns
                    | [] => [[c]]
                    end
  end.
Definition counts (n : str) : bool := negb (str_eqb n [] || str_eqb n [c_dot]).
Definition components (p : str) : list str := filter counts (names p).

Definition dotdot : str := [c_dot; c_dot].

(** Going down and up never leaves the directory one starts in. *)
Fixpoint stays (depth : nat) (cs : list str) : bool :=
  match cs with
  | [] => true
  | c :: cs' => if str_eqb c dotdot
                then match depth with O => false | S d => stays d cs' end
                else stays (S depth) cs'
  end.

(** [p] is [root] or lies below it. *)
Definition below (root p : str) : Prop :=
  isabs p = isabs root /\
  exists cs, components p = components root ++ cs /\ stays 0 cs = true.

(** Repeated slashes inside a path are one. *)
Fixpoint squeeze_ (after_sep : bool) (p : str) : str :=
  match p with
  | [] => []
  | c :: p' => if is_sep c then (if after_sep then squeeze_ true p' else c :: squeeze_ true p')
               else c :: squeeze_ false p'
  end.
(** Slashes at the beginning are kept. *)
Fixpoint squeeze (p : str) : str :=
  match p with
  | [] => []
  | c :: p' => if is_sep c then c :: squeeze p' else c :: squeeze_ false p'
  end.

(** The last name. *)
Definition is_last_name (p n : str) : Prop :=
  ~ In c_sep n /\ exists h, p = h ++ n /\ (h = [] \/ exists h', h = h' ++ [c_sep]).

(** [e] is the extension of [p], [r] the rest: the last dot of the last name starts
    the extension if there is something but dots before it. *)
Record is_ext (p r e : str) : Prop := IsExt {
  ie_split : p = r ++ e;
  ie_sep : ~ In c_sep e;
  ie_some : e <> [] -> exists e' n c, e = c_dot :: e' /\ ~ In c_dot e' /\
    is_last_name r n /\ In c n /\ c <> c_dot;
  ie_none : e = [] -> forall n a b c, is_last_name p n -> n = a ++ c_dot :: b -> In c a -> c = c_dot
}.
