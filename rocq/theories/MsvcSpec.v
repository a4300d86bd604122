(** What is expected of building with Microsoft's C compiler. *)
From Coq Require Import List NArith Bool Arith.
From Verif Require Import FnModel LinkModel LinkSpec.
Import ListNotations.
Open Scope N_scope.

(** *** Libraries *)
Definition dirs_of (l : lib) : list str := match l with Plain _ => [] | Library _ ps _ _ => ps end.
(** [a] stands somewhere left of [b]. *)
Definition before_in {A} (a b : A) (l : list A) : Prop := exists l1 l2 l3, l = l1 ++ a :: l2 ++ b :: l3.
(** How a library is named to the linker: a .dll by its .lib *)
Definition t_defaultlib : str := [47; 68; 69; 70; 65; 85; 76; 84; 76; 73; 66; 58].                                (* /DEFAULTLIB: *)
Definition t_dll : str := [46; 100; 108; 108].
Definition t_lib : str := [46; 108; 105; 98].
Definition names_lib (l o : str) : Prop :=
  (exists r, l = r ++ t_dll /\ o = t_defaultlib ++ r ++ t_lib) \/ ((forall r, l <> r ++ t_dll) /\ o = t_defaultlib ++ l).

(** *** What the compiler writes with /showIncludes *)
Definition t_note : str := [78; 111; 116; 101; 58].                                                       (* Note: *)
Definition t_including : str := [105; 110; 99; 108; 117; 100; 105; 110; 103; 32; 102; 105; 108; 101; 58]. (* including file: *)
Inductive line := Including (a b : nat) (p : str) | Other (t : str).
Definition line_text (l : line) : str :=
  match l with
  | Including a b p => t_note ++ repeat 32 (S a) ++ t_including ++ repeat 32 (S b) ++ p ++ [13; 10]
  | Other t => t ++ [10]
  end.
(** Paths do not begin with a blank; other lines are not of that form. *)
Definition line_ok (l : line) : Prop :=
  match l with
  | Including _ _ p => p <> [] /\ ~ In 10 p /\ forall r, p <> 32 :: r
  | Other t => ~ In 10 t /\ forall a b p, t ++ [10] <> line_text (Including a b p)
  end.
Definition included (ls : list line) : list str := flat_map (fun l => match l with Including _ _ p => [p] | Other _ => [] end) ls.
Definition others (ls : list line) : list str := flat_map (fun l => match l with Including _ _ _ => [] | Other t => [t ++ [10]] end) ls.
