(** What is expected of version checks. *)
From Coq Require Import List NArith ZArith Bool.
From Verif Require Import FnModel VerModel.
Import ListNotations.
Open Scope N_scope.

(** A decimal number, leading zeros allowed. *)
Inductive numeral : str -> Z -> Prop :=
  | num_one d : d <= 9 -> numeral [48 + d] (Z.of_N d)
  | num_more s z d : numeral s z -> d <= 9 -> numeral (s ++ [48 + d]) (z * 10 + Z.of_N d).

(** Numbers with dots between them. *)
Inductive dotted : str -> list Z -> Prop :=
  | dot_one s z : numeral s z -> dotted s [z]
  | dot_more s z t zs : numeral s z -> dotted t zs -> dotted (s ++ c_dot :: t) (z :: zs).

(** Component-wise numeric order: the first different numbers decide; a version is
    smaller than its own refinements. *)
Inductive lower : list Z -> list Z -> Prop :=
  | low_nil z zs : lower [] (z :: zs)
  | low_head x y xs ys : (x < y)%Z -> lower (x :: xs) (y :: ys)
  | low_tail x xs ys : lower xs ys -> lower (x :: xs) (x :: ys).

Record wanted := Wanted {
  w_exact : option (list Z);
  w_least : option (list Z);
  w_most : option (list Z)
}.
Definition satisfies (w : wanted) (v : list Z) : Prop :=
  (forall e, w_exact w = Some e -> v = e) /\
  (forall l, w_least w = Some l -> ~ lower v l) /\
  (forall m, w_most w = Some m -> ~ lower m v).
Definition as_req (w : wanted) : requirement :=
  Req (option_map (map CInt) (w_exact w)) (option_map (map CInt) (w_least w)) (option_map (map CInt) (w_most w)).

(** Strings by code points. *)
Inductive str_lower : str -> str -> Prop :=
  | sl_nil c s : str_lower [] (c :: s)
  | sl_head c d s t : c < d -> str_lower (c :: s) (d :: t)
  | sl_tail c s t : str_lower s t -> str_lower (c :: s) (c :: t).

(** Mixed tuples: what decides is the end of one, or the first difference. *)
Inductive tuple_lower : version -> version -> Prop :=
  | tl_nil y b : tuple_lower [] (y :: b)
  | tl_int x y a b : (x < y)%Z -> tuple_lower (CInt x :: a) (CInt y :: b)
  | tl_str s t a b : str_lower s t -> tuple_lower (CStr s :: a) (CStr t :: b)
  | tl_tail x a b : tuple_lower a b -> tuple_lower (x :: a) (x :: b).
Inductive mixed : version -> version -> Prop :=
  | mx_int_str z s a b : mixed (CInt z :: a) (CStr s :: b)
  | mx_str_int z s a b : mixed (CStr s :: a) (CInt z :: b)
  | mx_tail x a b : mixed a b -> mixed (x :: a) (x :: b).

(** What int() reads: white space, a sign, digits with single underscores between them, white space. *)
Definition blanks (s : str) : Prop := Forall (fun c => In c [9; 10; 11; 12; 13; 28; 29; 30; 31; 32]) s.
Inductive grouped : str -> Z -> Prop :=
  | gr_one d : d <= 9 -> grouped [48 + d] (Z.of_N d)
  | gr_more s z d : grouped s z -> d <= 9 -> grouped (s ++ [48 + d]) (z * 10 + Z.of_N d)
  | gr_group s z d : grouped s z -> d <= 9 -> grouped (s ++ [95; 48 + d]) (z * 10 + Z.of_N d).
Inductive integer : str -> Z -> Prop :=
  | int_plain a n b z : blanks a -> grouped n z -> blanks b -> integer (a ++ n ++ b) z
  | int_plus a n b z : blanks a -> grouped n z -> blanks b -> integer (a ++ 43 :: n ++ b) z
  | int_minus a n b z : blanks a -> grouped n z -> blanks b -> integer (a ++ 45 :: n ++ b) (- z).
(** A version as it is read: parts without dots, with dots between them; each an integer if it can be read as
    one, else itself. *)
Definition reads_as (w : str) (c : comp) : Prop :=
  match c with CInt z => integer w z | CStr t => t = w /\ forall z, ~ integer w z end.
Inductive reads_version : str -> version -> Prop :=
  | rv_one w c : ~ In c_dot w -> reads_as w c -> reads_version w [c]
  | rv_more w c s v : ~ In c_dot w -> reads_as w c -> reads_version s v -> reads_version (w ++ c_dot :: s) (c :: v).
