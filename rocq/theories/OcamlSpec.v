(** Which files an OCaml source depends on. *)
From Coq Require Import List NArith Bool.
From Verif Require Import FnModel PathModel PathSpec GlobModel.
Import ListNotations.
Open Scope N_scope.

(** The system finds something under the pathname. *)
Definition present (w : world) (p : str) : Prop := lexists w p = true.

(** The name of a module with a small or a capital first letter. *)
Definition small (m : str) : str :=
  match m with c :: m' => (if (65 <=? c) && (c <=? 90) then c + 32 else c) :: m' | [] => [] end.
Definition capital (m : str) : str :=
  match m with c :: m' => (if (97 <=? c) && (c <=? 122) then c - 32 else c) :: m' | [] => [] end.

(** The interface and the implementation of a module in a directory (the empty text: the current one):
    the file spelled with a small letter, or the one spelled with a capital if there is no such file. *)
Definition is_file_of (w : world) (d m p : str) : Prop := exists suffix,
  (suffix = [46; 109; 108; 105] \/ suffix = [46; 109; 108]) /\ present w p /\
  (p = pjoin d (small m ++ suffix) \/
   p = pjoin d (capital m ++ suffix) /\ ~ present w (pjoin d (small m ++ suffix))).

(** The files of a module: those in the current directory; if there are none, those in the includes that exist. *)
Definition names_file (w : world) (includes : list str) (m p : str) : Prop :=
  is_file_of w [] m p \/
  (forall q, ~ is_file_of w [] m q) /\ exists i, In i includes /\ present w i /\ is_file_of w i m p.

(** The pathname with the build root taken away. *)
Definition outside (buildroot p q : str) : Prop :=
  p = buildroot ++ c_sep :: q \/ (p = q /\ forall r, p <> buildroot ++ c_sep :: r).

(** The places where the interface of [src] may be: beside it, at the same place outside the build root,
    and in a directory. *)
Definition beside (src p : str) : Prop := exists b, src = b ++ [46; 109; 108] /\ p = b ++ [46; 109; 108; 105].
Definition in_sources (buildroot src p : str) : Prop := exists q, beside src q /\ outside buildroot q p.
Definition in_directory (buildroot src d p : str) : Prop := exists q n,
  in_sources buildroot src q /\ is_last_name q n /\ p = pjoin d n.

(** The interface that is taken. *)
Definition has_interface (w : world) (includes : list str) (buildroot src p : str) : Prop :=
  present w p /\
  (beside src p \/
   (forall q, beside src q -> ~ present w q) /\
   (in_sources buildroot src p \/
    (forall q, in_sources buildroot src q -> ~ present w q) /\
    exists i is, includes = i :: is /\ in_directory buildroot src i p)).

(** The name of a module has no slash and is not made of dots only. *)
Definition module_ok (m : str) : Prop := ~ In c_sep m /\ exists c, In c m /\ c <> c_dot.
(** The name of a source is more than dots before its extension. *)
Definition source_ok (src : str) : Prop := forall b, src = b ++ [46; 109; 108] ->
  exists n c, is_last_name b n /\ In c n /\ c <> c_dot.
(** No include directory is a file. *)
Definition include_ok (w : world) (i : str) : Prop := present w i -> isdir w i = true.
