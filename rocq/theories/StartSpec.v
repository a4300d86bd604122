(** What is expected of the files of a build. *)
From stdpp Require Import base list gmap.
From Coq Require Import NArith.
From Verif Require Import FnModel PathModel PathSpec CopyModel.

(** Pathnames that do not go up, and the location they lead to. *)
Definition plain (p : str) : Prop := ~ List.In dotdot (components p).
Definition leads (cwd : loc) (p : str) : loc := (if isabs p then [] else cwd) ++ components p.
(** The pathname of [s] in the directory [d]: an absolute one stands for itself. *)
Definition seen_from (d s p : str) : Prop :=
  (isabs s = true /\ p = s) \/
  (isabs s = false /\ d <> [] /\ isabs p = isabs d /\ components p = components d ++ components s).
(** [l] is [a] or lies below it. *)
Definition inside (a l : loc) : Prop := exists m, l = a ++ m.
(** [g] has the directory [l] and those above it, and is otherwise like [f]. *)
Definition with_dirs (l : loc) (f g : fs) : Prop :=
  fs_cwd g = fs_cwd f /\ (forall a, inside a l -> tree g !! a = Some FDir) /\
  (forall a, inside a l -> tree f !! a = None \/ tree f !! a = Some FDir) /\
  (forall a, ~ inside a l -> tree g !! a = tree f !! a).
(** [l] lies above [m]. *)
Definition above (l m : loc) : Prop := exists x r, m = l ++ x :: r.
(** The pathname ends in a name: not in a slash or a dot. *)
Definition names_file (p : str) : Prop :=
  exists h n, p = h ++ n /\ (h = [] \/ exists h', h = h' ++ [c_sep]) /\ n <> [] /\ n <> [c_dot] /\ n <> dotdot /\ ~ List.In c_sep n.
