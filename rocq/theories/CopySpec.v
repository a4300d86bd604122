(** What is expected of copying and moving files. *)
From stdpp Require Import base list gmap.
From Coq Require Import NArith.
From Verif Require Import FnModel PathModel CopyModel.

(** Trees: the root and everything that has entries is a directory, and so is the current directory; names
    are not empty, not . or .., and have no slash. *)
Record fs_ok (f : fs) : Prop := FsOk {
  ok_root : tree f !! [] = Some FDir;
  ok_up : forall l x, is_Some (tree f !! (l ++ [x])) -> tree f !! l = Some FDir;
  ok_name : forall l x, is_Some (tree f !! (l ++ [x])) -> x <> [] /\ x <> [c_dot] /\ x <> [c_dot; c_dot] /\ ~ List.In c_sep x;
  ok_cwd : tree f !! fs_cwd f = Some FDir
}.

(** Nothing is lost and nothing changes but that there may be new directories. *)
Definition only_new_dirs (f f' : fs) : Prop :=
  fs_cwd f' = fs_cwd f /\
  (forall l n, tree f !! l = Some n -> tree f' !! l = Some n) /\
  (forall l, tree f !! l = None -> tree f' !! l = None \/ tree f' !! l = Some FDir).
(** The same but for the file at [w], which is written, and for those in [gone], which are removed. *)
Definition changes (gone : loc -> Prop) (w : loc) (c : N) (f f' : fs) : Prop :=
  fs_cwd f' = fs_cwd f /\ tree f' !! w = Some (FFile c) /\ tree f !! w <> Some FDir /\
  (forall l, l <> w -> gone l -> tree f' !! l = None) /\
  (forall l n, l <> w -> ~ gone l -> tree f !! l = Some n -> tree f' !! l = Some n) /\
  (forall l, l <> w -> tree f !! l = None -> tree f' !! l = None \/ tree f' !! l = Some FDir).

(** A name of an entry of a directory, and the pathname of what is reached from [b] by such names. *)
Definition regular (x : list N) : Prop := x <> [] /\ x <> [c_dot] /\ x <> [c_dot; c_dot] /\ ~ List.In c_sep x.
Definition down (b : str) (xs : loc) : str := fold_left pjoin xs b.
(** The directory in which what follows the pathname is looked up: the empty one stands for the current directory. *)
Definition dirat (f : fs) (d : str) : option loc := match d with [] => Some (fs_cwd f) | _ => resolve f d end.
(** [b] is empty or names an existing directory, and is / or has no slash at its end. *)
Definition base (f : fs) (b : str) : Prop :=
  (b = [] \/ isdir f b = true) /\ (forallb is_sep b = true \/ ends_sep b = false).
(** Nothing that is not a directory is in the way from [b] down. *)
Definition clear (f : fs) (b : str) (xs : loc) : Prop :=
  forall i, stat f (down b (take i xs)) = None \/ stat f (down b (take i xs)) = Some FDir.
