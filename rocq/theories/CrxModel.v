(** Model of Path.find, lib/fbuild/path.py 188-200, and of what copy_regex copies, lib/fbuild/builders/file.py 47-87.
    Directories are trees without links; what os.walk gives does not change meanwhile, so that dstdir is not below srcdir.
    The regular expressions are any functions.  Copying itself is C74, the database C42. *)
From Coq Require Import List Bool String Ascii.
Import ListNotations.
Open Scope string_scope.

(** The entries of a directory in the order in which the system lists them. *)
Inductive tree := End | File (name : string) (rest : tree) | Sub (name : string) (sub rest : tree).
Fixpoint files (t : tree) : list string := match t with End => [] | File n r => n :: files r | Sub _ _ r => files r end.
Fixpoint dirs (t : tree) : list string := match t with End => [] | File _ r => dirs r | Sub n _ r => n :: dirs r end.
(** os.path.join *)
Definition slash : ascii := "/"%char.
Definition starts_slash (s : string) : bool := match s with String c _ => Ascii.eqb c slash | EmptyString => false end.
Fixpoint ends_slash (s : string) : bool :=
  match s with EmptyString => false | String c EmptyString => Ascii.eqb c slash | String _ s => ends_slash s end.
Definition join (a b : string) : string :=
  if starts_slash b then b else if (a =? "") || ends_slash a then a ++ b else a ++ "/" ++ b.
(** path.py 192-200 for one directory *)
Definition here (pattern : string -> bool) (include_dirs : bool) (root : string) (t : tree) : list string :=
  map (join root) (filter pattern (files t ++ if include_dirs then dirs t else [])%list).
(** The directories below, as os.walk visits them. *)
Fixpoint below (pattern : string -> bool) (include_dirs : bool) (root : string) (t : tree) : list string :=
  match t with
  | End => []
  | File _ r => below pattern include_dirs root r
  | Sub n s r =>
      (here pattern include_dirs (join root n) s ++ below pattern include_dirs (join root n) s ++ below pattern include_dirs root r)%list
  end.
Definition find (pattern : string -> bool) (include_dirs : bool) (root : string) (t : tree) : list string :=
  (here pattern include_dirs root t ++ below pattern include_dirs root t)%list.

Fixpoint drop (n : nat) (s : string) : string := match n, s with S n, String _ s => drop n s | _, _ => s end.
(** file.py 60-82: the sources and destinations.  [exclude]: re.search finds the exclude_pattern; [subn]: re.subn *)
Definition copies (exclude : string -> bool) (subn : string -> string * nat) (include_dirs : bool) (srcdir dstdir : string) (t : tree) :
    list (string * string) :=
  flat_map (fun src =>
    if exclude src then []
    else let (dst, nsub) := subn (drop (length (srcdir ++ "/")) src) in
         if Nat.ltb 0 nsub then [(src, join dstdir dst)] else []) (find (fun _ => true) include_dirs srcdir t).
