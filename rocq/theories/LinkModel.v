(** Model of lib/fbuild/builders/c/gcc/__init__.py: Gcc.__call__, the order of
    libraries (211-264, 300-305), and builders/c/__init__.py: Library (257-300). *)
From Coq Require Import List NArith Bool.
From Verif Require Import FnModel PathModel.
Import ListNotations.

(** A path, or a Library with what it was made with. *)
Inductive lib :=
  | Plain (path : str)
  | Library (path : str) (libpaths : list str) (libs : list lib) (external_libs : list str).

Definition path_of (l : lib) : str := match l with Plain p => p | Library p _ _ _ => p end.

Definition mem (s : str) (l : list str) : bool := existsb (str_eqb s) l.
Definition add_new (l : list str) (s : str) : list str := if mem s l then l else l ++ [s].

(** gcc/__init__.py:248-254: the last name without its first three characters, up to
    its last dot. *)
Definition link_name (path : str) : str :=
  let name := skipn 3 (snd (psplit path)) in
  match last_dot name with
  | Some (a, _) => a
  | None => name
  end.

Record st := St {
  libpaths : list str;
  externals : list str;
  new_libs : list str
}.

(** gcc/__init__.py:247-257 *)
Definition add_lib (s : st) (path : str) : st :=
  St (add_new (libpaths s) (fst (psplit path))) (externals s) (add_new (new_libs s) (link_name path)).

(** gcc/__init__.py:230-257.  [lib in new_libs] holds for no Library, as its equality
    asks for another Library. *)
Fixpoint visit (l : lib) (s : st) : st :=
  match l with
  | Plain p => if mem p (new_libs s) then s else add_lib s p
  | Library p paths libs exts =>
      let s := St (fold_left add_new paths (libpaths s)) (fold_left add_new exts (externals s)) (new_libs s) in
      add_lib (fold_left (fun s l => visit l s) libs s) p
  end.

(** [self_*]: of the builder; the others: of the call. *)
Record result := Result { r_libpaths : list str; r_libs : list str; r_externals : list str }.
Definition link (self_paths paths self_exts exts : list str) (self_libs libs : list lib) : result :=
  let s := St (fold_left add_new (self_paths ++ paths) []) (fold_left add_new (self_exts ++ exts) []) [] in
  let s := fold_left (fun s l => visit l s) (self_libs ++ libs) s in
  Result (libpaths s) (rev (new_libs s)) (externals s).
