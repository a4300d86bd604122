(** Model of lib/fbuild/context.py: install (259-279) and install.py:
    LocalCommander.install (20-31), Installer._install (113-120), on POSIX. *)
From stdpp Require Import base list gmap.
From Coq Require Import NArith.
From Verif Require Import FnModel PathModel.

(** context.py:266-278.  An empty rename is as none.  InstallSpec is a triple. *)
Definition install_target (destdir prefix subdir : str) (rename : option str) (path : str) : str :=
  let target_root :=
    if isabs subdir then path_new [destdir; tail subdir]
    else
      let prefix := if isabs prefix then tail prefix else prefix in
      path_new [path_new [destdir; prefix]; subdir] in
  let base := match rename with
              | Some (c :: r) => c :: r
              | _ => snd (psplit path)
              end in
  path_new [target_root; base].

(** Files by full name.  The names are taken to be written in one way only, links are
    followed for the last name only, and the directories above a target are taken to
    exist or to be created without error; permissions to do so are not modelled. *)
Definition mode := N.
Definition content := N.
Inductive node :=
  | File (c : content) (m : mode)
  | Link (p : str)
  | Dir.
Global Instance node_eq_dec : EqDecision node.
Proof. solve_decision. Defined.
Notation fs := (gmap str node).

(** Following links: the name of the file or of the missing entry meant; None is ELOOP. *)
Fixpoint follow (fuel : nat) (f : fs) (p : str) : option str :=
  match f !! p with
  | Some (Link q) => match fuel with O => None | S n => follow n f q end
  | _ => Some p
  end.
Definition max_links : nat := 40.
Definition target_of (f : fs) (p : str) : option str := follow max_links f p.

(** os.path.exists *)
Definition exists_ (f : fs) (p : str) : bool :=
  match target_of f p with Some q => bool_decide (is_Some (f !! q)) | None => false end.

(** os.chmod, which follows links; None is OSError. *)
Definition chmod (f : fs) (p : str) (m : mode) : option fs :=
  match target_of f p with
  | Some q => match f !! q with
              | Some (File c _) => Some (<[q := File c m]> f)
              | Some Dir => Some f                  (* modes of directories: not kept *)
              | _ => None
              end
  | None => None
  end.

(** shutil.copy: into a directory under the same last name; contents, then mode.
    None: OSError, SameFileError, IsADirectoryError. *)
Definition copy (f : fs) (src dst : str) : option fs :=
  let dst := match target_of f dst with
             | Some q => match f !! q with
                         | Some Dir => pjoin dst (snd (psplit src))
                         | _ => dst
                         end
             | None => dst
             end in
  match target_of f src, target_of f dst with
  | Some s, Some d =>
      if decide (s = d) then None
      else match f !! s, f !! d with
           | Some (File c m), Some (File _ _) => Some (<[d := File c m]> f)
           | Some (File c m), None => Some (<[d := File c m]> f)
           | _, _ => None
           end
  | _, _ => None
  end.

(** os.remove of a file or link; os.symlink *)
Definition remove (f : fs) (p : str) : option fs :=
  match f !! p with
  | Some (File _ _) | Some (Link _) => Some (delete p f)
  | _ => None
  end.
Definition symlink (f : fs) (text p : str) : option fs :=
  match f !! p with
  | None => Some (<[p := Link text]> f)
  | Some _ => None
  end.

(** install.py:20-31; None is an exception.  Link texts are taken as full names. *)
Definition local_install (f : fs) (file target : str) (perms : option mode) : option fs :=
  let r := match f !! file with
           | Some (Link t) =>
               match (if exists_ f target then remove f target else Some f) with
               | Some f => symlink f t target
               | None => None
               end
           | _ => copy f file target
           end in
  match r, perms with
  | Some f, Some m => chmod f file m
  | Some f, None => Some f
  | None, _ => None
  end.

(** install.py:113-120: everything in order; an exception stops it. *)
Fixpoint install_all (f : fs) (items : list (str * str * option mode)) : option fs :=
  match items with
  | [] => Some f
  | (file, target, perms) :: items' =>
      match local_install f file target perms with
      | Some f => install_all f items'
      | None => None
      end
  end.
