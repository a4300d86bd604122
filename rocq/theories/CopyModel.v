(** Model of lib/fbuild/builders/file.py: _copy_or_move (9-35), copy (40-47) and move (93-100) without the
    database around them, of Path.makedirs (path.py:292-303), and of what they use: os.makedirs, shutil.copy
    and shutil.move of regular files, on POSIX.  There are no links, permissions or modes; what is left behind
    by an operation that fails is not modelled (None). *)
From stdpp Require Import base list gmap.
From Coq Require Import NArith.
From Verif Require Import FnModel PathModel PathSpec.

(** The tree by locations: the names leading from the root to an entry. *)
Notation loc := (list (list N)).
Inductive fnode := FFile (c : N) | FDir.
Global Instance fnode_eq_dec : EqDecision fnode.
Proof. solve_decision. Defined.
Record fs := Fs { tree : gmap loc fnode; fs_cwd : loc }.

Definition n_dot : str := [c_dot].
Definition n_dotdot : str := [c_dot; c_dot].
Definition special (x : str) : bool := str_eqb x [] || str_eqb x n_dot || str_eqb x n_dotdot.

(** One name from a directory, as the system resolves it. *)
Definition enter (f : fs) (l : loc) (x : list N) : option loc :=
  match tree f !! l with
  | Some FDir =>
      if str_eqb x [] || str_eqb x n_dot then Some l
      else if str_eqb x n_dotdot then Some (removelast l)
      else match tree f !! (l ++ [x]) with Some _ => Some (l ++ [x]) | None => None end
  | _ => None
  end.
Fixpoint walk (f : fs) (l : loc) (xs : loc) : option loc :=
  match xs with
  | [] => Some l
  | x :: xs' => match enter f l x with Some l' => walk f l' xs' | None => None end
  end.
Definition origin (f : fs) (p : str) : loc := if isabs p then [] else fs_cwd f.
Definition resolve (f : fs) (p : str) : option loc :=
  match p with [] => None | _ => walk f (origin f p) (names p) end.
Definition stat (f : fs) (p : str) : option fnode :=
  match resolve f p with Some l => tree f !! l | None => None end.
(** os.path.exists, os.path.isdir *)
Definition exists_ (f : fs) (p : str) : bool := match stat f p with Some _ => true | None => false end.
Definition isdir (f : fs) (p : str) : bool := match stat f p with Some FDir => true | _ => false end.

(** Where a new entry of that pathname is made. *)
Definition place (f : fs) (p : str) : option loc :=
  match p with
  | [] => None
  | _ =>
      match walk f (origin f p) (removelast (names p)) with
      | Some l =>
          let n : list N := List.last (names p) [] in
          if special n then enter f l n
          else match tree f !! l with Some FDir => Some (l ++ [n]) | _ => None end
      | None => None
      end
  end.
Definition set (f : fs) (l : loc) (n : fnode) : fs := Fs (<[l := n]> (tree f)) (fs_cwd f).
(** open(p, 'wb') and writing *)
Definition write (f : fs) (p : str) (c : N) : option fs :=
  match place f p with
  | Some l => match tree f !! l with Some FDir => None | _ => Some (set f l (FFile c)) end
  | None => None
  end.

(** os.mkdir: slashes at the end do not count *)
Inductive made := MOk (f : fs) | MExists (f : fs) | MErr.
Definition mkdir (f : fs) (p : str) : made :=
  match place f (match rstrip p with [] => p | q => q end) with
  | Some l => match tree f !! l with Some _ => MExists f | None => MOk (set f l FDir) end
  | None => MErr
  end.
(** os.makedirs with exist_ok=False; the recursion is on shorter pathnames *)
Fixpoint os_makedirs (fuel : nat) (f : fs) (p : str) : made :=
  match fuel with
  | O => MErr
  | S fuel =>
      let (head, tail) := psplit p in
      let (head, tail) := match tail with [] => psplit head | _ => (head, tail) end in
      match head, tail with
      | _ :: _, _ :: _ =>
          if exists_ f head then mkdir f p
          else match os_makedirs fuel f head with
               | MOk f | MExists f => if str_eqb tail n_dot then MOk f else mkdir f p
               | MErr => MErr
               end
      | _, _ => mkdir f p
      end
  end.
(** path.py:292-303 *)
Definition makedirs (f : fs) (p : str) : option fs :=
  match os_makedirs (S (length p)) f p with
  | MOk f => Some f
  | MExists f => if exists_ f p && isdir f p then Some f else None
  | MErr => if exists_ f p && isdir f p then Some f else None
  end.

Definition basename (p : str) : str := snd (psplit p).
Definition dirname (p : str) : str := fst (psplit p).

(** shutil.copy; None: OSError, SameFileError *)
Definition sh_copy (f : fs) (src dst : str) : option fs :=
  let dst := if isdir f dst then pjoin dst (basename src) else dst in
  match resolve f src with
  | Some ls =>
      if bool_decide (resolve f dst = Some ls) then None
      else match tree f !! ls with
           | Some (FFile c) => write f dst c
           | _ => None
           end
  | None => None
  end.
(** os.rename of a file *)
Definition rename (f : fs) (src dst : str) : option fs :=
  match resolve f src, place f dst with
  | Some ls, Some ld =>
      match tree f !! ls, tree f !! ld with
      | Some (FFile c), Some FDir => None
      | Some (FFile c), _ => Some (Fs (<[ld := FFile c]> (delete ls (tree f))) (fs_cwd f))
      | _, _ => None
      end
  | _, _ => None
  end.
(** shutil.move of a file; None: OSError, shutil.Error *)
Definition sh_move (f : fs) (src dst : str) : option fs :=
  if isdir f dst then
    let real := pjoin dst (basename (match rstrip src with [] => src | s => s end)) in
    if exists_ f real then None else rename f src real
  else rename f src dst.

(** file.py:14-33; the pathname returned and the tree afterwards *)
Definition copy_or_move (function : fs -> str -> str -> option fs) (buildroot : str) (f : fs) (src dst : str)
    : option (fs * str) :=
  let dst := addroot dst buildroot in
  let prepared :=
    if negb (exists_ f dst) then
      if ends_sep dst then option_map (fun f => (f, path_new [dst; basename src])) (makedirs f dst)
      else option_map (fun f => (f, dst)) (makedirs f (dirname dst))
    else if isdir f dst then Some (f, path_new [dst; basename src])
    else Some (f, dst) in
  match prepared with
  | Some (f, dst) => option_map (fun f => (f, dst)) (function f src dst)
  | None => None
  end.
Definition copy := copy_or_move sh_copy.
Definition move := copy_or_move sh_move.
