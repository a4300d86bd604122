(** Model of lib/fbuild/path.py: Path.glob, Path.globall, and of lib/fbuild/glob.py: glob, iglob, _iglob, glob0, glob1, glob2 and _rlistdir, for
    text patterns on POSIX, over a fixed tree of directories without symbolic links (so lexists
    is exists).  Everything is readable.  Generators are lists: the tree does not change meanwhile. *)
From Coq Require Import List NArith Bool Arith.
From Verif Require Import FnModel PathModel PathSpec.
Import ListNotations.
Open Scope N_scope.

(** The entries of a directory are in the order of os.listdir. *)
Inductive node := NFile | NDir (es : list (str * node)).
(** [w_cwd]: the names leading from the root to the current directory *)
Record world := World { w_root : node; w_cwd : list str }.

Definition entry (es : list (str * node)) (x : str) : option node :=
  option_map snd (find (fun e => str_eqb (fst e) x) es).
Fixpoint node_at (n : node) (loc : list str) : option node :=
  match loc with
  | [] => Some n
  | x :: loc' => match n with
                 | NDir es => match entry es x with Some n' => node_at n' loc' | None => None end
                 | NFile => None
                 end
  end.

Definition str_dot : str := [c_dot].
Definition str_dotdot : str := [c_dot; c_dot].

(** Resolution of a pathname by the system, from a location.  Every name, also an empty one after
    a last slash, needs a directory; the parent of the root is the root. *)
Definition enter (w : world) (loc : list str) (x : str) : option (list str) :=
  match node_at (w_root w) loc with
  | Some (NDir es) =>
      if str_eqb x [] || str_eqb x str_dot then Some loc
      else if str_eqb x str_dotdot then Some (removelast loc)
      else match entry es x with Some _ => Some (loc ++ [x]) | None => None end
  | _ => None
  end.
Fixpoint walk (w : world) (loc : list str) (xs : list str) : option (list str) :=
  match xs with
  | [] => Some loc
  | x :: xs' => match enter w loc x with Some loc' => walk w loc' xs' | None => None end
  end.
(** The empty pathname is ENOENT. *)
Definition resolve (w : world) (p : str) : option (list str) :=
  match p with
  | [] => None
  | _ => walk w (if isabs p then [] else w_cwd w) (names p)
  end.
Definition stat (w : world) (p : str) : option node :=
  match resolve w p with Some loc => node_at (w_root w) loc | None => None end.

(** os.path.lexists, os.path.isdir, os.listdir (None: OSError) *)
Definition lexists (w : world) (p : str) : bool := match stat w p with Some _ => true | None => false end.
Definition isdir (w : world) (p : str) : bool := match stat w p with Some (NDir _) => true | _ => false end.
Definition listdir (w : world) (p : str) : option (list str) :=
  match stat w p with Some (NDir es) => Some (map fst es) | _ => None end.

(** glob.py:144-145; the callers pass no empty text *)
Definition ishidden (p : str) : bool := match p with c :: _ => N.eqb c c_dot | [] => false end.
(** 147-151 *)
Definition str_deep : str := [c_star; c_star].
Definition isrecursive (p : str) : bool := str_eqb p str_deep.

Definition or_dot (d : str) : str := match d with [] => str_dot | _ => d end.

(** 81-93; None: the pattern is rejected (re.error).  C41: the cache of patterns does not matter. *)
Definition glob1 (w : world) (dirname pat : str) : option (list str) :=
  match listdir w (or_dot dirname) with
  | None => Some []
  | Some ns => fst (fn_filter [] (if ishidden pat then ns else filter (fun x => negb (ishidden x)) ns) pat)
  end.

(** 95-104 *)
Definition glob0 (w : world) (dirname basename : str) : list str :=
  match basename with
  | [] => if isdir w dirname then [basename] else []
  | _ => if lexists w (pjoin dirname basename) then [basename] else []
  end.

(** 116-131.  The recursion limit is not modelled: [fuel] is the height of the tree. *)
Fixpoint rlistdir (fuel : nat) (w : world) (dirname : str) : list str :=
  match fuel with
  | O => []
  | S fuel =>
      let dirname := or_dot dirname in
      match listdir w dirname with
      | None => []
      | Some ns => flat_map (fun x => if ishidden x then []
                                      else x :: map (pjoin x) (rlistdir fuel w (pjoin dirname x))) ns
      end
  end.

Fixpoint height (n : node) : nat :=
  match n with
  | NFile => O
  | NDir es => S (fold_right (fun e h => Nat.max (height (snd e)) h) O es)
  end.

(** 109-113 *)
Definition glob2 (w : world) (dirname : str) : list str := [] :: rlistdir (S (height (w_root w))) w dirname.

(** The results for each directory, in turn; None: some step raised re.error. *)
Fixpoint gather (f : str -> option (list str)) (ds : list str) : option (list str) :=
  match ds with
  | [] => Some []
  | d :: ds' => match f d with
                | None => None
                | Some l => option_map (app l) (gather f ds')
                end
  end.

(** 40-75; the directory part is shorter than the pathname, whose length is enough fuel *)
Fixpoint iglob_ (fuel : nat) (w : world) (recursive : bool) (pathname : str) : option (list str) :=
  match fuel with
  | O => None
  | S fuel =>
      let (dirname, basename) := psplit pathname in
      if negb (has_magic pathname) then
        Some (match basename with
              | [] => if isdir w dirname then [pathname] else []
              | _ => if lexists w pathname then [pathname] else []
              end)
      else
        match dirname with
        | [] => if recursive && isrecursive basename then Some (glob2 w dirname) else glob1 w dirname basename
        | _ =>
            let dirs := if negb (str_eqb dirname pathname) && has_magic dirname
                        then iglob_ fuel w recursive dirname else Some [dirname] in
            let glob_in_dir d :=
              if has_magic basename
              then if recursive && isrecursive basename then Some (glob2 w d) else glob1 w d basename
              else Some (glob0 w d basename) in
            match dirs with
            | None => None
            | Some ds => gather (fun d => option_map (map (pjoin d)) (glob_in_dir d)) ds
            end
        end
  end.

(** 9-38: iglob drops the first result of the pattern ** *)
Definition glob_files (w : world) (recursive : bool) (pathname : str) : option (list str) :=
  option_map (fun l => if recursive && isrecursive pathname then tl l else l)
    (iglob_ (S (length pathname)) w recursive pathname).

(** Path.iglob (path.py:236-247): is the path excluded?  The patterns are tried in order until one matches. *)
Fixpoint excluded (path : str) (exclude : list str) : option bool :=
  match exclude with
  | [] => Some false
  | pat :: exclude' => match fnmatch path pat with
                       | None => None
                       | Some true => Some true
                       | Some false => excluded path exclude'
                       end
  end.
(** Path.glob (path.py:233-247).  A pattern given as one text is a list of one. *)
Definition path_glob (w : world) (exclude : list str) (pathname : str) : option (list str) :=
  match glob_files w true pathname with
  | None => None
  | Some l => gather (fun q => match excluded q exclude with
                               | None => None
                               | Some b => Some (if b then [] else [q])
                               end) l
  end.

(** Path.globall (path.py:520-540): texts and (nested) iterables of them.  A nested call is not
    given the keyword arguments. *)
Inductive pats := PText (s : str) | PList (ps : list pats).
Fixpoint globall1 (w : world) (exclude : list str) (p : pats) : option (list str) :=
  match p with
  | PText s => path_glob w exclude s
  | PList ps =>
      (fix go (ps : list pats) : option (list str) :=
         match ps with
         | [] => Some []
         | p :: ps' => match globall1 w [] p with
                       | None => None
                       | Some l => option_map (app l) (go ps')
                       end
         end) ps
  end.
Fixpoint globall (w : world) (exclude : list str) (ps : list pats) : option (list str) :=
  match ps with
  | [] => Some []
  | p :: ps' => match globall1 w exclude p with
                | None => None
                | Some l => option_map (app l) (globall w exclude ps')
                end
  end.
