(** Model of lib/fbuild/path.py: the string operations of Path, on POSIX.  The
    functions of os.path they use are CPython's posixpath and genericpath, given
    here as they are defined there. *)
From Coq Require Import List NArith Bool Arith.
From Verif Require Import FnModel.
Import ListNotations.
Open Scope N_scope.

Definition c_sep : chr := 47.    (* / *)
Definition is_sep (c : chr) : bool := N.eqb c c_sep.

(** posixpath.isabs *)
Definition isabs (p : str) : bool := match p with c :: _ => is_sep c | [] => false end.

Fixpoint startswith (p prefix : str) {struct prefix} : bool :=
  match prefix, p with
  | [], _ => true
  | c :: prefix', d :: p' => N.eqb c d && startswith p' prefix'
  | _ :: _, [] => false
  end.

(** path.endswith('/') *)
Definition ends_sep (p : str) : bool := match rev p with c :: _ => is_sep c | [] => false end.

(** posixpath.join of two *)
Definition pjoin (a b : str) : str :=
  if isabs b then b
  else match a with
       | [] => b
       | _ => if ends_sep a then a ++ b else a ++ c_sep :: b
       end.

(** p[:i], p[i:] for i = p.rfind('/') + 1 *)
Fixpoint cut (p : str) : str * str :=
  match p with
  | [] => ([], [])
  | c :: p' =>
      let (h, t) := cut p' in
      match h with
      | [] => if is_sep c then ([c], t) else ([], c :: t)
      | _ => (c :: h, t)
      end
  end.

Fixpoint rstrip (h : str) : str :=
  match h with
  | [] => []
  | c :: h' => match rstrip h' with
               | [] => if is_sep c then [] else [c]
               | r => c :: r
               end
  end.

(** posixpath.split *)
Definition psplit (p : str) : str * str :=
  let (h, t) := cut p in
  if forallb is_sep h then (h, t) else (rstrip h, t).

(** t[:i], t[i:] for i = t.rfind('.'), if there is one *)
Fixpoint last_dot (t : str) : option (str * str) :=
  match t with
  | [] => None
  | c :: t' => match last_dot t' with
               | Some (a, b) => Some (c :: a, b)
               | None => if N.eqb c c_dot then Some ([], t) else None
               end
  end.

(** genericpath._splitext *)
Definition splitext (p : str) : str * str :=
  let (h, t) := cut p in
  match last_dot t with
  | Some (a, b) => if forallb (N.eqb c_dot) a then (p, []) else (h ++ a, b)
  | None => (p, [])
  end.

(** Path( *paths ), path.py:30-38; os.sep is the slash. *)
Definition path_new (ps : list str) : str := fold_left pjoin ps [].

(** path.py:113-129 *)
Definition addroot (p root : str) : str :=
  if negb (startswith p root) then
    let q := if isabs p then snd (psplit p) else p in
    path_new [root; q]
  else path_new [p].

(** path.py:344-356 *)
Definition removeroot (p root : str) : str :=
  if startswith p root then path_new [skipn (length root) p] else path_new [p].

(** path.py:364-370 *)
Definition replaceext (p ext : str) : str := path_new [fst (splitext p) ++ ext].

(** path.py:104-111 *)
Definition addprefix (p prefix : str) : str :=
  let (d, b) := psplit p in path_new [d; prefix ++ b].

(** path.py:405-425; the accumulated list is built at the front, so no reversal.
    None: out of fuel, i.e. the loop is still running. *)
Fixpoint splitall_loop (fuel : nat) (old : str) (acc : list str) : option (list str) :=
  match fuel with
  | O => None
  | S fuel =>
      let (path, filename) := psplit old in
      if str_eqb path old then
        Some (match path with [] => acc | _ => path :: acc end)
      else splitall_loop fuel path (filename :: acc)
  end.
Definition splitall (fuel : nat) (p : str) : option (list str) := splitall_loop fuel p [].
