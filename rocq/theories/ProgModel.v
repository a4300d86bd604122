(** Model of lib/fbuild/builders/__init__.py: find_program (30-71), without the database around it, over the
    trees of GlobModel.  Names and paths are texts.  And how a found program is run: subprocess passes the
    command to the system's execvp, which looks for a name without a slash in the directories of PATH. *)
From Coq Require Import List NArith Bool.
From Verif Require Import FnModel PathModel PathSpec GlobModel.
Import ListNotations.
Open Scope N_scope.

Definition isfile (w : world) (p : str) : bool := match stat w p with Some NFile => true | _ => false end.

Definition c_colon : chr := 58.
(** text.split(os.pathsep) *)
Fixpoint split_colon (s : str) : list str :=
  match s with
  | [] => [[]]
  | c :: s' => if N.eqb c c_colon then [] :: split_colon s'
               else match split_colon s' with x :: xs => (c :: x) :: xs | [] => [[c]] end
  end.

Definition ends_in (p suffix : str) : bool := startswith (rev p) (rev suffix).
Definition s_exe : str := [46; 101; 120; 101].
Definition s_cmd : str := [46; 99; 109; 100].
Definition s_bat : str := [46; 98; 97; 116].

(** 39-52 *)
Definition windows_names (names : list str) : list str :=
  flat_map (fun name =>
    (if negb (ends_in name s_exe) || negb (ends_in name s_cmd) || negb (ends_in name s_bat)
     then [name ++ s_exe; name ++ s_cmd; name ++ s_bat] else []) ++ [name]) names.

(** 61-66 *)
Fixpoint search_paths (w : world) (name : str) (paths : list str) : option str :=
  match paths with
  | [] => None
  | path :: paths' =>
      let filename := path_new [path; name] in
      if lexists w filename && isfile w filename then Some filename else search_paths w name paths'
  end.

Inductive found := Found (p : str) | Missing (names : list str) | KeyError.
(** 54-68 *)
Fixpoint search (w : world) (names paths : list str) : option str :=
  match names with
  | [] => None
  | name :: names' =>
      if lexists w name && isfile w name then Some (path_new [name])
      else match search_paths w name paths with
           | Some p => Some p
           | None => search w names' paths
           end
  end.

(** 30-71; [path]: the variable PATH, if it is set *)
Definition find_program (w : world) (win32 : bool) (path : option str) (names : list str) (paths : option (list str)) : found :=
  match (match paths with Some ps => Some ps | None => option_map split_colon path end) with
  | None => KeyError
  | Some ps =>
      let names := if win32 then windows_names names else names in
      match search w names ps with Some p => Found p | None => Missing names end
  end.

(** execvp: the file that is run for a command; None: command not found.  (An empty directory in PATH is
    the current one; permissions are not modelled.) *)
Definition has_slash (p : str) : bool := existsb is_sep p.
Definition exec_file (w : world) (path : str) (cmd : str) : option str :=
  if has_slash cmd then (if isfile w cmd then Some cmd else None)
  else find (isfile w) (map (fun d => pjoin d cmd) (split_colon path)).
