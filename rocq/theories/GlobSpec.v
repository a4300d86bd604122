(** What is expected of globbing: patterns by components. *)
From Coq Require Import List NArith Bool.
From Verif Require Import FnModel FnSpec PathModel GlobModel.
Import ListNotations.
Open Scope N_scope.

(** A component: a plain name, a shell pattern, or ** *)
Inductive comp := CName (s : str) | CGlob (g : glob) | CDeep.
Definition comp_text (c : comp) : str :=
  match c with CName s => s | CGlob g => show g | CDeep => str_deep end.
(** With recursive=False, ** is a pattern like others. *)
Definition comp_ok (recursive : bool) (c : comp) : Prop :=
  comp_text c <> [] /\ ~ In c_sep (comp_text c) /\
  match c with
  | CName s => has_magic s = false
  | CGlob g => pattern_ok g /\ has_magic (show g) = true /\ (recursive = true -> show g <> str_deep)
  | CDeep => recursive = true
  end.
Definition is_magic (c : comp) : Prop := match c with CName _ => False | _ => True end.

(** The start of a pattern: empty, slashes only, or a path not ending in a slash. *)
Definition base_ok (b : str) : Prop :=
  has_magic b = false /\ (forallb is_sep b = true \/ ends_sep b = false).

(** Names put behind a path, with single slashes. *)
Definition put (b : str) (xs : list str) : str := fold_left pjoin xs b.

(** Trees whose names are file names: not empty, no slash, not . or .., no two the same in a directory. *)
Inductive tree_ok : node -> Prop :=
  | ok_file : tree_ok NFile
  | ok_dir es :
      NoDup (map fst es) ->
      (forall x n, In (x, n) es ->
        x <> [] /\ ~ In c_sep x /\ ~ In c_nl x /\ x <> str_dot /\ x <> str_dotdot /\ tree_ok n) ->
      tree_ok (NDir es).

Inductive leads (n : node) : list str -> node -> Prop :=
  | leads_nil : leads n [] n
  | leads_snoc loc es x n' : leads n loc (NDir es) -> In (x, n') es -> leads n (loc ++ [x]) n'.
Definition is_dir (w : world) (loc : list str) : Prop := exists es, leads (w_root w) loc (NDir es).
Definition world_ok (w : world) : Prop :=
  tree_ok (w_root w) /\ is_dir w (w_cwd w).
Definition child (w : world) (loc : list str) (x : str) : Prop :=
  is_dir w loc /\ exists n, leads (w_root w) (loc ++ [x]) n.

(** Where the name [s] leads from a directory. *)
Inductive enters (w : world) (loc : list str) (s : str) : list str -> Prop :=
  | enters_child : child w loc s -> enters w loc s (loc ++ [s])
  | enters_dot : is_dir w loc -> s = str_dot -> enters w loc s loc
  | enters_up : is_dir w loc -> s = str_dotdot -> enters w loc s (removelast loc).

Definition hidden (x : str) : Prop := exists x', x = c_dot :: x'.

(** A way down through names that are not hidden. *)
Inductive descends (w : world) (loc : list str) : list str -> Prop :=
  | descends_nil : descends w loc []
  | descends_snoc xs x : descends w loc xs -> child w (loc ++ xs) x -> ~ hidden x -> descends w loc (xs ++ [x]).

(** [reaches w cs loc xs loc']: the names [xs] match the components [cs] and lead from [loc] to [loc']. *)
Inductive reaches (w : world) : list comp -> list str -> list str -> list str -> Prop :=
  | reaches_nil loc : reaches w [] loc [] loc
  | reaches_name s cs loc loc1 xs loc2 :
      enters w loc s loc1 -> reaches w cs loc1 xs loc2 -> reaches w (CName s :: cs) loc (s :: xs) loc2
  | reaches_glob g cs loc x xs loc2 :
      child w loc x -> lang anything g x -> (hidden x -> hidden (show g)) ->
      reaches w cs (loc ++ [x]) xs loc2 -> reaches w (CGlob g :: cs) loc (x :: xs) loc2
  | reaches_deep cs loc ys xs loc2 :
      is_dir w loc -> descends w loc ys ->
      reaches w cs (loc ++ ys) xs loc2 -> reaches w (CDeep :: cs) loc (ys ++ xs) loc2.

(** Where the start of a pattern leads. *)
Inductive walks (w : world) (loc : list str) : list str -> list str -> Prop :=
  | walks_nil : walks w loc [] loc
  | walks_skip xs loc' : walks w loc xs loc' -> is_dir w loc' -> walks w loc (xs ++ [[]]) loc'
  | walks_snoc xs x loc1 loc2 : walks w loc xs loc1 -> enters w loc1 x loc2 -> walks w loc (xs ++ [x]) loc2.
Definition starts (w : world) (b : str) (loc : list str) : Prop :=
  match b with
  | [] => loc = w_cwd w
  | _ => walks w (if isabs b then [] else w_cwd w) (PathSpec.names b) loc
  end.

(** All texts of a nested list. *)
Fixpoint texts (p : pats) : list str :=
  match p with PText s => [s] | PList ps => flat_map texts ps end.
