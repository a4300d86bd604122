(** Trying code: model of lib/fbuild/temp.py, of the methods of lib/fbuild/builders/__init__.py that
    compile, link and run texts (168-190, 218-242, 249-262, 290-328) and of tempfile_run of
    builders/c/__init__.py (204-214), with the compiler and the linkers of
    builders/c/gcc/__init__.py (GccModel), several tries at a time.

    A file is known by its place, the names on the way to it from the root directory; there are no
    symbolic links, and writing never fails.  What the compiler and the linker make is decided by
    the contents of the file they are given; the commands, their options and other files they use
    are the same all the time.  A command reads its input when it starts and its product is
    changed when it ends, other threads work in between.  A cut off or missing product that a
    command leaves when it fails is modelled, a partly written product while it runs is not.  The
    static linker Ar, which adds to an archive that is there, is not meant by KLink. *)
From Coq Require Import List NArith Bool Arith.
From Verif Require Import FnModel PathModel GccModel.
Import ListNotations.
Open Scope N_scope.

(** *** Paths *)
Definition n_dot : str := [46].
Definition n_dotdot : str := [46; 46].
(** s.split(c) *)
Fixpoint split_at (c : chr) (p : str) : list str :=
  match p with
  | [] => [[]]
  | d :: p' => if N.eqb d c then [] :: split_at c p'
               else match split_at c p' with n :: ns => (d :: n) :: ns | [] => [[d]] end
  end.
(** c.join(l) *)
Fixpoint join_by (c : chr) (l : list str) : str :=
  match l with [] => [] | [x] => x | x :: l' => x ++ c :: join_by c l' end.
(** posixpath.normpath; the names are collected in front. *)
Definition norm_step (absolute : bool) (acc : list str) (x : str) : list str :=
  if str_eqb x [] || str_eqb x n_dot then acc
  else if str_eqb x n_dotdot then
    match acc with
    | [] => if absolute then [] else [x]
    | y :: acc' => if str_eqb y n_dotdot then x :: acc else acc'
    end
  else x :: acc.
Definition norm_names (absolute : bool) (p : str) : list str :=
  rev (fold_left (norm_step absolute) (split_at c_sep p) []).
Definition slashes (p : str) : str :=
  match p with
  | a :: b :: c :: _ => if is_sep a then (if is_sep b && negb (is_sep c) then [a; b] else [a]) else []
  | [a; b] => if is_sep a then (if is_sep b then [a; b] else [a]) else []
  | [a] => if is_sep a then [a] else []
  | [] => []
  end.
Definition normpath (p : str) : str :=
  match slashes p ++ join_by c_sep (norm_names (isabs p) p) with [] => n_dot | q => q end.
Definition full (cwd p : str) : str := if isabs p then p else pjoin cwd p.
(** posixpath.abspath *)
Definition abspath (cwd p : str) : str := normpath (full cwd p).
(** The file that [p] names. *)
Definition loc := list str.
Definition place (cwd p : str) : loc := norm_names true (full cwd p).

(** *** textwrap.dedent *)
Definition c_nl : chr := 10.
Definition blank_chr (c : chr) : bool := N.eqb c 32 || N.eqb c 9.
Fixpoint indent (l : str) : str :=
  match l with c :: l' => if blank_chr c then c :: indent l' else [] | [] => [] end.
Fixpoint common (a b : str) : str :=
  match a, b with c :: a', d :: b' => if N.eqb c d then c :: common a' b' else [] | _, _ => [] end.
Definition margin_step (m : option str) (i : str) : option str :=
  match m with
  | None => Some i
  | Some m => if startswith i m then Some m
              else if startswith m i then Some i
              else Some (common m i)
  end.
Definition dedent (text : str) : str :=
  let lines := map (fun l => if forallb blank_chr l then [] else l) (split_at c_nl text) in
  let indents := map indent (filter (fun l => negb (forallb blank_chr l)) lines) in
  match fold_left margin_step indents None with
  | None | Some [] => join_by c_nl lines
  | Some m => join_by c_nl (map (fun l => if startswith l m then skipn (length m) l else l) lines)
  end.

(** *** A try *)
(** fbuild.ExecutionError or another exception *)
Inductive exc := ExecErr | Other (n : nat).
(** What a command makes of its input, None: the file is missing.  [rest]: what is in the product then. *)
Inductive res := Ok (c : str) | Failed (e : exc) (rest : option str).
Inductive kind := KCompile | KLink | KRun.
(** [k_prefix], [k_suffix]: of the linker used. *)
Record try := Try { k_kind : kind; k_code : str; k_src_suffix : str; k_obj_suffix : str;
  k_prefix : str; k_suffix : str; k_cc : option str -> res; k_ld : option str -> res; k_exec : option str -> res }.

Section Tries.
  Context (cwd root : str).
  (** context.py:60-61, temp.py:12-17 *)
  Definition s_tmp : str := [46; 116; 109; 112].                 (* .tmp *)
  Definition s_temp : str := [116; 101; 109; 112].               (* temp *)
  Definition tmp : str := abspath cwd (pjoin root s_tmp).

  (** [x]: the name that mkdtemp chose; temp.py:47, builders/__init__.py:170, 223 and 295 *)
  Definition dir_of (x : str) : str := pjoin tmp x.
  Definition src_of (k : try) (x : str) : str := pjoin (dir_of x) s_temp ++ k_src_suffix k.
  (** gcc/__init__.py:366-367 *)
  Definition obj_of (k : try) (x : str) : str := replaceext (addroot (src_of k x) root) (k_obj_suffix k).
  (** builders/__init__.py:223 and 295; gcc/__init__.py:64-65 and 404-405 *)
  Definition exe_of (k : try) (x : str) : str :=
    product root (k_prefix k) (k_suffix k) (pjoin (fst (psplit (src_of k x))) s_temp).

  (** Where a thread is: the name of its temporary directory, and what the running command makes. *)
  Inductive th := Idle | ToCompile (x : str) | Compiling (x : str) (r : res) | ToLink (x : str)
    | Linking (x : str) (r : res) | ToRun (x : str) | Running (x : str) (r : res) | Done (x : str) (r : str + exc).
  Record state := State { st_fs : loc -> option str; st_dirs : list str; st_ths : list th }.
  Inductive label := LStart (i : nat) (x : str) | LStep (i : nat) | LOther (l : loc) (c : option str).

  Definition loc_eqb (a b : loc) : bool := if list_eq_dec (list_eq_dec N.eq_dec) a b then true else false.
  Definition put (f : loc -> option str) (l : loc) (c : option str) : loc -> option str :=
    fun l' => if loc_eqb l l' then c else f l'.
  Definition after (r : res) : option str := match r with Ok c => Some c | Failed _ rest => rest end.
  Fixpoint set_th (l : list th) (i : nat) (t : th) : list th :=
    match l, i with
    | [], _ => []
    | _ :: l', O => t :: l'
    | a :: l', S j => a :: set_th l' j t
    end.

  (** One step of a thread.  [print] adds a newline, temp.py:49.  Leaving the with statements removes
      nothing, as [delete] is False (temp.py:22, 31-33). *)
  Definition advance (k : try) (f : loc -> option str) (t : th) : option ((loc -> option str) * th) :=
    match t with
    | ToCompile x => Some (f, Compiling x (k_cc k (f (place cwd (src_of k x)))))
    | Compiling x r =>
        Some (put f (place cwd (obj_of k x)) (after r),
              match r with
              | Failed e _ => Done x (inr e)
              | Ok c => match k_kind k with KCompile => Done x (inl c) | _ => ToLink x end
              end)
    | ToLink x => Some (f, Linking x (k_ld k (f (place cwd (obj_of k x)))))
    | Linking x r =>
        Some (put f (place cwd (exe_of k x)) (after r),
              match r with
              | Failed e _ => Done x (inr e)
              | Ok c => match k_kind k with KRun => ToRun x | _ => Done x (inl c) end
              end)
    | ToRun x => Some (f, Running x (k_exec k (f (place cwd (exe_of k x)))))
    | Running x r => Some (f, Done x (match r with Failed e _ => inr e | Ok c => inl c end))
    | Idle | Done _ _ => None
    end.

  (** mkdtemp takes a name that is not there; names have no slash and are not special. *)
  Definition temp_name (x : str) : bool :=
    negb (existsb is_sep x) && negb (str_eqb x []) && negb (str_eqb x n_dot) && negb (str_eqb x n_dotdot).
  Fixpoint starts (l p : loc) : bool :=
    match p, l with
    | [], _ => true
    | x :: p', y :: l' => str_eqb x y && starts l' p'
    | _ :: _, [] => false
    end.

  Context (ks : list try).
  (** LOther: other tasks write and remove files, but none below the directory for temporary files. *)
  Definition step (s : state) (a : label) : option state :=
    match a with
    | LStart i x =>
        match nth_error ks i, nth_error (st_ths s) i with
        | Some k, Some Idle =>
            if temp_name x && negb (existsb (str_eqb x) (st_dirs s)) then
              Some (State (put (st_fs s) (place cwd (src_of k x)) (Some (dedent (k_code k) ++ [c_nl])))
                          (x :: st_dirs s) (set_th (st_ths s) i (ToCompile x)))
            else None
        | _, _ => None
        end
    | LStep i =>
        match nth_error ks i, nth_error (st_ths s) i with
        | Some k, Some t =>
            match advance k (st_fs s) t with
            | Some (f, t') => Some (State f (st_dirs s) (set_th (st_ths s) i t'))
            | None => None
            end
        | _, _ => None
        end
    | LOther l c => if starts l (place cwd tmp) then None else Some (State (put (st_fs s) l c) (st_dirs s) (st_ths s))
    end.
  Fixpoint steps (s : state) (ls : list label) : option state :=
    match ls with
    | [] => Some s
    | a :: ls' => match step s a with Some s' => steps s' ls' | None => None end
    end.
  Definition initial (f : loc -> option str) (dirs : list str) : state := State f dirs (map (fun _ => Idle) ks).
End Tries.

(** try_compile, try_link_lib, try_link_exe, try_run: True, False or an exception; check_compile and
    the others also log how it went. *)
Definition tried (r : str + exc) : bool + exc :=
  match r with inl _ => inl true | inr ExecErr => inl false | inr e => inr e end.
Inductive logged := LCheck | LPassed | LFailed.
Definition checked (r : str + exc) : list logged * (bool + exc) :=
  match tried r with
  | inl true => ([LCheck; LPassed], inl true)
  | inl false => ([LCheck; LFailed], inl false)
  | inr e => ([LCheck], inr e)
  end.
