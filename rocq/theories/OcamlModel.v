(** Model of lib/fbuild/builders/ocaml/__init__.py: Ocamldep.source_dependencies (67-144), over the trees
    of GlobModel.  What Ocamldep.modules answers for the file is an argument (C56 is about reading it).
    The listing of the current directory is that of "."; letters change case in ASCII only.  The build
    root is that of the context: a buildroot among the keywords is a TypeError of Ocamldep.modules. *)
From Coq Require Import List NArith Bool.
From Verif Require Import FnModel PathModel PathSpec GlobModel.
Import ListNotations.
Open Scope N_scope.

Definition to_lower (c : chr) : chr := if (65 <=? c) && (c <=? 90) then c + 32 else c.
Definition to_upper (c : chr) : chr := if (97 <=? c) && (c <=? 122) then c - 32 else c.
(** module[0].lower() + module[1:], module[0].upper() + module[1:]; None: IndexError *)
Definition first_lower (m : str) : option str := match m with c :: m' => Some (to_lower c :: m') | [] => None end.
Definition first_upper (m : str) : option str := match m with c :: m' => Some (to_upper c :: m') | [] => None end.

Definition s_ml : str := [46; 109; 108].
Definition s_mli : str := [46; 109; 108; 105].

Definition mem (x : str) (l : list str) : bool := existsb (str_eqb x) l.

(** 98-112, one suffix: the file found, if any; None: IndexError *)
Definition find_suffix (dirs : list str) (module suffix : str) : option (list str) :=
  match first_lower module, first_upper module with
  | Some l, Some u =>
      if mem (l ++ suffix) dirs then Some [l ++ suffix]
      else if mem (u ++ suffix) dirs then Some [u ++ suffix]
      else Some []
  | _, _ => None
  end.

(** 74-114: f; the files it appends to deps (it answers whether there are any).  None: an exception. *)
Definition find_module (w : world) (module : str) (include : option str) : option (list str) :=
  let search dirs :=
    match find_suffix dirs module s_mli, find_suffix dirs module s_ml with
    | Some a, Some b =>
        Some (map (fun p => match include with None => p | Some i => path_new [i; p] end) (a ++ b))
    | _, _ => None
    end in
  match include with
  | None => match listdir w str_dot with Some dirs => search dirs | None => None end
  | Some i => if negb (lexists w i) then Some []
              else match listdir w i with Some dirs => search dirs | None => None end
  end.

(** 116-120 *)
Fixpoint find_in (w : world) (module : str) (includes : list str) : option (list str) :=
  match includes with
  | [] => Some []
  | i :: is => match find_module w module (Some i) with
               | Some a => option_map (app a) (find_in w module is)
               | None => None
               end
  end.
Fixpoint find_modules (w : world) (includes : list str) (modules : list str) : option (list str) :=
  match modules with
  | [] => Some []
  | m :: ms =>
      match find_module w m None with
      | None => None
      | Some [] => match find_in w m includes with
                   | Some a => option_map (app a) (find_modules w includes ms)
                   | None => None
                   end
      | Some a => option_map (app a) (find_modules w includes ms)
      end
  end.

Definition endswith (p suffix : str) : bool := startswith (rev p) (rev suffix).

(** 122-142; the loop over the includes is left after the first one *)
Definition find_interface (w : world) (includes : list str) (buildroot src : str) : list str :=
  if endswith src s_ml then
    let mli := replaceext src s_mli in
    if lexists w mli then [mli]
    else
      let mli := removeroot mli (buildroot ++ [c_sep]) in
      if lexists w mli then [mli]
      else match includes with
           | [] => []
           | i :: _ => let path := path_new [i; snd (psplit mli)] in
                       if lexists w path then [path] else []
           end
  else [].

(** 67-144 *)
Definition source_dependencies (w : world) (includes : list str) (buildroot : str) (modules : list str)
    (src : str) : option (list str) :=
  match find_modules w includes modules with
  | Some deps => Some (deps ++ find_interface w includes buildroot src)
  | None => None
  end.
