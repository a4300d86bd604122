(** Microsoft's C compiler: model of lib/fbuild/builders/c/msvc.py (Cl.__call__ 47-103, Compiler.__call__
    141-158, Lib.__call__ 188-225, Link._run 254-332, ExeLink 356-361 and DllLink 376-398, Builder.compile
    422-469) and of Library.__eq__ of builders/c/__init__.py (285-295).  Paths are those of PathModel, as on a
    POSIX system.  Caching, messages and the running of the programs are not part of it: what they write is
    given. *)
From Coq Require Import List NArith Bool.
From Verif Require Import FnModel PathModel LinkModel GccModel TryModel JavaModel.
Import ListNotations.
Open Scope N_scope.

(** *** Cl *)
Record clopts := Clopts {
  l_pre : list str; l_flags : list str; l_includes : list str; l_macros : list str; l_warnings : list str;
  l_debug : option bool; l_optimize : option bool }.
Definition s_nologo : str := [47; 110; 111; 108; 111; 103; 111].                     (* /nologo *)
Definition s_slash (c : chr) : str := [47; c].
Definition s_Fo : str := [47; 70; 111].                                              (* /Fo *)
(** [self]: of the object; [o]: of the call; [dirs]: include_source_dirs *)
Definition cl_args (self : clopts) (debug_flags optimize_flags : list str) (srcs : list str) (dst : option str) (o : clopts) (dirs : bool) : list str :=
  let includes := fold_left add_new
    (l_includes self ++ l_includes o ++ (if dirs then map (fun s => fst (psplit s)) srcs else [])) [] in
  let flags := fold_left add_new (l_flags self ++ l_flags o) [] in
  let macros := set_of (l_macros o ++ l_macros self) in
  let warnings := set_of (l_warnings o ++ l_warnings self) in
  s_nologo :: l_pre self ++ l_pre o ++
  (if wanted (l_debug self) (l_debug o) then debug_flags else []) ++
  (if wanted (l_optimize self) (l_optimize o) then optimize_flags else []) ++
  map (app (s_slash 73)) (filter nonempty (sorted includes)) ++
  map (app (s_slash 68)) (sorted macros) ++
  map (app (s_slash 87)) (sorted warnings) ++
  (match dst with Some d => [s_Fo ++ d] | None => [] end) ++
  flags ++ srcs.

(** *** Compiler: the command and the object.  Arguments pre_flags are not accepted, as they are given already. *)
Definition set_lpre (o : clopts) (pre : list str) : clopts :=
  Clopts pre (l_flags o) (l_includes o) (l_macros o) (l_warnings o) (l_debug o) (l_optimize o).
Definition add_lflags (o : clopts) (fl : list str) : clopts :=
  Clopts (l_pre o) (fl ++ l_flags o) (l_includes o) (l_macros o) (l_warnings o) (l_debug o) (l_optimize o).
Definition cl_compiler (self : clopts) (debug_flags optimize_flags flags : list str) (self_suffix root src : str)
    (dst suffix buildroot : option str) (o : clopts) (dirs : bool) : list str * str :=
  let d := replaceext (addroot (or_ dst src) (or_ buildroot root)) (or_ suffix self_suffix) in
  (cl_args self debug_flags optimize_flags [src] (Some d) (set_lpre o (s_slash 99 :: flags)) dirs, d).
(** Builder.compile, 433-437 *)
Definition s_show : str := [47; 115; 104; 111; 119; 73; 110; 99; 108; 117; 100; 101; 115].  (* /showIncludes *)
Definition cl_compile (self : clopts) (debug_flags optimize_flags flags : list str) (self_suffix root src : str)
    (dst suffix buildroot : option str) (o : clopts) (dirs : bool) : list str * str :=
  cl_compiler self debug_flags optimize_flags flags self_suffix root src dst suffix buildroot (add_lflags o [s_show]) dirs.

(** *** The dependencies, 420 and 450-467 *)
Definition s_note : str := [78; 111; 116; 101; 58].                                                       (* Note: *)
Definition s_including : str := [105; 110; 99; 108; 117; 100; 105; 110; 103; 32; 102; 105; 108; 101; 58]. (* including file: *)
(** " +": at least one blank, as many as possible.  Giving one back never helps here: what follows the first
    blanks is no blank, and what follows the second may be anything. *)
Fixpoint blanks (s : str) : str := match s with c :: s' => if N.eqb c 32 then blanks s' else s | [] => [] end.
Definition some_blanks (s : str) : option str := match s with c :: s' => if N.eqb c 32 then Some (blanks s') else None | [] => None end.
(** any text, then \r\n, on a line that is [r], without more newlines *)
Definition to_crlf (r : str) : option str :=
  match rev r with a :: b :: r' => if (N.eqb a 10 && N.eqb b 13)%bool then Some (rev r') else None | _ => None end.
Definition note_match (line : str) : option str :=
  match after_ s_note line with
  | Some r => match some_blanks r with
              | Some r => match after_ s_including r with
                          | Some r => match some_blanks r with Some r => to_crlf r | None => None end
                          | None => None
                          end
              | None => None
              end
  | None => None
  end.
(** ValueError of relpath is caught.  [cwd]: the working directory *)
Definition note_deps (cwd stdout : str) : list str :=
  flat_map (fun l => match note_match l with Some p => match relpath cwd p n_dot with Some r => [r] | None => [] end | None => [] end) (klines stdout).
Definition s_crlf : str := [13; 10].
(** What is shown of the output when neither quieter nor stdout_quieter is given, 463-465; and when the compiler
    fails, 443-446 *)
Definition note_shown (src stdout : str) : list str :=
  flat_map (fun l => match note_match l with Some _ => [] | None => if str_eqb l (snd (psplit src) ++ s_crlf) then [] else [l] end) (klines stdout).
Definition note_failed (src stdout : str) : list str :=
  flat_map (fun l => match note_match l with Some _ => [] | None => if str_eqb l (fst (splitext (snd (psplit src))) ++ s_crlf) then [] else [l] end)
    (klines stdout).

(** *** Link *)
Fixpoint strs_eqb (a b : list str) : bool :=
  match a, b with [], [] => true | x :: a', y :: b' => str_eqb x y && strs_eqb a' b' | _, _ => false end.
(** Library.__eq__; a path equals no Library *)
Fixpoint lib_eqb (a b : lib) : bool :=
  match a, b with
  | Plain p, Plain q => str_eqb p q
  | Library p ps ls es, Library q qs ms fs =>
      str_eqb p q && strs_eqb ps qs &&
      (fix go (l m : list lib) : bool :=
         match l, m with [], [] => true | x :: l', y :: m' => lib_eqb x y && go l' m' | _, _ => false end) ls ms &&
      strs_eqb es fs
  | _, _ => false
  end.
Record mst := Mst { m_paths : list str; m_exts : list str; m_libs : list lib }.
(** 280-298 *)
Fixpoint mvisit (l : lib) (s : mst) : mst :=
  if existsb (lib_eqb l) (m_libs s) then s
  else
    let s := match l with
             | Plain _ => s
             | Library _ ps ls es =>
                 fold_left (fun s k => mvisit k s) ls (Mst (fold_left add_new ps (m_paths s)) (fold_left add_new es (m_exts s)) (m_libs s))
             end in
    Mst (m_paths s) (m_exts s) (m_libs s ++ [l]).
(** 263-305; the libraries are reversed afterwards *)
Record linkopts := Linkopts {
  k_pre : list str; k_flags : list str; k_libpaths : list str; k_libs : list lib; k_ldlibs : list str; k_exts : list str }.
Definition mlink (self o : linkopts) : mst :=
  let s := fold_left (fun s l => mvisit l s) (k_libs self ++ k_libs o)
    (Mst (fold_left add_new (k_libpaths self ++ k_libpaths o) []) (fold_left add_new (k_exts self ++ k_exts o) []) []) in
  Mst (m_paths s) (m_exts s) (rev (m_libs s)).
Definition s_out : str := [47; 79; 85; 84; 58].                                                                   (* /OUT: *)
Definition s_librarypath : str := [47; 76; 73; 66; 82; 65; 82; 89; 80; 65; 84; 72; 58].                           (* /LIBRARYPATH: *)
Definition s_defaultlib : str := [47; 68; 69; 70; 65; 85; 76; 84; 76; 73; 66; 58].                                (* /DEFAULTLIB: *)
Definition s_dll : str := [46; 100; 108; 108].
Definition s_lib : str := [46; 108; 105; 98].
Definition endswith (s w : str) : bool := startswith (rev s) (rev w).
(** 317-321 *)
Definition lib_option (l : str) : str := s_defaultlib ++ (if endswith l s_dll then firstn (length l - 4) l ++ s_lib else l).
(** 309-325: ldlibs of the object are not used *)
Definition mlink_args (self : linkopts) (dst : str) (srcs : list str) (o : linkopts) : list str :=
  let r := mlink self o in
  s_nologo :: k_pre self ++ k_pre o ++ [s_out ++ dst] ++ k_flags self ++ k_flags o ++
  map (app s_librarypath) (filter nonempty (sorted (m_paths r))) ++
  map lib_option (k_exts self ++ m_exts r ++ map path_of (k_libs self) ++ map path_of (m_libs r)) ++
  srcs ++ k_ldlibs o.
(** ExeLink.__call__ and DllLink.__call__: the command and the path returned *)
Definition exe_link (self : linkopts) (prefix suffix root dst : str) (buildroot : option str) (srcs : list str) (o : linkopts) : list str * str :=
  let d := product (or_ buildroot root) prefix suffix dst in (mlink_args self d srcs o, d).
Definition s_DLL : str := [47; 68; 76; 76].
Definition dll_link (self : linkopts) (prefix suffix root dst : str) (buildroot : option str) (srcs : list str) (o : linkopts) : list str * str :=
  exe_link self prefix suffix root dst buildroot srcs
    (Linkopts (k_pre o) (k_flags o ++ [s_DLL]) (k_libpaths o) (k_libs o) (k_ldlibs o) (k_exts o)).
(** Lib.__call__ *)
Definition lib_link (self : linkopts) (root dst : str) (buildroot : option str) (srcs : list str) (o : linkopts) : list str * str :=
  let d := product (or_ buildroot root) [] s_lib dst in
  (s_nologo :: k_pre self ++ k_pre o ++ [s_out ++ d] ++ k_flags self ++ k_flags o ++ srcs ++ k_ldlibs self ++ k_ldlibs o, d).
