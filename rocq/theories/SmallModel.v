(** Haskell, Felix, LLVM and Bison: model of lib/fbuild/builders/ghc.py (Ghc.__call__ 24-50,
    Builder.uncached_compile 97-125, uncached_link_exe 137-144), felix.py (Flx.__call__ 29-57,
    Felix.uncached_compile 106-148, run 154-157), llvm.py (Llc 119-161, Llvm_as 165-190) and
    bison.py (20-48): what the programs are told and the paths returned.  Paths are those of
    PathModel.  Messages, caching and platform options are left out. *)
From Coq Require Import List NArith Bool.
From Verif Require Import FnModel PathModel LinkModel GccModel JavaModel.
Import ListNotations.
Open Scope N_scope.

Definition w_odir : str := [45; 111; 100; 105; 114].
Definition w_hidir : str := [45; 104; 105; 100; 105; 114].
Definition opt_arg (w : str) (o : option str) : list str := match o with Some x => [w; x] | None => [] end.

(** *** ghc.py *)
(** Ghc.__call__ *)
Definition ghc_args (self_flags : list str) (dst : str) (srcs pre_flags flags : list str) (odir hidir : option str) : list str :=
  pre_flags ++ [w_o; dst] ++ opt_arg w_odir odir ++ opt_arg w_hidir hidir ++ fold_left add_new (self_flags ++ flags) [] ++ srcs.
(** uncached_compile: the command and the object *)
Definition ghc_compile (self_flags : list str) (suffix root src : str) (dst buildroot odir hidir : option str) (pre_flags flags : list str) : list str * str :=
  let d := addroot (replaceext (or_ dst src) suffix) (or_ buildroot root) in
  let parent := fst (psplit d) in
  (ghc_args self_flags d [src] (pre_flags ++ [w_c]) flags (Some (or_ odir parent)) (Some (or_ hidir parent)), d).
(** uncached_link_exe *)
Definition ghc_link (self_flags : list str) (root dst : str) (buildroot : option str) (srcs pre_flags flags : list str) : list str * str :=
  let d := addroot dst (or_ buildroot root) in
  (ghc_args self_flags d srcs pre_flags flags None None, d).

(** *** felix.py *)
Record felix := Felix { x_debug : bool; x_flags : list str; x_exe : str; x_lib : str; x_static : bool; x_includes : list str }.
Definition w_debug : str := [45; 45; 100; 101; 98; 117; 103].
Definition w_static : str := [45; 45; 115; 116; 97; 116; 105; 99].
(** Flx.__call__; [there]: which directories exist.  The flags are those of Flx, which are given the flags of
    Felix (99), and of the call. *)
Definition flx_args (x : felix) (there : str -> bool) (src : str) (includes : list str) (debug : option bool) (static : bool) (flags : list str) : list str :=
  (if (match debug with None => x_debug x | Some d => d end) then [w_debug] else []) ++
  (if static then [w_static] else []) ++
  map (app w_I) (filter there (sorted includes)) ++ x_flags x ++ flags ++ [src].
(** uncached_compile: the command, the file the source is copied to unless it is the same, and the product *)
Definition felix_compile (x : felix) (there : str -> bool) (root src : str) (buildroot : option str) (includes : list str) (debug static : option bool)
    (flags : list str) : list str * str * str :=
  let copy := addroot src (or_ buildroot root) in
  let static := match static with None => x_static x | Some s => s end in
  (flx_args x there copy (set_of (includes ++ x_includes x ++ [fst (psplit copy)])) debug static (w_c :: x_flags x ++ flags), copy,
   replaceext copy (if static then x_exe x else x_lib x)).

(** *** llvm.py *)
Definition w_march : str := [45; 109; 97; 114; 99; 104; 61].
Definition w_relocation : str := [45; 114; 101; 108; 111; 99; 97; 116; 105; 111; 110; 45; 109; 111; 100; 101; 108; 61].
Definition w_filetype : str := [45; 102; 105; 108; 101; 116; 121; 112; 101; 61].
Definition opt_word (w : str) (o : option str) : list str := match o with Some x => [w ++ x] | None => [] end.
(** Llc.uncached_compile and __call__, which does not use the flags of the object *)
Definition llc_compile (self_flags : list str) (suffix root src : str) (dst : option str) (pre_flags flags : list str) (arch relocation filetype : option str) :
    list str * str :=
  let d := addroot (replaceext (or_ dst src) suffix) root in
  (pre_flags ++ [w_o; d] ++ opt_word w_march arch ++ opt_word w_relocation relocation ++ opt_word w_filetype filetype ++ flags ++ [src], d).
Definition s_bc : str := [46; 98; 99].
(** Llvm_as.__call__ *)
Definition llvm_as (root src : str) (dst : option str) (pre_flags flags : list str) : list str * str :=
  let d := replaceext (or_ dst src) s_bc in
  (pre_flags ++ [w_o; d] ++ flags ++ [src], d).

(** *** bison.py *)
Definition w_v : str := [45; 118].
Definition w_p : str := [45; 112].
Definition bison (self_flags : list str) (self_suffix root src : str) (dst suffix buildroot name_prefix : option str) (verbose defines : bool) (flags : list str) :
    list str * str :=
  let d := replaceext (addroot (or_ dst src) (or_ buildroot root)) (or_ suffix self_suffix) in
  ((if verbose then [w_v] else []) ++ opt_arg w_p name_prefix ++ (if defines then [w_d] else []) ++ self_flags ++ flags ++ [w_o; d; src], d).
