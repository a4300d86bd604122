(** Model of lib/fbuild/builders/ocaml/ocamlfind.py: the commands that Ocamlc, Ocamlcp and Ocamlopt (59-236) execute
    by way of ocamlfind, on top of [OcamlBuildModel]; and Ocamldep (10-55) on top of ocaml/__init__.py: Ocamldep.modules
    (33-56). *)
From Coq Require Import List NArith Bool Arith.
From Verif Require Import FnModel OcamlBuildModel.
Import ListNotations.
Open Scope N_scope.

Definition w_package : str := [45; 112; 97; 99; 107; 97; 103; 101].
Definition w_syntax : str := [45; 115; 121; 110; 116; 97; 120].
Definition w_ppopt : str := [45; 112; 112; 111; 112; 116].
Definition w_linkpkg : str := [45; 108; 105; 110; 107; 112; 107; 103].
Definition w_modules : str := [45; 109; 111; 100; 117; 108; 101; 115].

(** packages, syntaxes and ppopts, of a builder or of a call. *)
Record libs_of := Find { fi_packages : list str; fi_syntaxes : list str; fi_ppopts : list str }.
(** A builder: the arguments for ocaml.Builder, ocamlfind_cmd, linkpkg. *)
Record finder := Finder { fi_base : ocaml; fi_cmd : str; fi_libs : libs_of; fi_linkpkg : bool }.

(** 44-52, 83-91, 104-112: the loops, which all of them have. *)
Definition extended (flags : list str) (self call : libs_of) : list str :=
  flags ++ flat_map (fun p => [w_package; p]) (fi_packages self ++ fi_packages call) ++
           flat_map (fun s => [w_syntax; s]) (fi_syntaxes self ++ fi_syntaxes call) ++
           flat_map (fun o => [w_ppopt; o]) (fi_ppopts self ++ fi_ppopts call).

(** pre_flags=[ocamlfind_cmd] + pre_flags (24, 160, 191, 225) *)
Definition set_pre (b : ocaml) (pre : list str) : ocaml :=
  Ocaml (oc_obj_suffix b) (oc_lib_suffix b) (oc_exe_suffix b) (oc_includes b) (oc_libs b) (oc_cc b) (oc_c_libs b) pre
    (oc_flags b) (oc_debug b) (oc_optimize b) (oc_debug_flags b) (oc_optimize_flags b).
Definition as_ocaml (f : finder) : ocaml := set_pre (fi_base f) (fi_cmd f :: oc_pre_flags (fi_base f)).
Definition set_flags (k : ocall) (flags : list str) : ocall :=
  OCall (k_includes k) (k_libs k) (k_external_libs k) (k_pre_flags k) flags (k_debug k) (k_optimize k) (k_custom k) (k_cc k)
    (k_c_libs k) (k_for_pack k) (k_preprocessor k).

(** _run, 75-94.  The other methods are those of ocaml.Builder; they hand flags, packages, syntaxes and ppopts on as
    they are, so that the flags can as well be extended before. *)
Definition with_find (f : finder) (k : ocall) (l : libs_of) : ocall := set_flags k (extended (k_flags k) (fi_libs f) l).
Definition find_run (f : finder) ex root dst srcs (k : ocall) (l : libs_of) := run (as_ocaml f) ex root dst srcs (with_find f k l).
Definition find_compile (f : finder) ex root src dst (k : ocall) (l : libs_of) := compile (as_ocaml f) ex root src dst (with_find f k l).
Definition find_link_lib (f : finder) ex root dst srcs (k : ocall) (l : libs_of) := link_lib (as_ocaml f) ex root dst srcs (with_find f k l).
Definition find_uncached_link_exe (f : finder) ex root dst srcs (k : ocall) (l : libs_of) :=
  link_exe (as_ocaml f) ex root dst srcs (with_find f k l).
(** link_exe, 121-131: -linkpkg is added to flags first. *)
Definition find_link_exe (f : finder) ex root dst srcs (k : ocall) (l : libs_of) (linkpkg : option bool) :=
  let flags := k_flags k ++ (if match linkpkg with None => fi_linkpkg f | Some x => x end then [w_linkpkg] else []) in
  find_uncached_link_exe f ex root dst srcs (set_flags k flags) l.

(** Ocamldep: pre_flags and flags of ocaml.Ocamldep; the command without the executable. *)
Record finddep := FindDep { fd_cmd : str; fd_pre_flags : list str; fd_flags : list str; fd_libs : libs_of }.
Definition find_modules (d : finddep) (src : str) (preprocessor : option str) (flags : list str) (l : libs_of) : list str :=
  fd_cmd d :: fd_pre_flags d ++ [w_modules] ++ with_word w_pp preprocessor ++ fd_flags d ++ extended flags (fd_libs d) l ++ [src].
(** The Ocamldep a builder makes for itself (162-165); further keywords are not handed on. *)
Definition own_dep (f : finder) (cmd : str) : finddep := FindDep cmd [] [] (fi_libs f).

(** build_objects, 96-119: what ocamldep is called with for each source, there and for the dependencies of compile. *)
Definition objects_modules (f : finder) (d : finddep) (src : str) (preprocessor : option str) (ocamldep_flags : list str) (l : libs_of) : list str :=
  find_modules d src preprocessor (extended ocamldep_flags (fi_libs f) l) (Find [] [] []).
(** compile called by itself: the scan is given ocamldep_flags alone. *)
Definition compile_modules (f : finder) (d : finddep) (src : str) (preprocessor : option str) (ocamldep_flags : list str) (l : libs_of) : list str :=
  find_modules d src preprocessor ocamldep_flags (Find [] [] []).
