(** Model of lib/fbuild/builders/ocaml/__init__.py: Builder (158-628): the commands that compile and link
    execute, the paths they return, the include directories and the objects of build_objects.  POSIX.
    What exists is an argument; the flags that differ between the subclasses (Ocamlcp, Ocamlopt: profiling)
    are part of [flags] except in [opt_flags]. *)
From Coq Require Import List NArith Bool Arith.
From Verif Require Import FnModel PathModel LinkModel GccModel.
From Verif Require OcamlModel.
Import ListNotations.
Open Scope N_scope.

Definition endswith := OcamlModel.endswith.
Definition s_ml := OcamlModel.s_ml.
Definition s_mli := OcamlModel.s_mli.
Definition s_cmi : str := [46; 99; 109; 105].

(** A Builder, 159-195; lib_suffix is not needed to be that of the platform. *)
Record ocaml := Ocaml {
  oc_obj_suffix : str;
  oc_lib_suffix : str;
  oc_exe_suffix : str;
  oc_includes : list str;
  oc_libs : list str;
  oc_cc : option str;
  oc_c_libs : list str;
  oc_pre_flags : list str;
  oc_flags : list str;
  oc_debug : bool;
  oc_optimize : bool;
  oc_debug_flags : list str;
  oc_optimize_flags : list str
}.
(** The keywords of _run, 264-278.  cc: the executable, if given and not empty. *)
Record ocall := OCall {
  k_includes : list str;
  k_libs : list str;
  k_external_libs : list str;
  k_pre_flags : list str;
  k_flags : list str;
  k_debug : option bool;
  k_optimize : option bool;
  k_custom : bool;
  k_cc : option str;
  k_c_libs : list str;
  k_for_pack : option str;
  k_preprocessor : option str
}.

Definition w_custom : str := [45; 99; 117; 115; 116; 111; 109].
Definition w_cc : str := [45; 99; 99].
Definition w_cclib : str := [45; 99; 99; 108; 105; 98].
Definition w_pp : str := [45; 112; 112].
Definition w_for_pack : str := [45; 102; 111; 114; 45; 112; 97; 99; 107].
Definition w_a : str := [45; 97].
Definition w_pack : str := [45; 112; 97; 99; 107].

(** 289-294 *)
Definition lib_file (b : ocaml) (ex : str -> bool) (lib : str) : str := if ex lib then lib else lib ++ oc_lib_suffix b.
Definition with_word (w : str) (o : option str) : list str := match o with Some a => [w; a] | None => [] end.

(** _run, 264-344: the command without the executable, and the path returned.  None: AssertionError. *)
Definition run (b : ocaml) (ex : str -> bool) (buildroot dst : str) (srcs : list str) (k : ocall) : option (list str * str) :=
  let libs := oc_libs b ++ k_external_libs k ++ k_libs k in
  match srcs, libs with
  | [], [] => None
  | _, _ =>
      let dst := addroot dst buildroot in
      let includes := set_of (k_includes k ++ oc_includes b ++ [fst (psplit dst)]) in
      Some (
        oc_pre_flags b ++ k_pre_flags k ++
        (if wanted (Some (oc_debug b)) (k_debug k) then oc_debug_flags b else []) ++
        (if wanted (Some (oc_optimize b)) (k_optimize k) then oc_optimize_flags b else []) ++
        flat_map (fun i => [w_I; i]) (filter ex (sorted includes)) ++
        (if k_custom k then [w_custom] else []) ++
        with_word w_cc (match k_cc k with Some c => Some c | None => oc_cc b end) ++
        flat_map (fun l => [w_cclib; if ex l then l else w_l ++ l]) (oc_c_libs b ++ k_c_libs k) ++
        with_word w_pp (k_preprocessor k) ++
        with_word w_for_pack (k_for_pack k) ++
        oc_flags b ++ k_flags k ++ [w_o; dst] ++ map (lib_file b ex) libs ++ srcs, dst)
  end.

Definition set_pre_flags (k : ocall) (pre : list str) : ocall :=
  OCall (k_includes k) (k_libs k) (k_external_libs k) pre (k_flags k) (k_debug k) (k_optimize k) (k_custom k) (k_cc k)
    (k_c_libs k) (k_for_pack k) (k_preprocessor k).
Definition drop_libs (k : ocall) : ocall :=
  OCall (k_includes k) [] [] (k_pre_flags k) (k_flags k) (k_debug k) (k_optimize k) (k_custom k) (k_cc k)
    (k_c_libs k) (k_for_pack k) (k_preprocessor k).

(** uncached_compile, 367-396: the source is compiled where it is copied to. *)
Definition suffix_for (b : ocaml) (src : str) : str := if endswith src s_mli then s_cmi else oc_obj_suffix b.
Definition compile (b : ocaml) (ex : str -> bool) (buildroot src : str) (dst : option str) (k : ocall) : option (list str * str) :=
  let copy := addroot src buildroot in
  let d := replaceext (match dst with Some (c :: d) => c :: d | _ => copy end) (suffix_for b src) in
  run b ex buildroot d [copy] (set_pre_flags k (k_pre_flags k ++ [w_c])).

(** uncached_link_lib, uncached_link_exe, _uncached_link, 443-465 *)
Definition linked (srcs : list str) : list str := filter (fun s => negb (endswith s s_cmi)) srcs.
Definition link_lib (b : ocaml) (ex : str -> bool) (buildroot dst : str) (srcs : list str) (k : ocall) : option (list str * str) :=
  run b ex buildroot (dst ++ oc_lib_suffix b) (linked srcs) (drop_libs (set_pre_flags k (w_a :: k_pre_flags k))).
Definition link_exe (b : ocaml) (ex : str -> bool) (buildroot dst : str) (srcs : list str) (k : ocall) : option (list str * str) :=
  run b ex buildroot (dst ++ oc_exe_suffix b) (linked srcs) k.

(** build_objects, 479-496: the elements of the set of include directories; [root]: that of the context. *)
Definition objects_includes (root : str) (includes libs external_libs srcs : list str) : list str :=
  set_of (includes ++ map (fun l => fst (psplit l)) libs ++ map (fun l => fst (psplit l)) external_libs ++
    flat_map (fun s => match fst (psplit s) with [] => [root] | p => [p; addroot p root] end) srcs).

(** build_pack, 527-562: the path returned, [root]: that of the context, as _run does not get the other one. *)
Definition pack (b : ocaml) (root buildroot dst : str) : str := addroot (addroot dst buildroot ++ oc_obj_suffix b) root.

(** What is executed for it, 548-562: the objects are those that build_objects returned. *)
Definition pack_run (b : ocaml) (ex : str -> bool) (root buildroot dst : str) (objs : list str) (k : ocall) : option (list str * str) :=
  run b ex root (addroot dst buildroot ++ oc_obj_suffix b) (linked objs) (set_pre_flags k (k_pre_flags k ++ [w_pack])).

(** Ocamlopt._run, 762-770; None: not given. *)
Definition opt_flags (self_profile : bool) (self_flags flags : list str) (profile : option bool) (profile_flags : option (list str)) : list str :=
  if wanted (Some self_profile) profile then flags ++ self_flags else flags.
