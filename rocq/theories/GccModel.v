(** Model of lib/fbuild/builders/c/gcc/__init__.py: the command that Gcc.__call__ executes
    (167-310), and how Compiler, Linker and Ar use it.  POSIX. *)
From Coq Require Import List NArith Bool Arith.
From Verif Require Import FnModel PathModel LinkModel.
Import ListNotations.
Open Scope N_scope.

(** s <= s' for str: by code points. *)
Fixpoint str_leb (a b : str) : bool :=
  match a, b with
  | [], _ => true
  | _ :: _, [] => false
  | c :: a', d :: b' => if c <? d then true else if N.eqb c d then str_leb a' b' else false
  end.
(** sorted(...) *)
Fixpoint insert (s : str) (l : list str) : list str :=
  match l with
  | [] => [s]
  | t :: l' => if str_leb s t then s :: l else t :: insert s l'
  end.
Definition sorted (l : list str) : list str := fold_right insert [] l.
(** set(l); the order does not matter, as the sets are only used by way of [sorted]. *)
Definition set_of (l : list str) : list str := fold_left add_new l [].
(** ... if i *)
Definition nonempty (s : str) : bool := match s with [] => false | _ => true end.

(** The options that both Gcc.__init__ (105-126) and Gcc.__call__ (167-183) take.  *)
Record options := Options {
  o_pre_flags : list str;
  o_flags : list str;
  o_includes : list str;
  o_macros : list str;
  o_warnings : list str;
  o_libpaths : list str;
  o_libs : list lib;
  o_ldlibs : list str;
  o_externals : list str;
  o_debug : option bool;
  o_profile : option bool;
  o_optimize : option bool;
  o_arch : option str;
  o_machine : list str
}.
(** A Gcc object (129-147). *)
Record gcc := Gcc {
  g_exe : str;
  g_self : options;
  g_debug_flags : list str;
  g_profile_flags : list str;
  g_optimize_flags : list str
}.

Definition truth (b : option bool) : bool := match b with Some true => true | _ => false end.
Definition is_none {A} (o : option A) : bool := match o with None => true | _ => false end.
(** (x is None and self.x) or x, 272-279 *)
Definition wanted (self x : option bool) : bool := (is_none x && truth self) || truth x.
(** 281 *)
Definition arch_of (self x : option str) : str :=
  match (if is_none x then match self with Some a => a | None => [] end else []) with
  | [] => match x with Some a => a | None => [] end
  | a => a
  end.

Definition w_c : str := [45; 99].                        (* -c *)
Definition w_o : str := [45; 111].                       (* -o *)
Definition w_arch : str := [45; 97; 114; 99; 104].       (* -arch *)
Definition w_I : str := [45; 73].
Definition w_D : str := [45; 68].
Definition w_W : str := [45; 87].
Definition w_L : str := [45; 76].
Definition w_m : str := [45; 109].
Definition w_l : str := [45; 108].

(** Gcc.__call__, 184-310: the command without the executable.  [dst]: None if not given;
    [dirs]: include_source_dirs. *)
Definition gcc_args (g : gcc) (srcs : list str) (dst : option str) (o : options) (dirs : bool) : list str :=
  let self := g_self g in
  let srcs := map (fun s => path_new [s]) srcs in
  let includes := fold_left add_new
    (o_includes self ++ o_includes o ++ (if dirs then map (fun s => fst (psplit s)) srcs else [])) [] in
  let flags := fold_left add_new (o_flags self ++ o_flags o) [] in
  let macros := set_of (o_macros o ++ o_macros self) in
  let warnings := set_of (o_warnings o ++ o_warnings self) in
  let machine := set_of (o_machine o ++ o_machine self) in
  let r := link (o_libpaths self) (o_libpaths o) (o_externals self) (o_externals o) (o_libs self) (o_libs o) in
  let cmd :=
    o_pre_flags self ++ o_pre_flags o ++
    (if wanted (o_debug self) (o_debug o) then g_debug_flags g else []) ++
    (if wanted (o_profile self) (o_profile o) then g_profile_flags g else []) ++
    (if wanted (o_optimize self) (o_optimize o) then g_optimize_flags g else []) ++
    (match arch_of (o_arch self) (o_arch o) with [] => [] | a => [w_arch; a] end) ++
    map (app w_I) (filter nonempty (sorted includes)) ++
    map (app w_D) (sorted macros) ++
    map (app w_W) (sorted warnings) ++
    map (app w_L) (filter nonempty (sorted (r_libpaths r))) ++
    map (app w_m) (filter nonempty (sorted machine)) ++
    (match dst with Some d => [w_o; d] | None => [] end) ++
    flags ++ srcs in
  if mem w_c (g_exe g :: cmd) then cmd
  else cmd ++ map (app w_l) (r_libs r) ++ map (app w_l) (r_externals r) ++ o_ldlibs self ++ o_ldlibs o.

(** Compiler.__call__, 359-376: what is executed, and the path returned.  [suffix] is not empty;
    [flags]: of the compiler. *)
Definition set_pre (o : options) (pre : list str) : options :=
  Options pre (o_flags o) (o_includes o) (o_macros o) (o_warnings o) (o_libpaths o) (o_libs o) (o_ldlibs o)
    (o_externals o) (o_debug o) (o_profile o) (o_optimize o) (o_arch o) (o_machine o).
Definition add_flags (o : options) (fl : list str) : options :=
  Options (o_pre_flags o) (fl ++ o_flags o) (o_includes o) (o_macros o) (o_warnings o) (o_libpaths o) (o_libs o) (o_ldlibs o)
    (o_externals o) (o_debug o) (o_profile o) (o_optimize o) (o_arch o) (o_machine o).
Definition compiler (g : gcc) (flags : list str) (suffix buildroot src : str) (dst : option str) (o : options) (dirs : bool) :
    list str * str :=
  let d := match dst with Some (c :: d) => c :: d | _ => src end in
  let obj := replaceext (addroot d buildroot) suffix in
  (gcc_args g [src] (Some obj) (set_pre o (w_c :: flags)) dirs, obj).

(** Builder.compile, 445-448: the dependency file is asked for as well. *)
Definition w_MMD : str := [45; 77; 77; 68].
Definition w_MF : str := [45; 77; 70].
Definition compile (g : gcc) (flags : list str) (suffix buildroot dep src : str) (dst : option str) (o : options) (dirs : bool) :
    list str * str :=
  compiler g flags suffix buildroot src dst (add_flags o [w_MMD; w_MF; dep]) dirs.

(** dst.parent / prefix + dst.name + suffix, 64-65 and 404-405 *)
Definition product (buildroot prefix suffix dst : str) : str :=
  let d := addroot dst buildroot in
  pjoin (fst (psplit d)) prefix ++ snd (psplit d) ++ suffix.

(** Linker.__call__, 396-414 *)
Definition linker (g : gcc) (flags : list str) (prefix suffix buildroot dst : str) (srcs : list str) (o : options) (dirs : bool) :
    list str * str :=
  let d := product buildroot prefix suffix dst in
  (gcc_args g srcs (Some d) (set_pre o flags) dirs, d).

(** Ar.__call__, 44-97: the arguments of ar, and the path returned.  The sources are those
    found by Path.globall. *)
Definition ar (self_flags flags : list str) (prefix suffix buildroot dst : str) (srcs : list str) : list str * str :=
  let d := product buildroot prefix suffix dst in
  (self_flags ++ flags ++ d :: srcs, d).
