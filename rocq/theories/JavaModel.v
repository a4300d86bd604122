(** Java and Scala: model of lib/fbuild/builders/java.py (Jar 16-73, AbstractCompiler 117-201,
    Javac 205-219, AbstractBuilder 223-310) and of Scala.__call__ of builders/scala.py (34-58), with
    Path.relpath of path.py (328-336).  Paths and their places are those of PathModel and TryModel.
    The decoding of output, messages, caching and the running of programs are not part of it: what
    the compiler writes to stderr is given. *)
From Coq Require Import List NArith Bool Arith.
From Verif Require Import FnModel PathModel GccModel TryModel.
Import ListNotations.
Open Scope N_scope.

(** *** posixpath.relpath; ValueError if the path is empty.  [cwd]: the working directory. *)
Definition nonempty_name (x : str) : bool := match x with [] => false | _ => true end.
Definition name_list (cwd p : str) : list str := filter nonempty_name (split_at c_sep (abspath cwd p)).
(** len(commonprefix([a, b])) *)
Fixpoint common_len (a b : list str) : nat :=
  match a, b with
  | x :: a', y :: b' => if str_eqb x y then S (common_len a' b') else O
  | _, _ => O
  end.
Definition relpath (cwd p start : str) : option str :=
  match p with
  | [] => None
  | _ =>
      let s := name_list cwd start in
      let q := name_list cwd p in
      let i := common_len s q in
      match repeat n_dotdot (length s - i) ++ skipn i q with
      | [] => Some n_dot
      | r => Some (path_new r)
      end
  end.

(** *** Jar.uncached_create, 33-68: the arguments of jar, the directory it runs in and the path returned.
    [or_ a b]: a or b. *)
Definition or_ (a : option str) (b : str) : str := match a with Some (c :: a) => c :: a | _ => b end.
Definition w_cf : str := [99; 102].
Definition w_cmf : str := [99; 109; 102].
Inductive jar_result := JarRun (args : list str) (dir dst : str) | JarAssertion | JarValue.
Fixpoint all_some {A} (l : list (option A)) : option (list A) :=
  match l with
  | [] => Some []
  | Some x :: l' => match all_some l' with Some r => Some (x :: r) | None => None end
  | None :: _ => None
  end.
Definition jar_create (cwd root dst : str) (srcs : list str) (manifest dir buildroot : option str) : jar_result :=
  let buildroot := or_ buildroot root in
  let dir := or_ dir buildroot in
  let dst := addroot dst buildroot in
  match srcs with
  | [] => JarAssertion
  | _ =>
      match (match manifest with None => Some [w_cf] | Some m => match relpath cwd m dir with Some m => Some [w_cmf; m] | None => None end end),
            relpath cwd dst dir, all_some (map (fun s => relpath cwd s dir) srcs) with
      | Some a, Some d, Some ss => JarRun (a ++ d :: ss) dir dst
      | _, _, _ => JarValue
      end
  end.

(** *** AbstractCompiler._run, 145-182: the arguments of the compiler. *)
Record javac := Javac {
  v_classpaths : list str; v_sourcepaths : list str; v_debug : bool; v_debug_flags : list str; v_target : option str; v_flags : list str }.
Definition w_d : str := [45; 100].
Definition w_cp : str := [45; 99; 112].
Definition w_sourcepath : str := [45; 115; 111; 117; 114; 99; 101; 112; 97; 116; 104].
Definition w_target : str := [45; 116; 97; 114; 103; 101; 116; 58].
Definition javac_args (v : javac) (srcs : list str) (dst : option str) (classpaths sourcepaths : list str) (debug : option bool)
    (target : option str) (flags : list str) : list str :=
  (match dst with Some d => [w_d; d] | None => [] end) ++
  (if wanted (Some (v_debug v)) debug then v_debug_flags v else []) ++
  (match (match target with None => v_target v | _ => target end) with Some t => [w_target ++ t] | None => [] end) ++
  flat_map (fun c => [w_cp; c]) (v_classpaths v ++ classpaths) ++
  flat_map (fun c => [w_sourcepath; c]) (v_sourcepaths v ++ sourcepaths) ++
  v_flags v ++ flags ++ srcs.

(** *** AbstractBuilder._run, 235-282 *)
(** The lines of an output with their newlines: io.StringIO *)
Fixpoint klines (s : str) : list str :=
  match s with
  | [] => []
  | c :: s' => if N.eqb c c_nl then [c] :: klines s'
               else match klines s' with [] => [[c]] | l :: ls => (c :: l) :: ls end
  end.
Definition w_wrote : str := [91; 119; 114; 111; 116; 101; 32].                                                    (* "[wrote " *)
Definition w_regular : str := [82; 101; 103; 117; 108; 97; 114; 70; 105; 108; 101; 79; 98; 106; 101; 99; 116; 91]. (* RegularFileObject[ *)
Definition w_to : str := [39; 32; 116; 111; 32].                                                                  (* "' to " *)
Definition c_quote : chr := 39.
Definition c_close : chr := 93.
Definition after_ (w s : str) : option str := if startswith s w then Some (skipn (length w) s) else None.
(** the longest prefix without [c], and the rest *)
Fixpoint upto (c : chr) (s : str) : str * str :=
  match s with
  | [] => ([], [])
  | d :: s' => if N.eqb d c then ([], s) else let (a, b) := upto c s' in (d :: a, b)
  end.
(** '[^']+' to *)
Definition quoted (s : str) : option str :=
  match s with
  | d :: s' => if N.eqb d c_quote then
                 let (a, b) := upto c_quote s' in
                 match a with [] => None | _ => after_ w_to b end
               else None
  | [] => None
  end.
(** The regular expression _dep_regex (229-230) with its backtracking: optional parts are left out if
    nothing would remain for the group. *)
Definition opt_list (o : option str) : list str := match o with Some x => [x] | None => [] end.
Definition dep_match (line : str) : option str :=
  match after_ w_wrote line with
  | None => None
  | Some r =>
      let tries := match after_ w_regular r with Some r1 => opt_list (quoted r1) ++ [r1] | None => [] end ++ opt_list (quoted r) ++ [r] in
      find nonempty_name (map (fun t => fst (upto c_close t)) tries)
  end.
(** 269-276: the files that were written.  Path of one string is the string. *)
Definition found (stderr : str) : list str :=
  flat_map (fun l => opt_list (dep_match l)) (klines stderr).

Definition w_verbose : str := [45; 118; 101; 114; 98; 111; 115; 101].
(** 243-252 and Javac.__call__ (209-219): the directory asked for and the directory given to the compiler, to which
    the argument buildroot is not passed on. *)
Definition class_dir (root src : str) (dst buildroot : option str) : str :=
  addroot (or_ dst (fst (psplit src))) (or_ buildroot root).
Definition javac_dir (root src : str) (dst buildroot : option str) : str := addroot (class_dir root src dst buildroot) root.
Definition java_compile (v : javac) (root src : str) (dst buildroot : option str) (classpaths sourcepaths : list str) (debug : option bool)
    (target : option str) (flags : list str) : list str :=
  javac_args v [src] (Some (javac_dir root src dst buildroot)) classpaths sourcepaths debug target (w_verbose :: flags).

(** *** build_objects and build_lib, 298-314.  [err src]: what compiling [src] writes to stderr, None if it fails.
    build_objects takes no further positional arguments. *)
Inductive lib_result := LibJar (r : jar_result) | LibType | LibFailed.
Definition build_objects (err : str -> option str) (srcs : list str) : option (list str) :=
  option_map (fun ls => concat (map found ls)) (all_some (map err srcs)).
Definition build_lib (err : str -> option str) (cwd root dst : str) (srcs args : list str) (manifest dir buildroot : option str) : lib_result :=
  match args with
  | _ :: _ => LibType
  | [] => match build_objects err srcs with
          | None => LibFailed
          | Some objs => LibJar (jar_create cwd root dst objs manifest dir buildroot)
          end
  end.

(** *** Scala.__call__, scala.py:38-58: the script that is run and the path returned. *)
Definition s_jar : str := [46; 106; 97; 114].
Definition scala_call (root src : str) (buildroot : option str) : str * str :=
  (addroot src (or_ buildroot root), replaceext src s_jar).
(** scala -savecompiled saves the result beside the script. *)
Definition saved (script : str) : str := replaceext script s_jar.
