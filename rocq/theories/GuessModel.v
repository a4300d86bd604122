(** Model of lib/fbuild/builders/c/__init__.py: identify_compiler (336-373) and Guesser (375-448), with the
    tables of builders/c (450-470) and builders/cxx/__init__.py (6-25), over the platform options of PlatModel.
    Simplifications: a builder function is known by its name, and what it does is decided by the world; it does
    not change the lists it is given.  If applying the options raises an exception, what it had changed in
    place by then is not tracked.  The log is left out. *)
From Coq Require Import String Ascii.
From stdpp Require Import base list gmap.
From Coq Require Import NArith.
From Verif Require Import FnModel PlatModel.
Local Open Scope nat_scope.

Definition tx (s : string) : str := map N_of_ascii (list_ascii_of_string s).

(** [x in s] for byte strings *)
Fixpoint begins (x s : str) : bool :=
  match x, s with
  | [], _ => true
  | c :: x, d :: s => N.eqb c d && begins x s
  | _ :: _, [] => false
  end.
Fixpoint occurs (x s : str) : bool :=
  begins x s || match s with [] => false | _ :: s => occurs x s end.

(** ctx.execute: what the program wrote, fbuild.ExecutionError, or another exception *)
Inductive ran := Ran (out err : str) | RFail | RRaise.

Definition clang_kinds : list str := [tx "clang"; tx "clang++"].
Definition gcc_kinds : list str := [tx "gcc"; tx "g++"].
Definition icc_kinds : list str := [tx "icc"; tx "icpc"].
Definition msvc_kinds : list str := [tx "msvc"; tx "msvc++"].
Definition str_eqb (a b : str) : bool := bool_decide (a = b).

(** 361-366: the last entry of ccmap found in the output stays *)
Definition ccmap : list (str * list str) :=
  [(tx "Free Software Foundation", gcc_kinds); (tx "clang", clang_kinds); (tx "ICC", icc_kinds)].
Definition by_version (out : str) : option (list str) :=
  fold_left (fun res cc => if occurs (fst cc) out then Some (snd cc) else res) ccmap None.

(** 336-373; None: another exception.  [version exe]: running "exe --version"; [bare exe]: running "exe". *)
Definition identify_compiler (version bare : str -> ran) (exe : str) : option (option (list str)) :=
  if str_eqb exe (tx "clang") || str_eqb exe (tx "clang++") then Some (Some clang_kinds)
  else if str_eqb exe (tx "gcc") || str_eqb exe (tx "g++") || str_eqb exe (tx "colorgcc") then Some (Some gcc_kinds)
  else if str_eqb exe (tx "icc") || str_eqb exe (tx "icpc") then Some (Some icc_kinds)
  else if str_eqb exe (tx "cl") || str_eqb exe (tx "cl.exe") then Some (Some msvc_kinds)
  else match version exe with
       | RRaise => None
       | RFail => match bare exe with
                  | RRaise => None
                  | RFail => Some None
                  | Ran out err =>
                      if occurs (tx "Microsoft") out || occurs (tx "Microsoft") err then Some (Some msvc_kinds) else Some None
                  end
       | Ran out _ => Some (by_version out)
       end.

(** A Guesser: the compilers' names, and for each sub-platform the static and the shared function. *)
Record entry := Entry { e_sub : list str; e_static : str; e_shared : str }.
Record guesser := Guesser { g_compilers : list str; g_functions : list entry }.

(** The platform argument: a frozenset or a set of the caller's. *)
Inductive platform_arg := Frozen (p : list str) | Mutable (p : list str).

Section Guess.
  Context {E B : Type} `{EqDecision E}.
  Context (in_str : E -> list E -> option bool).

  (** A call of a builder function, and what came of it: a builder, ConfigFailed, another exception. *)
  Record call := Call { c_fun : str; c_exe : option str; c_platform : list str; c_heap : heap E; c_kw : kwargs E }.
  Inductive made := Built (b : B) | Refused | Broke.
  (** May depend on all that was done before. *)
  Context (configure : list (call * made) -> call -> made).

  (** copy.deepcopy of a dictionary of values: a copy of everything that can be reached from it. *)
  Definition shift (n : nat) (v : value E) : value E :=
    match v with VList l => VList (n + l) | VSet l => VSet (n + l) | _ => v end.
  Definition deepcopy (h : heap E) (kw : kwargs E) : heap E * kwargs E := (h ++ h, shift (length h) <$> kw).

  Definition in_set (p : list str) (x : str) : bool := bool_decide (x ∈ p).
  Definition subset (a b : list str) : bool := bool_decide (Forall (fun x => x ∈ b) a).
  (** 428: (platform - self.compilers) | subplatform *)
  Definition simplified (compilers platform sub : list str) : list str :=
    filter (fun x => x ∉ compilers) platform ++ sub.

  Inductive tried := TDone (b : option B) | TRefused | TBroke.
  Definition given (kw : kwargs E) (key : str) : bool := match kw !! key with Some _ => true | None => false end.

  Context (compilers platform : list str) (exe : option str).
  Context (popts : list (list str * list (str * value E))) (kw : kwargs E).
  (** 412-440, one builder *)
  Definition try_builder (sub : list str) (function : str) (args : option (kwargs E)) (h : heap E) (log : list (call * made)) :
    heap E * list (call * made) * tried :=
    match args with
    | None => (h, log, TDone None)
    | Some args =>
        let (h, kw1) := deepcopy h kw in
        let (h, args1) := deepcopy h args in
        match parse_platform_options in_str (simplified compilers platform sub) popts h (args1 ∪ kw1) with
        | None => (h, log, TBroke)
        | Some (h, new_kw) =>
            (* names of parameters of fbuild.functools.call, or given twice: TypeError *)
            if given new_kw (tx "platform") || given new_kw (tx "function") then (h, log, TBroke)
            else
              let c := Call function exe platform h new_kw in
              let m := configure log c in
              (h, log ++ [(c, m)], match m with Built b => TDone (Some b) | Refused => TRefused | Broke => TBroke end)
        end
    end.

  Inductive outcome := Found (static shared : option B) | NoBuilder | NameErr | Raises.
  (** 408-448 *)
  Fixpoint search (static shared : option (kwargs E)) (fs : list entry) (h : heap E) (log : list (call * made)) :
    heap E * list (call * made) * outcome :=
    match fs with
    | [] => (h, log, NoBuilder)
    | e :: fs' =>
        if subset (e_sub e) platform then
          match try_builder (e_sub e) (e_static e) static h log with
          | (h, log, TDone s) =>
              match try_builder (e_sub e) (e_shared e) shared h log with
              | (h, log, TDone d) => (h, log, Found s d)
              | (h, log, TRefused) => search static shared fs' h log
              | (h, log, TBroke) => (h, log, Raises)
              end
          | (h, log, TRefused) => search static shared fs' h log
          | (h, log, TBroke) => (h, log, Raises)
          end
        else search static shared fs' h log
    end.
End Guess.
Arguments call E : clear implicits.
Arguments made B : clear implicits.
Arguments outcome B : clear implicits.

(** All that a call of a Guesser leaves behind. *)
Record after {E B : Type} := After {
  a_heap : heap E; a_log : list (call E * made B); a_platform : option platform_arg; a_outcome : outcome B }.
Arguments after E B : clear implicits.
Arguments After {E B}.

(** platform |= names: a set is changed in place, a frozenset is not *)
Definition union_in (p : option platform_arg) (q : list str) : option platform_arg :=
  match p with Some (Mutable _) => Some (Mutable q) | _ => p end.

(** 387-448.  [here]: what guess_platform answers; None: it raises UnknownPlatform, a ConfigFailed. *)
Definition guess {E B : Type} `{EqDecision E} (in_str : E -> list E -> option bool)
  (configure : list (call E * made B) -> call E -> made B) (version bare : str -> ran) (here : option (list str))
  (g : guesser) (static shared : option (kwargs E)) (platform : option platform_arg)
  (popts : list (list str * list (str * value E))) (exe : option str) (kw : kwargs E) (h : heap E) : after E B :=
  match (match platform with Some (Frozen p) | Some (Mutable p) => Some p | None => here end) with
  | None => After h [] platform NoBuilder
  | Some p =>
      let go p' := let '(h', log, o) := search in_str configure (g_compilers g) p' exe popts kw static shared (g_functions g) h [] in
                   After h' log (union_in platform p') o in
      match exe with
      | None => go (p ++ g_compilers g)
      | Some x =>
          match identify_compiler version bare x with
          | None => After h [] platform Raises
          | Some None => After h [] platform NameErr       (* 399: the name [name] is not defined *)
          | Some (Some tp) => go (p ++ filter (fun c => c ∈ g_compilers g) tp)
          end
      end
  end.
(** 381-385 *)
Definition guess_static {E B : Type} `{EqDecision E} in_str configure version bare here g static platform popts exe kw h : after E B :=
  guess in_str configure version bare here g static None platform popts exe kw h.
Definition guess_shared {E B : Type} `{EqDecision E} in_str configure version bare here g shared platform popts exe kw h : after E B :=
  guess in_str configure version bare here g None shared platform popts exe kw h.

(** builders/c/__init__.py 450-470 *)
Definition c_guess : guesser := Guesser [tx "msvc"; tx "gcc"; tx "clang"; tx "icc"]
  [Entry [tx "windows"; tx "msvc"] (tx "fbuild.builders.c.msvc.static") (tx "fbuild.builders.c.msvc.shared");
   Entry [tx "avr"; tx "gcc"] (tx "fbuild.builders.c.gcc.avr.static") (tx "fbuild.builders.c.gcc.avr.shared");
   Entry [tx "iphone"; tx "simulator"; tx "gcc"] (tx "fbuild.builders.c.gcc.iphone.static_simulator") (tx "fbuild.builders.c.gcc.iphone.shared_simulator");
   Entry [tx "iphone"; tx "gcc"] (tx "fbuild.builders.c.gcc.iphone.static") (tx "fbuild.builders.c.gcc.iphone.shared");
   Entry [tx "darwin"; tx "clang"] (tx "fbuild.builders.c.clang.darwin.static") (tx "fbuild.builders.c.clang.darwin.shared");
   Entry [tx "darwin"; tx "gcc"] (tx "fbuild.builders.c.gcc.darwin.static") (tx "fbuild.builders.c.gcc.darwin.shared");
   Entry [tx "clang"] (tx "fbuild.builders.c.clang.static") (tx "fbuild.builders.c.clang.shared");
   Entry [tx "gcc"] (tx "fbuild.builders.c.gcc.static") (tx "fbuild.builders.c.gcc.shared");
   Entry [tx "icc"] (tx "fbuild.builders.c.intel.static") (tx "fbuild.builders.c.intel.shared")].
(** builders/cxx/__init__.py 6-25 *)
Definition cxx_guess : guesser := Guesser [tx "msvc++"; tx "g++"; tx "clang++"; tx "icpc"]
  [Entry [tx "windows"; tx "msvc++"] (tx "fbuild.builders.cxx.msvc.static") (tx "fbuild.builders.cxx.msvc.shared");
   Entry [tx "iphone"; tx "simulator"; tx "g++"] (tx "fbuild.builders.cxx.gxx.iphone.static_simulator") (tx "fbuild.builders.cxx.gxx.iphone.shared_simulator");
   Entry [tx "iphone"; tx "g++"] (tx "fbuild.builders.cxx.gxx.iphone.static") (tx "fbuild.builders.cxx.gxx.iphone.shared");
   Entry [tx "darwin"; tx "clang++"] (tx "fbuild.builders.cxx.clangxx.darwin.static") (tx "fbuild.builders.cxx.clangxx.darwin.shared");
   Entry [tx "darwin"; tx "g++"] (tx "fbuild.builders.cxx.gxx.darwin.static") (tx "fbuild.builders.cxx.gxx.darwin.shared");
   Entry [tx "clang++"] (tx "fbuild.builders.cxx.clangxx.static") (tx "fbuild.builders.cxx.clangxx.shared");
   Entry [tx "g++"] (tx "fbuild.builders.cxx.gxx.static") (tx "fbuild.builders.cxx.gxx.static");
   Entry [tx "icpc"] (tx "fbuild.builders.cxx.intelxx.static") (tx "fbuild.builders.cxx.intelxx.shared")].
