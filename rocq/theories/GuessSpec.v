(** What choosing a builder should do: no heap, no search. *)
From Coq Require Import String.
From stdpp Require Import base list gmap.
From Verif Require Import FnModel PlatModel PlatSpec GuessModel.
Local Open Scope nat_scope.

(** *** Which compiler a program is *)
Definition part_of (x s : str) : Prop := exists a b, s = a ++ x ++ b.
(** Known by its name alone. *)
Inductive named : str -> list str -> Prop :=
  | named_clang x : x ∈ [tx "clang"; tx "clang++"] -> named x [tx "clang"; tx "clang++"]
  | named_gcc x : x ∈ [tx "gcc"; tx "g++"; tx "colorgcc"] -> named x [tx "gcc"; tx "g++"]
  | named_icc x : x ∈ [tx "icc"; tx "icpc"] -> named x [tx "icc"; tx "icpc"]
  | named_msvc x : x ∈ [tx "cl"; tx "cl.exe"] -> named x [tx "msvc"; tx "msvc++"].
(** Known by what it writes when asked for its version. *)
Inductive writes_version (out : str) : option (list str) -> Prop :=
  | wv_icc : part_of (tx "ICC") out -> writes_version out (Some [tx "icc"; tx "icpc"])
  | wv_clang : ~ part_of (tx "ICC") out -> part_of (tx "clang") out -> writes_version out (Some [tx "clang"; tx "clang++"])
  | wv_gcc : ~ part_of (tx "ICC") out -> ~ part_of (tx "clang") out -> part_of (tx "Free Software Foundation") out ->
      writes_version out (Some [tx "gcc"; tx "g++"])
  | wv_none : ~ part_of (tx "ICC") out -> ~ part_of (tx "clang") out -> ~ part_of (tx "Free Software Foundation") out ->
      writes_version out None.
Inductive identified (version bare : str -> ran) (x : str) : option (list str) -> Prop :=
  | id_name k : named x k -> identified version bare x (Some k)
  | id_version out err o : (forall k, ~ named x k) -> version x = Ran out err -> writes_version out o -> identified version bare x o
  | id_ms out err : (forall k, ~ named x k) -> version x = RFail -> bare x = Ran out err ->
      part_of (tx "Microsoft") out \/ part_of (tx "Microsoft") err -> identified version bare x (Some [tx "msvc"; tx "msvc++"])
  | id_not_ms out err : (forall k, ~ named x k) -> version x = RFail -> bare x = Ran out err ->
      ~ part_of (tx "Microsoft") out -> ~ part_of (tx "Microsoft") err -> identified version bare x None
  | id_neither : (forall k, ~ named x k) -> version x = RFail -> bare x = RFail -> identified version bare x None.

(** *** The names that hold: those of the platform and of the compilers that may be used. *)
Definition available (p compilers : list str) (kinds : option (list str)) (x : str) : Prop :=
  x ∈ p \/ x ∈ compilers /\ match kinds with None => True | Some k => x ∈ k end.
Definition usable (holds : str -> Prop) (sub : list str) : Prop := forall x, x ∈ sub -> holds x.
(** The platform as the options see it: of the compilers' names only the entry's own. *)
Definition seen (holds : str -> Prop) (compilers sub : list str) (x : str) : Prop :=
  (holds x /\ x ∉ compilers) \/ x ∈ sub.

Section Spec.
  Context {E B : Type}.

  (** Which functions are wanted of an entry, with which arguments. *)
  Definition wanted (static shared : option (kwargs E)) (e : entry) : list (str * kwargs E) :=
    match static with Some a => [(e_static e, a)] | None => [] end ++
    match shared with Some a => [(e_shared e, a)] | None => [] end.

  Context (ok : entry -> str * kwargs E -> call E -> Prop).   (* the call made for it *)
  (** All of them made a builder ... *)
  Inductive all_built (e : entry) : list (str * kwargs E) -> list (call E * made B) -> list B -> Prop :=
    | ab_nil : all_built e [] [] []
    | ab_cons w ws c b t bs : ok e w c -> all_built e ws t bs -> all_built e (w :: ws) ((c, Built b) :: t) (b :: bs).
  (** ... or one failed, and no more were tried. *)
  Inductive refused (e : entry) : list (str * kwargs E) -> list (call E * made B) -> Prop :=
    | rf_here w ws c : ok e w c -> refused e (w :: ws) [(c, Refused)]
    | rf_next w ws c b t : ok e w c -> refused e ws t -> refused e (w :: ws) ((c, Built b) :: t).
  (** ... or another exception came, of the function or before it was called. *)
  Inductive broken (e : entry) : list (str * kwargs E) -> list (call E * made B) -> Prop :=
    | br_before w ws : broken e (w :: ws) []
    | br_here w ws c : ok e w c -> broken e (w :: ws) [(c, Broke)]
    | br_next w ws c b t : ok e w c -> broken e ws t -> broken e (w :: ws) ((c, Built b) :: t).

  (** Which builders are returned: None for one not asked for. *)
  Definition returned (static shared : option (kwargs E)) (bs : list B) (s d : option B) : Prop :=
    (static = None <-> s = None) /\ (shared = None <-> d = None) /\
    match s with Some x => [x] | None => [] end ++ match d with Some x => [x] | None => [] end = bs.

  (** The entries are gone through in order, those that do not hold are skipped, and the first of which
      everything wanted could be made is taken. *)
  Inductive chooses (holds : str -> Prop) (static shared : option (kwargs E)) :
    list entry -> list (call E * made B) -> outcome B -> Prop :=
    | ch_none : chooses holds static shared [] [] NoBuilder
    | ch_skip e es t o : ~ usable holds (e_sub e) -> chooses holds static shared es t o -> chooses holds static shared (e :: es) t o
    | ch_next e es t t' o : usable holds (e_sub e) -> refused e (wanted static shared e) t ->
        chooses holds static shared es t' o -> chooses holds static shared (e :: es) (t ++ t') o
    | ch_take e es t bs s d : usable holds (e_sub e) -> all_built e (wanted static shared e) t bs ->
        returned static shared bs s d -> chooses holds static shared (e :: es) t (Found s d)
    | ch_stop e es t : usable holds (e_sub e) -> broken e (wanted static shared e) t ->
        chooses holds static shared (e :: es) t Raises.
End Spec.

(** *** The arguments of a builder function *)
Section Args.
  Context {E : Type} `{EqDecision E}.
  Context (in_str : E -> list E -> option bool).
  (** The keywords, those of the one builder going first. *)
  Definition merged (h : heap E) (kw args : kwargs E) (k : str) : option (pval E) :=
    match den_kw h args k with Some v => Some v | None => den_kw h kw k end.
  (** What the options that match make of them; everything read in the heap [h]. *)
  Definition argued (h : heap E) (kw args : kwargs E) (popts : list (list str * list (str * value E)))
    (sees : str -> Prop) (f : str -> option (pval E)) : Prop :=
    exists q sel sopts, (forall x, x ∈ q <-> sees x) /\ selects q popts sel /\ reads_all h sel sopts /\
      effects in_str (merged h kw args) sopts f.

  (** The lists of a dictionary exist and are different ones. *)
  Definition unshared (h : heap E) (kw : kwargs E) : Prop :=
    (forall k v l, kw !! k = Some v -> ref v = Some l -> l < length h) /\
    (forall k k' v v' l, kw !! k = Some v -> kw !! k' = Some v' -> ref v = Some l -> ref v' = Some l -> k = k').
  Definition all_options (popts : list (list str * list (str * value E))) : list (str * value E) := concat (popts.*2).
  (** The lists of the options exist and are different ones, and no option adds to a keyword to which
      another option gives a list. *)
  Definition tidy (h : heap E) (popts : list (list str * list (str * value E))) : Prop :=
    (forall k v l, (k, v) ∈ all_options popts -> ref v = Some l -> l < length h) /\
    NoDup (omap ref ((all_options popts).*2)) /\
    (forall k m l, (k ++ [c_add], m) ∈ all_options popts -> (k, VList l) ∉ all_options popts).
  Definition orderly (h : heap E) (kw : kwargs E) (static shared : option (kwargs E)) (popts : list (list str * list (str * value E))) : Prop :=
    unshared h kw /\ (forall a, static = Some a \/ shared = Some a -> unshared h a) /\ tidy h popts.

  (** The call made for a wanted function: that function, the program that was given, all names that hold,
      no keyword that would clash, and, if the lists are in order, the arguments as they should be. *)
  Definition call_ok (compilers : list str) (exe : option str) (popts : list (list str * list (str * value E))) (kw : kwargs E)
    (h : heap E) (static shared : option (kwargs E)) (holds : str -> Prop) (e : entry) (w : str * kwargs E) (c : call E) : Prop :=
    c_fun c = fst w /\ c_exe c = exe /\ (forall x, x ∈ c_platform c <-> holds x) /\
    (forall k, c_kw c !! k <> None -> k <> tx "platform" /\ k <> tx "function") /\
    (orderly h kw static shared popts -> argued h kw (snd w) popts (seen holds compilers (e_sub e)) (den_kw (c_heap c) (c_kw c))).
End Args.

(** *** How a search starts: the platform given or found, and the kinds of compiler of the program given. *)
Definition starts (version bare : str -> ran) (here : option (list str)) (platform : option platform_arg) (exe : option str)
  (p : list str) (kinds : option (list str)) : Prop :=
  match platform with Some (Frozen q) | Some (Mutable q) => p = q | None => here = Some p end /\
  match exe with None => kinds = None | Some x => exists k, kinds = Some k /\ identified version bare x (Some k) end.
