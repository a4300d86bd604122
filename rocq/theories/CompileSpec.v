(** What reusing an object file rests on: the dependency files of a C compiler, runs of
    Builder.compile and of build_objects as sequences of operations. *)
From stdpp Require Import base list strings gmap.
From Coq Require Import Ascii NArith ZArith.
From Verif Require Import PyMonad DbModel DbSpec DbClaims FnModel DepModel DepSpec.

(** Names and contents as the reader of dependency files sees them (all characters below 256). *)
Definition chars (s : string) : str := map N_of_ascii (String.list_ascii_of_string s).

(** The dependency file with this content lists the files [hs], lines broken anywhere; their names
    need no quoting. *)
Definition no_quoting (n : str) : Prop := plain n /\ forall m, n <> m ++ [c_bs].
Definition dep_file (ct : content) (hs : list name) : Prop :=
  exists target brk, length brk = length hs /\ no_quoting target /\ Forall (fun h => no_quoting (chars h)) hs /\
    chars ct = written target (combine brk (map chars hs)).

(** The operation does not write or remove the file. *)
Definition leaves {V R} (f : name) (o : op V R) : Prop :=
  match o with OWrite g _ _ | ORemove g => g <> f | _ => True end.

Section Compile.
  Context {V R : Type} (veq : V -> V -> bool) (md5 : content -> digest).
  Context {S FunId CallId FileId : Type}.
  Context (BK : backend V R S FunId CallId FileId).
  Notation sys := (sys V R S FunId CallId FileId).
  Notation op := (op V R).
  Notation step := (step md5 BK).
  Notation runs := (runs md5 BK).
  Context (s0 : sys).

  (** Builder.compile, builders/c/gcc/__init__.py:438-464: some time after the compiler wrote the
      dependency file (a temporary file), the names read from it are registered.
      Simplification: what else the function does is left open. *)
  Definition compile_run (t : nat) (rq : request V R) (a b : list op) (hs : list name) : Prop :=
    exists b1 dep m ct deps b2, b = b1 ++ OAddExt t deps [] false :: b2 /\
      e_fs (s_env (runs s0 (a ++ OBegin t rq :: b1))) !! dep = Some (m, ct) /\ dep_file ct hs /\
      read_deps (chars ct) = Some (map chars deps).

  (** All runs of the function [fc] that return are such runs, and they return without an
      error; [reads a rq] are the files the compiler read when the
      call [rq] began to run after [a]. *)
  Definition compiles (fc : name) (reads : list op -> request V R -> list name) (os : list op) : Prop :=
    forall t rq a b r c, os = a ++ OBegin t rq :: b ++ OEnd t r :: c -> rq_fun rq = fc ->
      runs_during md5 BK s0 t rq a b ->
      compile_run t rq a b (reads a rq) /\
      exists srcs dsts, snd (step (runs s0 (a ++ OBegin t rq :: b)) (OEnd t r)) = RDone r srcs dsts.

  (** A call that thread [t] makes after [before], with [rest] happening afterwards, is answered
      with the result [o] and the files [srcs] and [dsts], from the database or by running; [p] is what
      happened before the answer, [q] what happens after. *)
  Inductive answered (before : list op) (t : nat) (rq : request V R) (rest : list op) :
      R -> list name -> list name -> list op -> list op -> Prop :=
    | AHit o srcs dsts :
        snd (step (runs s0 before) (OBegin t rq)) = RHit o srcs dsts ->
        answered before t rq rest o srcs dsts before rest
    | ARun b o srcs dsts q :
        rest = b ++ OEnd t o :: q -> runs_during md5 BK s0 t rq before b ->
        snd (step (runs s0 (before ++ OBegin t rq :: b)) (OEnd t o)) = RDone o srcs dsts ->
        answered before t rq rest o srcs dsts (before ++ OBegin t rq :: b) q.

  (** build_objects, builders/__init__.py:141-166: [fc] is called for every source, in any thread; then
      the files these calls reported are registered.  Between the answer and the end of build_objects
      nobody touches the files the compiler read. *)
  Definition build_run (fc : name) (opts : V -> name -> V) (t : nat) (rq : request V R) (a b : list op) : Prop :=
    forall src, src ∈ rq_srcs rq -> exists t' b1 rq' b2 o srcs dsts p q c1 xs xd c2,
      b = b1 ++ OBegin t' rq' :: b2 /\
      rq_fun rq' = fc /\ rq_srcs rq' = [src] /\ rq_bound rq' = opts (rq_bound rq) src /\
      answered (a ++ OBegin t rq :: b1) t' rq' b2 o srcs dsts p q /\
      q = c1 ++ OAddExt t xs xd false :: c2 /\ (forall f, f ∈ srcs -> f ∈ xs) /\ (forall f, f ∈ dsts -> f ∈ xd) /\
      forall f, f ∈ srcs -> Forall (leaves f) q.
  Definition builds (fb fc : name) (opts : V -> name -> V) (os : list op) : Prop :=
    forall t rq a b r c, os = a ++ OBegin t rq :: b ++ OEnd t r :: c -> rq_fun rq = fb ->
      runs_during md5 BK s0 t rq a b ->
      build_run fc opts t rq a b /\
      exists srcs dsts, snd (step (runs s0 (a ++ OBegin t rq :: b)) (OEnd t r)) = RDone r srcs dsts.

  (** The compilation of [src] by the run of [fc] that began after [a] and returned after [b] is still
      good in [e]: the source is as it was when it began, and the files the compiler read that exist
      are as they were when it returned. *)
  Record still_good (e : env) (reads : list op -> request V R -> list name) (src : name) (t : nat) (rq : request V R)
      (a b : list op) : Prop := StillGood {
    sg_src : is_Some (digest_at md5 e src) /\ digest_at md5 e src = digest_at md5 (s_env (runs s0 a)) src;
    sg_read : forall h, h ∈ reads a rq -> is_Some (e_fs e !! h) ->
      digest_at md5 e h = digest_at md5 (s_env (runs s0 (a ++ OBegin t rq :: b))) h
  }.
End Compile.
