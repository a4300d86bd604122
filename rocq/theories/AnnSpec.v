(** What is claimed about the files of a cached call. *)
From stdpp Require Import base list strings gmap.
From Verif Require Import PyMonad DbModel DbSpec ArgsModel ArgsSpec IdModel IdSpec AnnModel.
Local Open Scope list_scope.

Section Spec.
  Context {V : Type} (is_none : V -> bool) (elems : V -> option (list V)) (hashable : V -> bool)
    (str : name -> V) (path : bvalue V -> name).

  (** What the annotations are for: files to read, files to write, others; not a class. *)
  Definition kind (a : annotation) : role :=
    match a with
    | ASrc => Source | ASrcs => Source | AOptSrc => Source
    | ADst => Target | ADsts => Target | AOptDst => Target
    | AOther => Neither | ABad => NoClass
    end.

  (** The value [v] under the annotation [a] names the file [f]. *)
  Definition names_file (a : annotation) (v : bvalue V) (f : name) : Prop :=
    match a, v with
    | (ASrc | ADst), _ => f = path v
    | (AOptSrc | AOptDst), BVal x => is_none x = false /\ f = path v
    | (AOptSrc | AOptDst), _ => f = path v
    | (ASrcs | ADsts), BVal x => exists xs y, elems x = Some xs /\ y ∈ xs /\ f = path (BVal y)
    | (ASrcs | ADsts), BTuple xs => exists y, y ∈ xs /\ f = path (BVal y)
    | (ASrcs | ADsts), BDict m => exists k, is_Some (m !! k) /\ f = path (BVal (str k))
    | _, _ => False
    end.

  (** A function with these annotations, called with its parameters bound to [b], declares
      the file [f] as a source (a destination). *)
  Definition declares (r : role) (anns : list (name * annotation)) (b : gmap name (bvalue V)) (f : name) : Prop :=
    exists p a v, (p, a) ∈ anns /\ p <> "return"%string /\ kind a = r /\ b !! p = Some v /\ names_file a v f.

  (** Not a class, not iterable, not hashable, or no parameter. *)
  Definition convertible (a : annotation) (v : bvalue V) : Prop :=
    match a, v with
    | (ASrcs | ADsts), BVal x => exists xs, elems x = Some xs /\ forall y, y ∈ xs -> hashable y = true
    | (ASrcs | ADsts), BTuple xs => forall y, y ∈ xs -> hashable y = true
    | (ASrcs | ADsts), BDict m => forall k, is_Some (m !! k) -> hashable (str k) = true
    | (AOptSrc | AOptDst), BVal x => is_none x = true \/ hashable x = true
    | _, BVal x => hashable x = true
    | _, BTuple xs => forall y, y ∈ xs -> hashable y = true
    | _, BDict _ => False
    end.
  Definition well_annotated (anns : list (name * annotation)) (b : gmap name (bvalue V)) : Prop :=
    forall p a, (p, a) ∈ anns -> p <> "return"%string ->
      match kind a with
      | NoClass => False
      | Neither => True
      | _ => exists v, b !! p = Some v /\ convertible a v
      end.

  Context (probe_of : V -> probe V) (is_inner : V -> bool).
  Context (sig_of : content -> sig V) (ann_of : content -> list (name * annotation)).
  Context {S FunId CallId FileId : Type} (md5 : content -> digest).
  Notation B := (gmap name (bvalue V)).
  Notation request_of := (request_of is_none elems hashable str path probe_of is_inner sig_of ann_of).

  (** Undecorated functions and methods called in a way that bind_args and Python agree upon (C37). *)
  Definition undecorated (k : callable) : Prop :=
    match k with KFun (FObj _ _ _ None) | KMethod _ (FObj _ _ _ None) => True | _ => False end.
  (** Annotations are a dictionary. *)
  Definition plainly (c : pcall V) : Prop :=
    let sg := sig_of (code (pc_callee c)) in
    (undecorated (pc_callee c) /\ NoDup (ann_of (code (pc_callee c))).*1) /\ sig_ok sg /\ plain_call sg (pc_args c) (pc_kw c).

  (** In the process with environment [e], which runs a program whose names are distinct, the
      request [rq] is that of the call [c]. *)
  Definition requests (e : env) (c : pcall V) (rq : request (callable * B) V) : Prop :=
    plainly c /\ request_of c = Some rq /\
    exists P, e_fun e = table md5 P /\ own_name P (pc_callee c).
  Fixpoint all_requests (BK : backend (callable * B) V S FunId CallId FileId)
      (s : sys (callable * B) V S FunId CallId FileId) (os : list (op (callable * B) V)) : Prop :=
    match os with
    | [] => True
    | o :: os' => match o with OBegin _ rq => exists c, requests (s_env s) c rq | _ => True end /\
                  all_requests BK (fst (step md5 BK s o)) os'
    end.

  (** The parameters of the call as Python binds them, and the code that runs. *)
  Definition locals (c : pcall V) (b : B) : Prop :=
    py_binds (sig_of (code (pc_callee c))) (pc_args c) (pc_kw c) b.
  Definition declared_source (c : pcall V) (f : name) : Prop :=
    exists b, locals c b /\ declares Source (ann_of (code (pc_callee c))) b f.
  Definition declared_target (c : pcall V) (f : name) : Prop :=
    exists b, locals c b /\ declares Target (ann_of (code (pc_callee c))) b f.
  (** The result [r] of the call names the file. *)
  Definition result_target (c : pcall V) (r : V) (f : name) : Prop :=
    exists a, ("return"%string, a) ∈ ann_of (code (pc_callee c)) /\ kind a = Target /\ names_file a (BVal r) f.
End Spec.
