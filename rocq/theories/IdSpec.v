(** What is claimed about the identity of cached functions. *)
From stdpp Require Import base list strings gmap.
From Verif Require Import PyMonad DbModel DbSpec IdModel.
Local Open Scope string_scope.
Local Open Scope list_scope.

(** The text of the function a user wrote, below all decorators. *)
Fixpoint inmost (f : fobj) : string :=
  match f with
  | FObj _ _ x None => x
  | FObj _ _ _ (Some g) => inmost g
  end.

(** The text of the code a call runs. *)
Definition code (k : callable) : string :=
  match k with KFun f | KMethod _ f => inmost f | KNew c => c_init c end.

(** The callables a program defines; [super] also reaches the methods of the bases. *)
Definition defines (P : list definition) (k : callable) : Prop :=
  match k with
  | KFun f => DFun f ∈ P
  | KMethod c f => DClass c ∈ P /\ f ∈ c_members c
  | KNew c => DClass c ∈ P
  end.
Definition by_super (P : list definition) (k : callable) : Prop :=
  match k with
  | KMethod c f => DClass c ∈ P /\ exists b, b ∈ c_bases c /\ f ∈ c_members b
  | _ => False
  end.
Definition creates (k : callable) : bool := match k with KNew _ => true | _ => false end.

(** At most one decorator. *)
Definition plain (f : fobj) : Prop :=
  match f with FObj _ _ _ (Some (FObj _ _ _ (Some _))) => False | _ => True end.

(** The names under which a definition is known to the database. *)
Definition names_of (d : definition) : list string :=
  match d with
  | DFun f => [call_name (KFun f)]
  | DClass c => call_name (KNew c) :: ((fun f => call_name (KMethod c f)) <$> (c_members c ++ (c_bases c ≫= c_members)))
  end.

(** A program of which no two definitions share a name. *)
Record distinct (P : list definition) : Prop := Distinct {
  ds_names : forall i j d1 d2 n, P !! i = Some d1 -> P !! j = Some d2 -> n ∈ names_of d1 -> n ∈ names_of d2 -> i = j;
  ds_members : forall c f g, DClass c ∈ P -> f ∈ c_members c -> g ∈ c_members c ->
    call_name (KMethod c f) = call_name (KMethod c g) -> f = g;
  ds_plain : forall k, defines P k -> match k with KFun f | KMethod _ f => plain f | KNew _ => True end;
  ds_named : forall c, DClass c ∈ P -> c_name c <> "PersistentObject"
}.

(** A method of a base reached by [super] whose name no other method of the class has. *)
Definition inherited (P : list definition) (k : callable) : Prop :=
  match k with
  | KMethod c f => DClass c ∈ P /\ f ∈ (c_bases c ≫= c_members) /\ plain f /\
      forall g, g ∈ c_members c ++ (c_bases c ≫= c_members) -> call_name (KMethod c g) = call_name k -> g = f
  | _ => False
  end.

(** The calls about which the claim is made: of functions and methods, in a program whose
    names are distinct. *)
Definition own_name (P : list definition) (k : callable) : Prop :=
  distinct P /\ creates k = false /\ (defines P k \/ inherited P k).

Section Claim.
  Context {A R S FunId CallId FileId : Type}.
  Context (aeq : A -> A -> bool) (md5 : content -> digest).
  (** The requests of DbModel.v, with what is called noted beside the arguments; the
      database compares the arguments only. *)
  Notation V := (callable * A)%type.
  Definition aeq2 (v w : V) : bool := aeq v.2 w.2.
  Definition callee (rq : request V R) : callable := (rq_bound rq).1.
  Notation sys := (sys V R S FunId CallId FileId).
  Notation op := (op V R).

  (** The process runs a program in which the call is one of those meant by [ok], and the
      request bears its name. *)
  Definition proper (ok : list definition -> callable -> Prop) (e : env) (rq : request V R) : Prop :=
    exists P, e_fun e = table md5 P /\ ok P (callee rq) /\ rq_fun rq = call_name (callee rq).
  (** All calls of a history. *)
  Fixpoint all_proper (BK : backend V R S FunId CallId FileId) ok (s : sys) (os : list op) : Prop :=
    match os with
    | [] => True
    | o :: os' => match o with OBegin _ rq => proper ok (s_env s) rq | _ => True end /\
                  all_proper BK ok (fst (step md5 BK s o)) os'
    end.
  (** A call answered from the database is answered with what a run of the same code, with
      equal arguments, returned. *)
  Definition same_code_claim (BK : backend V R S FunId CallId FileId) (db : S) ok : Prop :=
    forall F (s0 : sys) (os : list op) t rq r srcs dsts,
    fresh db s0 -> fs_faithful F (s_env s0) -> history_ok md5 BK F s0 os ->
    all_proper BK ok s0 (os ++ [OBegin t rq]) ->
    snd (step md5 BK (runs md5 BK s0 os) (OBegin t rq)) = RHit r srcs dsts ->
    exists ru, ran md5 BK s0 os ru /\ ru_result ru = r /\
      aeq (rq_bound rq).2 (rq_bound (ru_req ru)).2 = true /\
      md5 (code (callee (ru_req ru))) = md5 (code (callee rq)).
End Claim.

(** No dot in a name; the names of functions and classes have none. *)
Definition undotted (s : string) : Prop := forall u v, s <> u +:+ "." +:+ v.
