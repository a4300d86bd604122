(** What it means that building again gives what building from scratch would give. *)
From stdpp Require Import base list strings gmap.
From Coq Require Import ZArith.
From Verif Require Import PyMonad DbModel DbSpec DbClaims CodeSpec TargetSpec.

(** What a call does: its result, what it leaves in files, and the files it reads besides its
    declared sources. *)
Record deed (R : Type) := Deed { d_result : R; d_files : gmap name content; d_reads : list name }.
Arguments Deed {R}.
Arguments d_result {R}.
Arguments d_files {R}.
Arguments d_reads {R}.

Section Again.
  Context {V R : Type} (veq : V -> V -> bool) (md5 : content -> digest).

  (** The digests of all files. *)
  Definition world := name -> option digest.
  (** What a function with some code does, called with these arguments when files are like this. *)
  Definition nature := name -> digest -> V -> world -> deed R.
  (** It is decided by the arguments, up to equality, the declared sources and the files it reads. *)
  Definition decided (D : name -> V -> list name) (G : nature) : Prop :=
    forall f d b b' w w', veq b b' = true ->
      (forall g, g ∈ D f b \/ g ∈ d_reads (G f d b w) -> w g = w' g) -> G f d b w = G f d b' w'.

  Definition after (k : deed R) (w : world) : world :=
    fun f => match d_files k !! f with Some ct => Some (md5 ct) | None => w f end.
  (** The calls made one after the other, all of them running. *)
  Fixpoint from_scratch (G : nature) (code : name -> digest) (w : world) (rqs : list (request V R)) :
      list (request V R * deed R) :=
    match rqs with
    | [] => []
    | rq :: rqs' =>
        let k := G (rq_fun rq) (code (rq_fun rq)) (rq_bound rq) w in
        (rq, k) :: from_scratch G code (after k w) rqs'
    end.

  (** Files that are read are written by earlier calls only, and no file is written by two calls. *)
  Definition writes (l : list (request V R * deed R)) (f : name) : Prop :=
    exists rq k, (rq, k) ∈ l /\ is_Some (d_files k !! f).
  Definition needs (rq : request V R) (k : deed R) (f : name) : Prop := f ∈ rq_srcs rq \/ f ∈ d_reads k.
  Fixpoint in_order (l : list (request V R * deed R)) : Prop :=
    match l with
    | [] => True
    | (rq, k) :: l' =>
        (forall f, needs rq k f -> ~ writes ((rq, k) :: l') f) /\
        (forall f, is_Some (d_files k !! f) -> ~ writes l' f) /\ in_order l'
    end.
  (** The files of the project. *)
  Definition part (l : list (request V R * deed R)) (f : name) : Prop :=
    writes l f \/ exists rq k, (rq, k) ∈ l /\ needs rq k f.
  (** What is written is declared or returned. *)
  Definition targets_declared (l : list (request V R * deed R)) : Prop :=
    forall rq k f, (rq, k) ∈ l -> is_Some (d_files k !! f) -> f ∈ rq_dsts rq \/ f ∈ rq_ret rq (d_result k).

  Context {S FunId CallId FileId : Type}.
  Context (BK : backend V R S FunId CallId FileId).
  Notation sys := (sys V R S FunId CallId FileId).
  Notation op := (op V R).
  Notation occ := (occ V R).
  Notation step := (step md5 BK).
  Notation runs := (runs md5 BK).
  Context (t : nat) (s0 : sys).

  Definition touches (o : op) (f : name) : Prop :=
    match o with OWrite g _ _ | ORemove g => g = f | _ => False end.
  (** Between the calls time passes, the database is saved and other files are changed. *)
  Definition aside (l : list (request V R * deed R)) (o : op) : Prop :=
    match o with
    | OTick _ | OSave => True
    | OWrite f _ _ | ORemove f => ~ part l f
    | _ => False
    end.
  (** A build after the history [os]: the calls of [todo] are made one after the other and answered
      with the results [rs], from the database or by running; calls that run touch no files of the
      project [l] but their targets. *)
  Inductive building (l : list (request V R * deed R)) :
      list op -> list (request V R * deed R) -> list R -> list op -> Prop :=
    | BDone os : building l os [] [] []
    | BAside os o todo rs b :
        aside l o -> building l (os ++ [o]) todo rs b -> building l os todo rs (o :: b)
    | BHit os rq k r srcs dsts todo rs b :
        snd (step (runs s0 os) (OBegin t rq)) = RHit r srcs dsts ->
        building l (os ++ [OBegin t rq]) todo rs b ->
        building l os ((rq, k) :: todo) (r :: rs) (OBegin t rq :: b)
    | BRun os rq k during r todo rs b :
        runs_during md5 BK s0 t rq os during ->
        (forall o f, o ∈ during -> touches o f -> part l f -> is_Some (d_files k !! f)) ->
        building l (os ++ OBegin t rq :: during ++ [OEnd t r]) todo rs b ->
        building l os ((rq, k) :: todo) (r :: rs) (OBegin t rq :: during ++ OEnd t r :: b).

  (** All runs of calls of the project did what [G] says; what they read they registered, and it was
      the same when they returned. *)
  Definition did (G : nature) (l : list (request V R * deed R)) (os : list op) : Prop :=
    forall rq k oc d, (rq, k) ∈ l -> completed md5 BK t s0 os oc -> equal_call veq rq (oc_req oc) ->
      oc_code md5 BK s0 oc = Some d ->
      let k := G (oc_fun oc) d (rq_bound (oc_req oc)) (digest_at md5 (s_env (runs s0 (oc_before oc)))) in
      oc_result oc = d_result k /\
      (forall f ct, d_files k !! f = Some ct -> exists m, e_fs (oc_end md5 BK t s0 oc) !! f = Some (m, ct)) /\
      (forall f, f ∈ d_reads k ->
         registered md5 BK s0 (fun xs _ => xs) t (oc_req oc) (oc_before oc) (oc_during oc) f /\
         digest_at md5 (oc_end md5 BK t s0 oc) f = digest_at md5 (s_env (runs s0 (oc_before oc))) f).
  (** Whenever such a call is made, the files that earlier runs of it read are there. *)
  Definition reads_there (G : nature) (l : list (request V R * deed R)) (os : list op) : Prop :=
    forall rq k a c oc d f, (rq, k) ∈ l -> os = a ++ OBegin t rq :: c ->
      completed md5 BK t s0 a oc -> equal_call veq rq (oc_req oc) -> oc_code md5 BK s0 oc = Some d ->
      f ∈ d_reads (G (oc_fun oc) d (rq_bound (oc_req oc)) (digest_at md5 (s_env (runs s0 (oc_before oc))))) ->
      is_Some (e_fs (s_env (runs s0 a)) !! f).
  (** Targets are written by their calls only. *)
  Definition own_targets (l : list (request V R * deed R)) (os : list op) : Prop :=
    forall rq k f, (rq, k) ∈ l -> is_Some (d_files k !! f) -> only_written_by veq md5 BK t s0 os rq f.
End Again.
