(** Claims about cached calls with the SQLite backend, in the vocabulary of DbSpec. *)
From stdpp Require Import base list strings gmap.
From Coq Require Import ZArith.
From Verif Require Import PyMonad DbModel DbSpec DbClaims SqlBackend.

Definition equivalence_test {V} (veq : V -> V -> bool) : Prop :=
  (forall a, veq a a = true) /\ (forall a b, veq a b = true -> veq b a = true) /\
  (forall a b c, veq a b = true -> veq b c = true -> veq a c = true).

(** A hit returns what a completed run of the same function digest with equal arguments
    returned, and every declared source is as it was when that run began.  [ok] restricts
    the histories. *)
Definition hits_justified {V R} (veq : V -> V -> bool) (md5 : content -> digest)
    (ok : sys V R (conn V R) nat nat nat -> list (op V R) -> Prop) : Prop :=
  forall F D (s0 : sys V R (conn V R) nat nat nat) os t rq r srcs dsts,
  let BK := sql_backend (R := R) veq md5 in
  fresh conn_empty s0 -> fs_faithful F (s_env s0) -> history_ok md5 BK F s0 os ->
  declared_by veq D (os ++ [OBegin t rq]) -> ok s0 os ->
  let s := runs md5 BK s0 os in
  snd (step md5 BK s (OBegin t rq)) = RHit r srcs dsts ->
  exists ru, ran md5 BK s0 os ru /\ rq_fun (ru_req ru) = rq_fun rq /\
    veq (rq_bound rq) (rq_bound (ru_req ru)) = true /\ ru_result ru = r /\
    e_fun (s_env s) !! rq_fun rq = e_fun (ru_begin ru) !! rq_fun rq /\
    forall f, f ∈ rq_srcs rq ->
      is_Some (digest_at md5 (s_env s) f) /\ digest_at md5 (s_env s) f = digest_at md5 (ru_begin ru) f.

(** A call registers the external source [f] and completes; later [f] has another content;
    the same call does not return the stored value.  [ok] restricts what happens in between. *)
Definition external_change_detected {V R} (veq : V -> V -> bool) (md5 : content -> digest)
    (ok : sys V R (conn V R) nat nat nat -> list (op V R) -> list (op V R) -> list (op V R) -> request V R -> name -> Prop) : Prop :=
  forall F (s0 : sys V R (conn V R) nat nat nat) a t rq b r c f srcs dsts,
  let BK := sql_backend (R := R) veq md5 in
  fresh conn_empty s0 -> fs_faithful F (s_env s0) ->
  history_ok md5 BK F s0 (a ++ OBegin t rq :: b ++ OEnd t r :: c) ->
  runs_during md5 BK s0 t rq a b ->
  registered md5 BK s0 (fun xs _ => xs) t rq a b f ->
  let s1 := runs md5 BK s0 (a ++ OBegin t rq :: b) in
  snd (step md5 BK s1 (OEnd t r)) = RDone r srcs dsts ->
  ok s0 a (OBegin t rq :: b ++ [OEnd t r]) c rq f ->
  let s := runs md5 BK s0 (a ++ OBegin t rq :: b ++ OEnd t r :: c) in
  is_Some (digest_at md5 (s_env s) f) -> digest_at md5 (s_env s) f <> digest_at md5 (s_env s1) f ->
  forall t', ~ hits md5 BK s t' rq.
