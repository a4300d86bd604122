(** C12 with the pickle database, for cached functions that call other cached functions. *)
From stdpp Require Import base list strings gmap.
From Coq Require Import ZArith Lia.
From Verif Require Import PyMonad DbModel DbSpec DbClaims CacheBackend CacheTrust SqlSpec CacheGood CacheNest
  DbRank DbRefute DbExamples.
Local Open Scope string_scope.
Local Open Scope list_scope.

Section Props.
  Context {V R : Type} (veq : V -> V -> bool) (md5 : content -> digest).
  Notation BK := (cache_backend (V := V) (R := R) veq md5).
  Notation sys := (sys V R (pdb V R) name (name * nat) name).
  Notation op := (op V R).
  Notation step := (step md5 BK).
  Notation runs := (runs md5 BK).
  Notation mem s := (p_mem (s_db s)).

  Lemma history_ok_careful F (s : sys) os a o b :
    history_ok md5 BK F s os -> os = a ++ o :: b -> well_behaved (runs s a) o.
  Proof.
    intros H ->. revert s H. induction a as [|x a IH]; intros s (H1 & H2 & H3); [done|]. by apply IH.
  Qed.

  (** In one thread, if functions call only functions of lower rank and exceptions are not
      caught by cached functions: a call that completed is served from the database, whatever
      was called while it ran and whatever happened since, as long as the files it read are the
      same throughout, what it wrote exists, nothing was deleted from the database that it
      needs, the process was only restarted with its data saved and with the same functions up
      to its rank, and no call with the same arguments has run again. *)
  Theorem C12_nested_partial F (rank : name -> nat) t (s0 : sys) a (rq : request V R) b r c srcs dsts t' :
    equivalence_test veq -> fresh pdb_empty s0 -> fs_faithful F (s_env s0) ->
    let h := a ++ OBegin t rq :: b ++ OEnd t r :: c in
    let s1 := runs s0 (a ++ OBegin t rq :: b) in
    let s2 := runs s0 h in
    history_ok md5 BK F s0 h -> Forall (on_thread t) h ->
    calls_below md5 BK rank s0 h -> (forall t1 rq1, OBegin t1 rq1 ∈ h -> rank (rq_fun rq1) < e_limit (s_env s0)) ->
    uncaught md5 BK t s0 h ->
    runs_during md5 BK s0 t rq a b -> (forall f, f ∈ rq_srcs rq -> ODelFile f ∉ b) ->
    snd (step s1 (OEnd t r)) = RDone r srcs dsts ->
    undisturbed rank (rq_fun rq) (e_fun (s_env s1)) false c -> (forall f, f ∈ srcs -> ODelFile f ∉ c) ->
    (forall c1 c2 f, c = c1 ++ c2 -> f ∈ srcs ->
       digest_at md5 (s_env (runs s0 (a ++ OBegin t rq :: b ++ OEnd t r :: c1))) f = digest_at md5 (s_env s1) f) ->
    (forall c1 rq1 c2, c = c1 ++ OBegin t rq1 :: c2 -> rq_fun rq1 = rq_fun rq ->
       veq (rq_bound rq) (rq_bound rq1) = true ->
       snd (step (runs s0 (a ++ OBegin t rq :: b ++ OEnd t r :: c1)) (OBegin t rq1)) <> RRun) ->
    (forall f, f ∈ dsts -> is_Some (e_fs (s_env s2) !! f)) ->
    snd (step s2 (OBegin t' rq)) = RHit r srcs dsts /\
    c_calls (mem (fst (step s2 (OBegin t' rq)))) = c_calls (mem s2).
  Proof.
    intros Hveq Hf HF h s1 s2 Hok Ht Hbelow Hlim Hun Hd Hdel Hdone Hund Hdel' Hdig Hno Hdsts.
    refine (nested_noop veq md5 rank t s0 a rq b r c srcs dsts t' Hveq Hf _ _ Hun Hd Hdel Hdone Hund Hdel' Hdig Hno Hdsts).
    - by apply (history_trusted veq md5 F).
    - intros x o y Hx. split.
      + rewrite Forall_forall in Ht. apply Ht. fold h in Hx. rewrite Hx. set_solver.
      + by eapply history_ok_careful; [exact Hok|].
      + intros t1 rq1 fr frs -> Hth. by eapply (Hbelow x t1 rq1 y).
      + intros t1 rq1 ->. rewrite (runs_limit veq md5). apply (Hlim t1). fold h in Hx. rewrite Hx. set_solver.
  Qed.
End Props.

Print Assumptions C12_nested_partial.

(** Decide something about every operation of a history and what comes before it. *)
Definition splits (f : list (op string string) -> op string string -> bool) (os : list (op string string)) : bool :=
  forallb (fun n => match os !! n with Some o => f (take n os) o | None => true end) (seq 0 (length os)).
Lemma splits_sound f os : splits f os = true -> forall a o b, os = a ++ o :: b -> f a o = true.
Proof.
  intros H a o b ->. unfold splits in H. rewrite forallb_forall in H. specialize (H (length a)).
  rewrite list_lookup_middle, take_app in H by done. apply H. apply in_seq. rewrite app_length. simpl. lia.
Qed.

(** f("a.c") compiles a.c, calling g, which calls h, which had been called before.  Afterwards a
    second call of f raises inside of g; the process is restarted with a new function of higher
    rank, which calls f with other arguments and g as before. *)
Definition noop_rank (f : name) : nat :=
  if decide (f = "m") then 3 else if decide (f = "f") then 2 else if decide (f = "g") then 1 else 0.
Definition noop_funs : gmap name digest := <["m" := "m1"]> funs1.
Definition noop_a : list (op string string) := ex_before ++ [OBegin 0 (call "h" "z"); OEnd 0 "H1"].
Definition noop_b : list (op string string) :=
  [OBegin 0 (call_src "g" "y" ["a.h"]); OBegin 0 (call "h" "z"); OEnd 0 "G1"] ++ ex_body.
Definition noop_c : list (op string string) :=
  [OBegin 0 (call "f" "q"); OBegin 0 (call "g" "w"); ORaise 0; ORaise 0;
   OTick 3000000; OSave; ORestart noop_funs;
   OBegin 0 (call "m" "x"); OBegin 0 (call "f" "r"); OEnd 0 "F2"; OBegin 0 (call_src "g" "y" ["a.h"]);
   OEnd 0 "M1"; OSave].
Definition noop_h : list (op string string) := noop_a ++ OBegin 0 ex_call :: noop_b ++ OEnd 0 "a.o" :: noop_c.

Ltac op_in Hin :=
  rewrite ?elem_of_app, ?elem_of_cons, ?elem_of_nil in Hin; repeat (destruct Hin as [Hin|Hin]);
  try discriminate Hin; try done.

Example C12_nested_example :
  let R0 := runs ident sbk (start 100) in
  let s1 := R0 (noop_a ++ OBegin 0 ex_call :: noop_b) in
  equivalence_test String.eqb /\ fresh pdb_empty (start 100) /\ fs_faithful ex_F (s_env (start 100)) /\
  history_ok ident sbk ex_F (start 100) noop_h /\ Forall (on_thread 0) noop_h /\
  calls_below ident sbk noop_rank (start 100) noop_h /\
  (forall t1 rq1, OBegin t1 rq1 ∈ noop_h -> noop_rank (rq_fun rq1) < 100) /\
  uncaught ident sbk 0 (start 100) noop_h /\
  runs_during ident sbk (start 100) 0 ex_call noop_a noop_b /\
  (forall f, ODelFile f ∉ noop_b) /\
  snd (step ident sbk s1 (OEnd 0 "a.o")) = RDone "a.o" ["a.c"; "a.h"] ["a.o"; "a.log"; "a.o"] /\
  undisturbed noop_rank "f" (e_fun (s_env s1)) false noop_c /\
  (forall f, ODelFile f ∉ noop_c) /\
  (forall c1 c2 f, noop_c = c1 ++ c2 -> f ∈ ["a.c"; "a.h"] ->
     digest_at ident (s_env (R0 (noop_a ++ OBegin 0 ex_call :: noop_b ++ OEnd 0 "a.o" :: c1))) f =
     digest_at ident (s_env s1) f) /\
  (forall c1 rq1 c2, noop_c = c1 ++ OBegin 0 rq1 :: c2 -> rq_fun rq1 = "f" -> rq_bound rq1 = "a.c" -> False) /\
  (forall f, f ∈ ["a.o"; "a.log"; "a.o"] -> is_Some (e_fs (s_env (R0 noop_h)) !! f)).
Proof.
  cbv zeta. split_and!.
  - split_and!; [intros x; apply String.eqb_refl|intros x y; rewrite !String.eqb_eq; congruence|
      intros x y z; rewrite !String.eqb_eq; congruence].
  - apply start_fresh.
  - apply ex_faithful.
  - apply ok_check_sound. by vm_compute.
  - by repeat constructor.
  - intros a t rq b fr frs Ho Ht.
    pose proof (splits_sound (fun a o => match o with
      | OBegin t rq => match thread (runs ident sbk (start 100) a) t with
          | fr :: _ => Nat.ltb (noop_rank (rq_fun rq)) (noop_rank (rq_fun (fr_req fr))) | [] => true end
      | _ => true end) noop_h) as H.
    specialize (H ltac:(by vm_compute) a _ b Ho). cbv beta iota in H. rewrite Ht in H. by apply Nat.ltb_lt.
  - intros t1 rq1 _. unfold noop_rank. repeat destruct (decide _); lia.
  - intros a o b Ho Hu.
    pose proof (splits_sound (fun a o => match o with
      | OBegin _ _ | OEnd _ _ => negb (unwinding ident sbk 0 false (start 100) a) | _ => true end) noop_h) as H.
    specialize (H ltac:(by vm_compute) a _ b Ho). cbv beta in H. rewrite Hu in H. by destruct o.
  - split; [split; [by vm_compute|]|by vm_compute]. prefixes.
  - intros f Hin. unfold noop_b, ex_body in Hin. op_in Hin.
  - by vm_compute.
  - assert (e_fun (s_env (runs ident sbk (start 100) (noop_a ++ OBegin 0 ex_call :: noop_b))) = funs1) as -> by (apply (bool_decide_unpack _); vm_compute; exact I).
    assert (forall g, noop_rank g <= noop_rank "f" -> noop_funs !! g = funs1 !! g) as H.
    { intros g Hg. unfold noop_funs. apply lookup_insert_ne. intros <-. vm_compute in Hg. lia. }
    unfold noop_c. do 6 (split; [exact I|]). split; [exact (conj eq_refl H)|]. repeat (split; [exact I|]). exact I.
  - intros f Hin. unfold noop_c in Hin. op_in Hin.
  - intros c1 c2 f Hc Hin.
    assert (forallb (fun n => forallb (fun f => bool_decide (
      digest_at ident (s_env (runs ident sbk (start 100) (noop_a ++ OBegin 0 ex_call :: noop_b ++ OEnd 0 "a.o" :: take n noop_c))) f =
      digest_at ident (s_env (runs ident sbk (start 100) (noop_a ++ OBegin 0 ex_call :: noop_b))) f)) ["a.c"; "a.h"])
      (seq 0 (S (length noop_c))) = true) as H by by vm_compute.
    rewrite forallb_forall in H. specialize (H (length c1)).
    assert (take (length c1) noop_c = c1) as Htk by (rewrite Hc; apply take_app). rewrite Htk in H.
    rewrite forallb_forall in H. eapply bool_decide_eq_true, H; [|by apply elem_of_list_In].
    apply in_seq. rewrite Hc, app_length. lia.
  - intros c1 rq1 c2 Hc Hf Hb. assert (OBegin 0 rq1 ∈ noop_c) as Hin by (rewrite Hc; set_solver).
    unfold noop_c in Hin. op_in Hin; by injection Hin as ->.
  - intros f Hin.
    assert (forallb (fun f => bool_decide (is_Some (e_fs (s_env (runs ident sbk (start 100) noop_h)) !! f)))
      ["a.o"; "a.log"; "a.o"] = true) as H by by vm_compute.
    rewrite forallb_forall in H. eapply bool_decide_eq_true, H. by apply elem_of_list_In.
Qed.
