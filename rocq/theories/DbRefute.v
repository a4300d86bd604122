(** Histories that refute the claims of DbClaims.v for the pickle engine. *)
From stdpp Require Import base list strings gmap.
From Coq Require Import ZArith Lia.
From Verif Require Import PyMonad DbModel DbSpec DbClaims CacheBackend CacheLift.
Local Open Scope string_scope.
Local Open Scope list_scope.

(** Strings as arguments and results, the identity as digest. *)
Definition ident (c : content) : digest := c.
Definition sbk := cache_backend (V := string) (R := string) String.eqb ident.
Notation ssys := (sys string string (pdb string string) name (name * nat) name).
Definition funs1 : gmap name digest := {[ "f" := "f1"; "g" := "g1"; "h" := "h1" ]}.
Definition funs2 : gmap name digest := {[ "f" := "f1"; "g" := "g2"; "h" := "h1" ]}.
Definition start (limit : nat) : ssys := Sys (Env ∅ 0 funs1 limit) pdb_empty [] ∅ [].
Definition call (f a : name) : request string string := Request f a [] [] (fun _ => []).
Definition call_src (f a : name) (srcs : list name) : request string string :=
  Request f a srcs [] (fun _ => []).

Lemma start_fresh n : fresh pdb_empty (start n).
Proof. done. Qed.

(** Decide membership in a concrete list of operations. *)
Ltac not_in :=
  intros ? ?; rewrite ?elem_of_cons; intros Hin;
  repeat (destruct Hin as [Hin|Hin]; [try discriminate Hin; injection Hin as -> ->; discriminate|]);
  by apply elem_of_nil in Hin.

(** still_running by computation on all prefixes. *)
Lemma all_prefixes (P : list (op string string) -> nat) d b :
  forallb (fun n => Nat.ltb d (P (take n b))) (seq 0 (S (length b))) = true ->
  forall b1 b2, b = b1 ++ b2 -> d < P b1.
Proof.
  intros H b1 b2 ->. rewrite forallb_forall in H.
  specialize (H (length b1)). rewrite take_app in H. apply Nat.ltb_lt, H.
  apply in_seq. rewrite app_length. lia.
Qed.

Ltac prefixes :=
  match goal with
  | |- forall b1 b2, ?b = b1 ++ b2 -> ?d < depth (runs _ _ ?s (?a ++ ?o :: b1)) ?t =>
      apply (all_prefixes (fun b1 => depth (runs ident sbk s (a ++ o :: b1)) t) d b); by vm_compute
  end.

(** f and h call g; g changes; f is brought up to date first, which records the
    new g, so that h looks up to date. *)
Definition nested_a : list (op string string) :=
  [OBegin 0 (call "f" "x"); OBegin 0 (call "g" "y"); OEnd 0 "G1"; OEnd 0 "F(G1)"].
Definition nested_b : list (op string string) := [OBegin 0 (call "g" "y")].
Definition nested_c : list (op string string) :=
  [OSave; ORestart funs2; OBegin 0 (call "f" "x"); OBegin 0 (call "g" "y"); OEnd 0 "G2"; OEnd 0 "F(G2)"].

Lemma nested_refuted :
  ~ nested_change_detected ident sbk pdb_empty (fun _ t rq a b c _ =>
      Forall (on_thread t) (a ++ b ++ c) /\ Forall no_raise (a ++ b ++ c) /\
      not_called (rq_fun rq) a).
Proof.
  intros H.
  refine (H (start 100) 0 (call "h" "x") nested_a nested_b "H(G1)" nested_c "g" 0
            (start_fresh _) _ _ _ _ _ _).
  - split_and!; [by repeat constructor|by repeat constructor|]. unfold not_called, nested_a. simpl. not_in.
  - split; [|by vm_compute]. split; [by vm_compute|]. prefixes.
  - exists [], (call "g" "y"), []. split; [done|]. by vm_compute.
  - unfold nested_c. not_in.
  - by vm_compute.
  - eexists _, _, _. by vm_compute.
Qed.

(** f calls g, then h, which raises; f catches the exception: the call stack keeps
    the entry of h, so f is recorded without its dependency on g. *)
Lemma caught_refuted :
  ~ nested_change_detected ident sbk pdb_empty (fun _ t rq a b c _ =>
      Forall (on_thread t) (a ++ b ++ c) /\ Forall no_begin c /\ not_called (rq_fun rq) a).
Proof.
  intros H.
  refine (H (start 100) 0 (call "f" "x") []
    [OBegin 0 (call "g" "y"); OEnd 0 "G1"; OBegin 0 (call "h" "y"); ORaise 0] "F(G1)"
    [OSave; ORestart funs2] "g" 0 (start_fresh _) _ _ _ _ _ _).
  - split_and!; [by repeat constructor|by repeat constructor|]. unfold not_called. not_in.
  - split; [|by vm_compute]. split; [by vm_compute|]. prefixes.
  - eexists [], (call "g" "y"), _. split; [done|]. by vm_compute.
  - not_in.
  - by vm_compute.
  - eexists _, _, _. by vm_compute.
Qed.

(** f is first called with an argument for which it does not call g. *)
Lemma late_refuted :
  ~ nested_change_detected ident sbk pdb_empty (fun _ t rq a b c _ =>
      Forall (on_thread t) (a ++ b ++ c) /\ Forall no_raise (a ++ b ++ c) /\ Forall no_begin c).
Proof.
  intros H.
  refine (H (start 100) 0 (call "f" "2") [OBegin 0 (call "f" "1"); OEnd 0 "F1"]
    [OBegin 0 (call "g" "y"); OEnd 0 "G1"] "F2(G1)"
    [OSave; ORestart funs2] "g" 0 (start_fresh _) _ _ _ _ _ _).
  - split_and!; by repeat constructor.
  - split; [|by vm_compute]. split; [by vm_compute|]. prefixes.
  - eexists [], (call "g" "y"), _. split; [done|]. by vm_compute.
  - not_in.
  - by vm_compute.
  - eexists _, _, _. by vm_compute.
Qed.

(** Thread 1 starts h while f runs in thread 0; the call of g by f is then
    attributed to h. *)
Lemma threads_refuted :
  ~ nested_change_detected ident sbk pdb_empty (fun _ t rq a b c _ =>
      Forall no_raise (a ++ b ++ c) /\ Forall no_begin c /\ not_called (rq_fun rq) a).
Proof.
  intros H.
  refine (H (start 100) 0 (call "f" "x") [OBegin 1 (call "h" "w"); OEnd 1 "Hw"]
    [OBegin 1 (call "h" "z"); OBegin 0 (call "g" "y"); OEnd 0 "G1"; OEnd 1 "H"] "F(G1)"
    [OSave; ORestart funs2] "g" 0 (start_fresh _) _ _ _ _ _ _).
  - split_and!; [by repeat constructor|by repeat constructor|]. unfold not_called. not_in.
  - split; [|by vm_compute]. split; [by vm_compute|]. prefixes.
  - eexists [OBegin 1 (call "h" "z")], (call "g" "y"), _. split; [done|]. by vm_compute.
  - not_in.
  - by vm_compute.
  - eexists _, _, _. by vm_compute.
Qed.

(** An external source is removed. *)
Lemma sources_refuted : ~ sources_exist ident sbk pdb_empty.
Proof.
  intros H.
  specialize (H (start 100) [OWrite "x.h" "1" 5; OBegin 0 (call "f" "x"); OAddExt 0 ["x.h"] [] false;
    OEnd 0 "F"; ORemove "x.h"] 0 (call "f" "x") "F" ["x.h"] [] (start_fresh _)).
  assert (is_Some (None : option (Z * content))) as [? [=]].
  eapply (H _ "x.h" ltac:(by left)). Unshelve. by vm_compute.
Qed.

(** Two writes in one tick of the file system clock with a check between them. *)
Lemma mtime_refuted res : (3 < res)%Z -> ~ mtime_shortcut_sound ident sbk pdb_empty res.
Proof.
  intros Hres H.
  refine (H (start 100) [OTick 1; OWrite "a.c" "1" 0; OTick 1] 0 (call_src "f" "x" ["a.c"]) [] "F"
    [OTick 1; OWrite "a.c" "2" 0; OTick 2000000] 0 (start_fresh _) _ _ _ _ _ _).
  - done.
  - assert (forall z : Z, (z = 1 \/ z = 3) -> 0 = z / res * res)%Z as Hz.
    { intros z [->| ->]; rewrite Z.div_small; lia. }
    cbn [stamped app stamped_op]. split_and!; try done; apply Hz; vm_compute; tauto.
  - split; [|by vm_compute]. split; [by vm_compute|]. prefixes.
  - not_in.
  - exists "a.c". split; [by left|]. by vm_compute.
  - eexists _, _, _. by vm_compute.
Qed.

(** The function registers a missing external source: recording raises OSError
    after the result has been stored. *)
Lemma failed_refuted : ~ failed_not_served ident sbk pdb_empty.
Proof.
  intros H.
  refine (H (start 100) [] 0 (call "f" "x") [OAddExt 0 ["missing.h"] [] false] "F" OSErr 0
            (start_fresh _) _ _ _ _).
  - not_in.
  - split; [|by vm_compute]. split; [by vm_compute|]. prefixes.
  - by vm_compute.
  - eexists _, _, _. by vm_compute.
Qed.

(** f was changed.  Threads 0 and 2 start it; 0 finishes, 1 adds a second call;
    thread 3 starts a call whose stored index is 1; thread 2 finishes and
    thereby deletes the entries of f; thread 3 finishes: IndexError. *)
Definition funs3 : gmap name digest := {[ "f" := "f2"; "g" := "g1"; "h" := "h1" ]}.
Definition racy : list (op string string) :=
  [OWrite "b.c" "1" 5; OBegin 0 (call "f" "z"); OEnd 0 "Fz"; OSave; ORestart funs3;
   OBegin 0 (call "f" "a"); OBegin 2 (call "f" "c"); OEnd 0 "Fa";
   OBegin 1 (call_src "f" "b" ["b.c"]); OEnd 1 "Fb";
   OWrite "b.c" "2" 6; OBegin 3 (call_src "f" "b" ["b.c"]); OEnd 2 "Fc"].

Lemma internal_refuted :
  ~ no_internal_error ident sbk pdb_empty (Forall no_raise).
Proof.
  intros H.
  assert (internal IndexErr = false) as [=].
  apply (H (start 100) racy 3 "Fb2").
  - done.
  - by repeat constructor.
  - by vm_compute.
Qed.

(** Mutually recursive functions. *)
Lemma check_function_loops {V R} veq n (e : env) (c : cdb V R) (f g : name) (d d' : digest) :
  f <> g ->
  e_fun e !! f = Some d -> e_fun e !! g = Some d' ->
  c_functions c !! f = Some (d, [g]) -> c_functions c !! g = Some (d', [f]) ->
  check_function (cache_core0 (R := R) veq) n e f c = (inl RecursionErr, c).
Proof.
  revert f g d d'. induction n as [|n IH]; intros f g d d' Hfg Hf Hg Hcf Hcg; [done|].
  pose proof (IH g f d' d (not_eq_sym Hfg) Hg Hf Hcg Hcf) as IH'. clear IH.
  simpl. destruct (e_fun e !! f) as [x|]; [|done]. injection Hf as ->.
  unfold bind at 1. cbn. 
  destruct (c_functions c !! f) as [[od deps]|]; [|done]. injection Hcf as -> ->. cbn.
  rewrite String.eqb_refl. cbn.
  unfold bind at 1. rewrite decide_True by congruence. unfold bind at 1. rewrite IH'. done.
Qed.

Definition mutual : list (op string string) :=
  [OBegin 0 (call "f" "2"); OBegin 0 (call "g" "1"); OBegin 0 (call "f" "0"); OEnd 0 "F0";
   OEnd 0 "G1"; OEnd 0 "F2"].

Lemma mutual_refuted limit : ~ validation_answers ident sbk pdb_empty limit.
Proof.
  intros H. destruct limit as [|n].
  { by apply (H (start 0) [] 0 (call "f" "2")). }
  apply (H (start (S n)) mutual 0 (call "f" "2")); [done|done|].
  set (s := runs ident sbk (start (S n)) mutual).
  assert (e_fun (s_env s) = funs1 /\ e_limit (s_env s) = S n /\
    c_functions (p_mem (s_db s)) !! "f" = Some ("f1", ["g"]) /\
    c_functions (p_mem (s_db s)) !! "g" = Some ("g1", ["f"])) as (H1 & H2 & H3 & H4).
  { by vm_compute. }
  clearbody s. simpl. unfold begin_call. simpl. rewrite H1.
  change (funs1 !! "f") with (Some "f1"). cbv iota beta.
  rewrite (lifts_prepare String.eqb ident _ _ _ _ (s_db s)). unfold on_mem, prepare, bind. 
  rewrite (check_function_loops String.eqb _ _ _ "f" "g" "f1" "g1"); try done; by rewrite H1.
Qed.

(** f was changed; f("1") calls f("2"), which completes; completing f("1")
    deletes the entries of f, among them the fresh one of f("2"). *)
Lemma noop_refuted : ~ nothing_changed_nothing_runs ident sbk pdb_empty.
Proof.
  intros H.
  destruct (H (start 100)
    [OBegin 0 (call "f" "z"); OEnd 0 "Fz"; OSave; ORestart funs3; OBegin 0 (call "f" "1")]
    0 (call "f" "2") [] "F2" [OEnd 0 "F1"] [] [] 0) as (r & srcs & dsts & Hh).
  - done.
  - split; [|by vm_compute]. split; [by vm_compute|]. prefixes.
  - by vm_compute.
  - by repeat constructor.
  - by repeat constructor.
  - by repeat constructor.
  - intros f Hf. by apply elem_of_nil in Hf.
  - by vm_compute.
  - by vm_compute in Hh.
Qed.
