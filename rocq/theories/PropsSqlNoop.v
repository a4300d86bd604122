(** C82: with the SQLite backend, nothing runs when nothing changed. *)
From stdpp Require Import base list strings gmap.
From Coq Require Import ZArith Lia.
From Verif Require Import PyMonad DbModel DbSpec DbClaims DbHistory SqlBackend SqlSpec DbRefute SqlRefute SqlRecords SqlNoop.
Local Open Scope string_scope.
Local Open Scope list_scope.

Section Props.
  Context {V R : Type} (veq : V -> V -> bool) (md5 : content -> digest).
  Notation BK := (sql_backend (V := V) (R := R) veq md5).
  Notation sys := (sys V R (conn V R) nat nat nat).
  Notation op := (op V R).
  Notation step := (step md5 BK).
  Notation runs := (runs md5 BK).

  (** A call that ran, calling no other cached function, and was recorded is answered from the
      database as long as the sources it reported have the same content, the destinations exist
      and nothing but file edits, saves and restarts happened since; the answer reports the same
      sources, no further destinations, and changes nothing that is stored. *)
  Theorem C82_nothing_changed F (s0 : sys) (os : list op) t (rq : request V R) body r after t' srcs dsts :
    equivalence_test veq -> fresh conn_empty s0 -> fs_faithful F (s_env s0) ->
    history_ok md5 BK F s0 (os ++ OBegin t rq :: body ++ OEnd t r :: after) ->
    let s := runs s0 os in
    let s1 := runs s0 (os ++ OBegin t rq :: body) in
    let s2 := runs s0 (os ++ OBegin t rq :: body ++ OEnd t r :: after) in
    snd (step s (OBegin t rq)) = RRun ->
    Forall (body_op t) body ->
    snd (step s1 (OEnd t r)) = RDone r srcs dsts ->
    quiet (e_fun (s_env s1)) false after ->
    (forall f, f ∈ srcs -> digest_at md5 (s_env s2) f = digest_at md5 (s_env s1) f) ->
    (forall f, f ∈ dsts -> is_Some (e_fs (s_env s2) !! f)) ->
    exists srcs' dsts', snd (step s2 (OBegin t' rq)) = RHit r srcs' dsts' /\
      (forall f, f ∈ srcs' <-> f ∈ srcs) /\ (forall f, f ∈ dsts' -> f ∈ dsts) /\
      forall gn, stored (k_cur (s_db (fst (step s2 (OBegin t' rq))))) gn = stored (k_cur (s_db s2)) gn.
  Proof. exact (noop veq md5 F s0 os t rq body r after t' srcs dsts). Qed.
End Props.

(** ** Outside the quantifier *)

(** The answer reports all destinations. *)
Definition C82_reported_claim : Prop :=
  forall V R (veq : V -> V -> bool) md5 F (s0 : sys V R (conn V R) nat nat nat) os t rq body r t' srcs dsts srcs' dsts',
  let BK := sql_backend (R := R) veq md5 in
  equivalence_test veq -> fresh conn_empty s0 -> fs_faithful F (s_env s0) ->
  history_ok md5 BK F s0 (os ++ OBegin t rq :: body ++ [OEnd t r]) ->
  snd (step md5 BK (runs md5 BK s0 os) (OBegin t rq)) = RRun -> Forall (body_op t) body ->
  snd (step md5 BK (runs md5 BK s0 (os ++ OBegin t rq :: body)) (OEnd t r)) = RDone r srcs dsts ->
  snd (step md5 BK (runs md5 BK s0 (os ++ OBegin t rq :: body ++ [OEnd t r])) (OBegin t' rq)) = RHit r srcs' dsts' ->
  forall f, f ∈ dsts -> f ∈ dsts'.
(** Not those registered as source and destination. *)
Theorem C82_reported_refuted : ~ C82_reported_claim.
Proof.
  intros H.
  assert ("o" ∈ @nil name) as Hin; [|by apply elem_of_nil in Hin].
  refine (H _ _ _ ident hdr (qstart 100) [OWrite "o" "1" 1] 0 (call "g" "x") [OAddExt (V := string) (R := string) 0 ["o"] ["o"] false] "G" 0
    ["o"] ["o"] ["o"] [] string_equivalence (qstart_fresh _) (q_faithful _ _) _ _ _ _ _ "o" _).
  - apply q_ok_check_sound. by vm_compute.
  - by vm_compute.
  - by repeat constructor.
  - by vm_compute.
  - by vm_compute.
  - by left.
Qed.

(** Calls of other functions may happen in between. *)
Definition C82_between_claim : Prop :=
  forall V R (veq : V -> V -> bool) md5 F (s0 : sys V R (conn V R) nat nat nat) os t rq body r after t' srcs dsts,
  let BK := sql_backend (R := R) veq md5 in
  equivalence_test veq -> fresh conn_empty s0 -> fs_faithful F (s_env s0) ->
  history_ok md5 BK F s0 (os ++ OBegin t rq :: body ++ OEnd t r :: after) ->
  let s1 := runs md5 BK s0 (os ++ OBegin t rq :: body) in
  let s2 := runs md5 BK s0 (os ++ OBegin t rq :: body ++ OEnd t r :: after) in
  snd (step md5 BK (runs md5 BK s0 os) (OBegin t rq)) = RRun -> Forall (body_op t) body ->
  snd (step md5 BK s1 (OEnd t r)) = RDone r srcs dsts ->
  not_called (rq_fun rq) after -> Forall (fun o => forall fs, o <> ORestart fs) after ->
  Forall (fun o => forall f, o <> ODelFile f) after -> Forall (fun o => forall f, o <> ODelFun f) after ->
  (forall f, f ∈ srcs -> digest_at md5 (s_env s2) f = digest_at md5 (s_env s1) f) ->
  (forall f, f ∈ dsts -> is_Some (e_fs (s_env s2) !! f)) ->
  hits md5 BK s2 t' rq.
(** Another call sees a source while it is different, and then it becomes what it was. *)
Definition reverted : list (op string string) :=
  [OWrite "s" "2" 2; OBegin 0 (call_src "h" "y" ["s"]); OEnd 0 "H"; OWrite "s" "1" 1].
Theorem C82_between_refuted : ~ C82_between_claim.
Proof.
  intros H.
  assert (hits ident qbk (runs ident qbk (qstart 100) ([OWrite "s" "1" 1] ++ OBegin 0 (call_src "g" "x" ["s"]) :: [] ++ OEnd 0 "G" :: reverted)) 0
            (call_src "g" "x" ["s"])) as (r & x & y & Hh).
  - refine (H _ _ _ ident hdr (qstart 100) [OWrite "s" "1" 1] 0 (call_src "g" "x" ["s"]) [] "G" reverted 0
      ["s"] [] string_equivalence (qstart_fresh _) (q_faithful _ _) _ _ _ _ _ _ _ _ _ _).
    + apply q_ok_check_sound. by vm_compute.
    + by vm_compute.
    + constructor.
    + by vm_compute.
    + unfold not_called, reverted. not_in.
    + repeat constructor; discriminate.
    + repeat constructor; discriminate.
    + repeat constructor; discriminate.
    + intros f Hf%elem_of_list_singleton. subst f. by vm_compute.
    + intros f Hf. by apply elem_of_nil in Hf.
  - by vm_compute in Hh.
Qed.

(** Calls of cached functions inside other ones: the claim of C12 is false with this backend too,
    since a changed function is deleted, with the calls it just completed, when its outer call ends. *)
Theorem C82_nested_refuted : ~ nothing_changed_nothing_runs ident qbk conn_empty.
Proof.
  intros H.
  destruct (H (qstart 100)
    [OBegin 0 (call "f" "z"); OEnd 0 "Fz"; OSave; ORestart funs3; OBegin 0 (call "f" "1")]
    0 (call "f" "2") [] "F2" [OEnd 0 "F1"] [] [] 0) as (r & srcs & dsts & Hh).
  - done.
  - split; [|by vm_compute]. split; [by vm_compute|]. qprefixes.
  - by vm_compute.
  - by repeat constructor.
  - by repeat constructor.
  - by repeat constructor.
  - intros f Hf. by apply elem_of_nil in Hf.
  - by vm_compute.
  - by vm_compute in Hh.
Qed.

(** ** Example *)

(** A call with a declared source, external sources and a destination is recorded for the second
    time; then times and other files change, and the process is restarted. *)
Definition compile : request string string := Request "f" "x" ["s.c"] [] (fun r => [r]).
Definition before : list (op string string) :=
  [OWrite "s.c" "1" 1; OWrite "a.h" "1" 1; OWrite "b.h" "1" 1;
   OBegin 1 compile; OAddExt 1 ["b.h"] [] false; OWrite "s.o" "1" 1; OEnd 1 "s.o"; OWrite "b.h" "2" 2].
Definition inside : list (op string string) :=
  [OAddExt 0 ["a.h"] ["s.d"] false; OWrite "s.d" "2" 2; OWrite "s.o" "2" 2; OAddExt 0 ["b.h"] [] true].
Definition quietly : list (op string string) :=
  [OTick 5; OWrite "s.o" "1" 1; OSave; OWrite "t.c" "2" 8; OWrite "b.h" "2" 9; ORestart funs1; OTick 9000000; ORestart funs1].
Example C82_ex : let run := before ++ OBegin 0 compile :: inside in
  snd (step ident qbk (runs ident qbk (qstart 100) before) (OBegin 0 compile)) = RRun /\
  Forall (body_op 0) inside /\ q_ok_check hdr (qstart 100) (run ++ OEnd 0 "s.o" :: quietly) = true /\
  snd (step ident qbk (runs ident qbk (qstart 100) run) (OEnd 0 "s.o")) = RDone "s.o" ["s.c"; "b.h"; "a.h"] ["s.d"; "s.o"] /\
  quiet funs1 false quietly /\
  snd (step ident qbk (runs ident qbk (qstart 100) (run ++ OEnd 0 "s.o" :: quietly)) (OBegin 3 compile)) = RHit "s.o" ["s.c"; "b.h"; "a.h"] ["s.d"; "s.o"].
Proof. vm_compute. repeat (split || constructor). Qed.

Print Assumptions C82_nothing_changed.
Print Assumptions C82_reported_refuted.
Print Assumptions C82_between_refuted.
Print Assumptions C82_nested_refuted.
