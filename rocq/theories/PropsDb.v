(** Properties of cached calls with the default (pickle) database.  Every theorem
    quantifies over all histories [os]: lists of calls, returns, exceptions,
    registrations, file edits, saves, restarts and deletions in any number of
    threads.  [fresh pdb_empty s0]: the history starts from an empty database. *)
From stdpp Require Import base list strings gmap.
From Coq Require Import ZArith.
From Verif Require Import PyMonad DbModel DbSpec DbClaims CacheBackend CacheProv CacheNoop CacheTrust DbTheorems DbDelete DbRefute
  DbExamples.
Local Open Scope string_scope.
Local Open Scope list_scope.

Section Props.
  Context {V R : Type} (veq : V -> V -> bool) (md5 : content -> digest).
  Notation BK := (cache_backend (V := V) (R := R) veq md5).
  Notation sys := (sys V R (pdb V R) name (name * nat) name).
  Notation op := (op V R).
  Notation step := (step md5 BK).
  Notation runs := (runs md5 BK).
  Notation mem s := (p_mem (s_db s)).

  (** C01 *)
  Theorem C01_hit_was_produced (s0 : sys) (os : list op) t (rq : request V R) r srcs dsts :
    fresh pdb_empty s0 ->
    snd (step (runs s0 os) (OBegin t rq)) = RHit r srcs dsts ->
    exists ru, ran md5 BK s0 os ru /\ rq_fun (ru_req ru) = rq_fun rq /\
      veq (rq_bound rq) (rq_bound (ru_req ru)) = true /\ ru_result ru = r.
  Proof. exact (hit_was_produced veq md5 s0 os t rq r srcs dsts). Qed.

  (** C02 *)
  Theorem C02_hit_sources_unchanged F D (s0 : sys) (os : list op) t (rq : request V R) r srcs dsts :
    fresh pdb_empty s0 -> fs_faithful F (s_env s0) -> history_ok md5 BK F s0 os ->
    declared_by veq D (os ++ [OBegin t rq]) ->
    let s := runs s0 os in
    snd (step s (OBegin t rq)) = RHit r srcs dsts ->
    exists ru, ran md5 BK s0 os ru /\ rq_fun (ru_req ru) = rq_fun rq /\
      veq (rq_bound rq) (rq_bound (ru_req ru)) = true /\ ru_result ru = r /\
      forall f, f ∈ rq_srcs rq ->
        is_Some (digest_at md5 (s_env s) f) /\
        digest_at md5 (s_env s) f = digest_at md5 (ru_begin ru) f.
  Proof. exact (hit_sources veq md5 F D s0 os t rq r srcs dsts). Qed.

  (** C03 *)
  Theorem C03_hit_function_unchanged F (s0 : sys) (os : list op) t (rq : request V R) r srcs dsts :
    fresh pdb_empty s0 -> fs_faithful F (s_env s0) -> history_ok md5 BK F s0 os ->
    let s := runs s0 os in
    snd (step s (OBegin t rq)) = RHit r srcs dsts ->
    exists ru, ran md5 BK s0 os ru /\ rq_fun (ru_req ru) = rq_fun rq /\
      veq (rq_bound rq) (rq_bound (ru_req ru)) = true /\ ru_result ru = r /\
      e_fun (s_env s) !! rq_fun rq = e_fun (ru_begin ru) !! rq_fun rq.
  Proof. exact (hit_function veq md5 F s0 os t rq r srcs dsts). Qed.

  (** C04 *)
  Theorem C04_hit_externals_unchanged F (s0 : sys) (os : list op) t (rq : request V R) r srcs dsts :
    fresh pdb_empty s0 -> fs_faithful F (s_env s0) -> history_ok md5 BK F s0 os ->
    let s := runs s0 os in
    snd (step s (OBegin t rq)) = RHit r srcs dsts ->
    exists ru, ran md5 BK s0 os ru /\ rq_fun (ru_req ru) = rq_fun rq /\
      veq (rq_bound rq) (rq_bound (ru_req ru)) = true /\ ru_result ru = r /\
      (forall f, f ∈ ru_xsrcs ru -> f ∈ srcs) /\
      (ru_recorded ru = true ->
       forall f, f ∈ ru_xsrcs ru -> is_Some (e_fs (s_env s) !! f) ->
         digest_at md5 (s_env s) f = digest_at md5 (ru_end ru) f).
  Proof. exact (hit_externals veq md5 F s0 os t rq r srcs dsts). Qed.

  (** C06 *)
  Theorem C06_hit_outputs_exist F (s0 : sys) (os : list op) t (rq : request V R) r srcs dsts :
    fresh pdb_empty s0 -> fs_faithful F (s_env s0) -> history_ok md5 BK F s0 os ->
    let s := runs s0 os in
    snd (step s (OBegin t rq)) = RHit r srcs dsts ->
    exists ru, ran md5 BK s0 os ru /\ rq_fun (ru_req ru) = rq_fun rq /\
      veq (rq_bound rq) (rq_bound (ru_req ru)) = true /\ ru_result ru = r /\
      forall f, f ∈ rq_dsts rq \/ f ∈ rq_ret rq r \/ f ∈ ru_xdsts ru ->
        f ∈ dsts /\ is_Some (e_fs (s_env s) !! f).
  Proof. exact (hit_xdsts veq md5 F s0 os t rq r srcs dsts). Qed.

  (** C06, for every state whatsoever: declared destinations and those named by the result. *)
  Theorem C06_hit_outputs_exist_always (s : sys) t (rq : request V R) r srcs dsts :
    snd (step s (OBegin t rq)) = RHit r srcs dsts ->
    (forall f, f ∈ rq_dsts rq -> f ∈ dsts) /\ (forall f, f ∈ rq_ret rq r -> f ∈ dsts) /\
    forall f, f ∈ dsts -> is_Some (e_fs (s_env s) !! f).
  Proof. exact (hit_outputs veq md5 s t rq r srcs dsts). Qed.

  (** C07 *)
  Theorem C07_raised_never_served (s0 : sys) (os : list op) t (rq : request V R) r srcs dsts :
    fresh pdb_empty s0 ->
    (forall ru, ran md5 BK s0 os ru -> rq_fun (ru_req ru) = rq_fun rq ->
       veq (rq_bound rq) (rq_bound (ru_req ru)) = true -> ru_result ru <> r) ->
    snd (step (runs s0 os) (OBegin t rq)) <> RHit r srcs dsts.
  Proof. exact (never_completed veq md5 s0 os t rq r srcs dsts). Qed.

  (** C12, for functions that call no other cached function and nothing but file
      edits, saves and restarts after the call. *)
  Theorem C12_nothing_changed_partial F (s0 : sys) (os : list op) t (rq : request V R) body r after
      t' srcs dsts :
    veq (rq_bound rq) (rq_bound rq) = true ->
    fresh pdb_empty s0 -> fs_faithful F (s_env s0) ->
    history_ok md5 BK F s0 (os ++ OBegin t rq :: body ++ OEnd t r :: after) ->
    let s := runs s0 os in
    let s1 := runs s0 (os ++ OBegin t rq :: body) in
    let s2 := runs s0 (os ++ OBegin t rq :: body ++ OEnd t r :: after) in
    snd (step s (OBegin t rq)) = RRun ->
    Forall (body_op t) body ->
    snd (step s1 (OEnd t r)) = RDone r srcs dsts ->
    quiet (e_fun (s_env s1)) false after ->
    (forall f, f ∈ srcs -> digest_at md5 (s_env s2) f = digest_at md5 (s_env s1) f) ->
    (forall f, f ∈ dsts -> is_Some (e_fs (s_env s2) !! f)) ->
    snd (step s2 (OBegin t' rq)) = RHit r srcs dsts /\
    c_calls (mem (fst (step s2 (OBegin t' rq)))) = c_calls (mem s2).
  Proof.
    intros Hv Hf Hfs Hh. exact (noop veq md5 s0 os t rq body r after t' srcs dsts Hv Hf
      (history_trusted veq md5 F s0 _ Hf Hfs Hh)).
  Qed.

  (** C13 *)
  Theorem C13_other_functions_untouched (s0 : sys) (os : list op) (o : op) gn :
    fresh pdb_empty s0 -> (forall funs, o <> ORestart funs) ->
    let s := runs s0 os in subject s o <> Some gn ->
    same_records gn (mem s) (mem (fst (step s o))).
  Proof. exact (frame_reachable veq md5 s0 os o gn). Qed.

  (** C15 *)
  Theorem C15_delete_function (s0 : sys) (os : list op) fn :
    fresh pdb_empty s0 ->
    let s := runs s0 os in
    let s' := fst (step s (ODelFun fn)) in
    (exists b, snd (step s (ODelFun fn)) = RBool b /\ (b = true <-> mentions (mem s) fn)) /\
    (forall gn, mentions (mem s') gn <-> gn <> fn /\ mentions (mem s) gn) /\
    (forall gn, gn <> fn -> same_records gn (mem s) (mem s')) /\
    (forall t rq r srcs dsts, rq_fun rq = fn -> snd (step s' (OBegin t rq)) <> RHit r srcs dsts).
  Proof. exact (deleted_function veq md5 s0 os fn). Qed.

  Theorem C15_delete_file (s : sys) f :
    let s' := fst (step s (ODelFile f)) in
    (exists b, snd (step s (ODelFile f)) = RBool b /\
       (b = true <-> is_Some (c_files (mem s) !! f) \/ is_Some (c_callfiles (mem s) !! f))) /\
    c_files (mem s') = delete f (c_files (mem s)) /\
    c_callfiles (mem s') = delete f (c_callfiles (mem s)) /\
    (forall gn, same_records gn (mem s) (mem s')) /\
    (forall t rq r srcs dsts, f ∈ rq_srcs rq -> snd (step s' (OBegin t rq)) <> RHit r srcs dsts).
  Proof. exact (deleted_file veq md5 s f). Qed.
End Props.

Print Assumptions C01_hit_was_produced.
Print Assumptions C02_hit_sources_unchanged.
Print Assumptions C03_hit_function_unchanged.
Print Assumptions C04_hit_externals_unchanged.
Print Assumptions C06_hit_outputs_exist.
Print Assumptions C06_hit_outputs_exist_always.
Print Assumptions C07_raised_never_served.
Print Assumptions C12_nothing_changed_partial.
Print Assumptions C13_other_functions_untouched.
Print Assumptions C15_delete_function.
Print Assumptions C15_delete_file.

(** The build of DbExamples meets the hypotheses of C01-C04 and C06: f("a.c") ran,
    the database was saved and reloaded, a.c was edited back and forth, and the call is a hit. *)
Example C01_C06_example :
  fresh pdb_empty (start 100) /\ fs_faithful ex_F (s_env (start 100)) /\
  history_ok ident sbk ex_F (start 100) ex_build /\
  declared_by String.eqb ex_D (ex_build ++ [OBegin 1 ex_call]) /\
  snd (step ident sbk (runs ident sbk (start 100) ex_build) (OBegin 1 ex_call)) =
    RHit "a.o" ["a.c"; "a.h"] ["a.o"; "a.log"; "a.o"].
Proof. exact (conj (start_fresh 100) (conj ex_faithful (conj ex_ok (conj ex_declared ex_hit)))). Qed.

(** C07: f("x") raised; no run with these arguments returned anything. *)
Example C07_example :
  let os := [OBegin 0 (call "f" "x"); ORaise 0] in
  snd (step ident sbk (runs ident sbk (start 100) os) (OBegin 0 (call "f" "x"))) = RRun.
Proof. vm_compute. reflexivity. Qed.

(** C12: the same build again. *)
Example C12_example :
  let s := runs ident sbk (start 100) ex_before in
  let s1 := runs ident sbk (start 100) (ex_before ++ OBegin 0 ex_call :: ex_body) in
  let s2 := runs ident sbk (start 100) ex_build in
  snd (step ident sbk s (OBegin 0 ex_call)) = RRun /\
  Forall (body_op 0) ex_body /\
  snd (step ident sbk s1 (OEnd 0 "a.o")) = RDone "a.o" ["a.c"; "a.h"] ["a.o"; "a.log"; "a.o"] /\
  quiet (e_fun (s_env s1)) false ex_after /\
  Forall (fun f => digest_at ident (s_env s2) f = digest_at ident (s_env s1) f) ["a.c"; "a.h"] /\
  Forall (fun f => is_Some (e_fs (s_env s2) !! f)) ["a.o"; "a.log"; "a.o"].
Proof. repeat constructor; try (vm_compute; reflexivity); eexists; vm_compute; reflexivity. Qed.

(** C13: g and f are recorded; a further call of f completes. *)
Example C13_example :
  let s := runs ident sbk (start 100)
    [OBegin 0 (call "g" "1"); OEnd 0 "G1"; OBegin 0 (call "f" "1")] in
  subject s (OEnd 0 "F1") = Some "f" /\
  c_calls (p_mem (s_db (fst (step ident sbk s (OEnd 0 "F1"))))) !! "g" = Some [("1", "G1")].
Proof. vm_compute. split; reflexivity. Qed.

(** C15: deleting a recorded function reports true, an unknown one false. *)
Example C15_example :
  let s := runs ident sbk (start 100) [OBegin 0 (call "g" "1"); OEnd 0 "G1"] in
  snd (step ident sbk s (ODelFun "g")) = RBool true /\
  snd (step ident sbk s (ODelFun "f")) = RBool false.
Proof. vm_compute. split; reflexivity. Qed.

(** ** Claims that do not hold *)

(** C05: a removed external source goes unnoticed. *)
Theorem C05_refuted : ~ sources_exist ident sbk pdb_empty.
Proof. exact sources_refuted. Qed.

(** C08: even with one thread, no exceptions and only one call of the outer function. *)
Theorem C08_refuted :
  ~ nested_change_detected ident sbk pdb_empty (fun _ t rq a b c _ =>
      Forall (on_thread t) (a ++ b ++ c) /\ Forall no_raise (a ++ b ++ c) /\
      not_called (rq_fun rq) a).
Proof. exact nested_refuted. Qed.

(** C09: even with one thread and no call after the run in question. *)
Theorem C09_refuted :
  ~ nested_change_detected ident sbk pdb_empty (fun _ t rq a b c _ =>
      Forall (on_thread t) (a ++ b ++ c) /\ Forall no_begin c /\ not_called (rq_fun rq) a).
Proof. exact caught_refuted. Qed.

(** C10: even with one thread, no exceptions and no call after the run. *)
Theorem C10_refuted :
  ~ nested_change_detected ident sbk pdb_empty (fun _ t rq a b c _ =>
      Forall (on_thread t) (a ++ b ++ c) /\ Forall no_raise (a ++ b ++ c) /\ Forall no_begin c).
Proof. exact late_refuted. Qed.

(** C18: even without exceptions and calls after the run. *)
Theorem C18_refuted :
  ~ nested_change_detected ident sbk pdb_empty (fun _ t rq a b c _ =>
      Forall no_raise (a ++ b ++ c) /\ Forall no_begin c /\ not_called (rq_fun rq) a).
Proof. exact threads_refuted. Qed.

(** C11: whatever the recursion limit. *)
Theorem C11_refuted limit : ~ validation_answers ident sbk pdb_empty limit.
Proof. exact (mutual_refuted limit). Qed.

(** C12: a recursive call of a changed function is forgotten. *)
Theorem C12_refuted : ~ nothing_changed_nothing_runs ident sbk pdb_empty.
Proof. exact noop_refuted. Qed.

(** C14: for every resolution of more than 3 microseconds. *)
Theorem C14_refuted res : (3 < res)%Z -> ~ mtime_shortcut_sound ident sbk pdb_empty res.
Proof. exact (mtime_refuted res). Qed.

(** C16 *)
Theorem C16_refuted : ~ failed_not_served ident sbk pdb_empty.
Proof. exact failed_refuted. Qed.

(** C17 *)
Theorem C17_refuted : ~ no_internal_error ident sbk pdb_empty (Forall no_raise).
Proof. exact internal_refuted. Qed.

Print Assumptions C05_refuted.
Print Assumptions C08_refuted.
Print Assumptions C09_refuted.
Print Assumptions C10_refuted.
Print Assumptions C11_refuted.
Print Assumptions C12_refuted.
Print Assumptions C14_refuted.
Print Assumptions C16_refuted.
Print Assumptions C17_refuted.
Print Assumptions C18_refuted.
