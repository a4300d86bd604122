(** C84: what trying to compile, link and run a text answers, tries at the same time included. *)
From Coq Require Import Ascii String List NArith Bool Arith Lia.
From Verif Require Import FnModel PathModel GccModel TryModel TrySpec TryFacts TryPlaces TryThms.
Import ListNotations.
Open Scope N_scope.
Open Scope list_scope.

(** The text written into the file. *)
Theorem C84_text code : dedented code (dedent code).
Proof. exact (dedent_ok code). Qed.

Definition answers (k : try) (r : str + exc) : Prop :=
  exists text, dedented (k_code k) text /\ r = expected k (text ++ [10]).
Lemma answers_expected k r : r = expected k (text_of k) -> answers k r.
Proof. intros ->. exists (dedent (k_code k)). split; [apply dedent_ok|reflexivity]. Qed.

(** With an absolute build root, each of the tries made at the same time, in any interleaving and
    while others change other files, answers for its own text. *)
Theorem C84_together cwd root ks f dirs ls s i k x r :
  isabs cwd = true -> full_path root -> Forall plain ks ->
  steps cwd root ks (initial ks f dirs) ls = Some s ->
  nth_error ks i = Some k -> nth_error (st_ths s) i = Some (Done x r) -> answers k r.
Proof.
  intros Hc Hr Hks Hs Hk Ht. destruct (steps_inv cwd root Hc ks Hks ls _ s (initial_inv cwd root ks f dirs) Hs) as (I1 & _).
  destruct (I1 i k _ Hk Ht) as [_ H]. apply answers_expected. apply H. left. apply full_path_owned. exact Hr.
Qed.

(** With any build root, tries that only compile do, and so does any try that the compiler refuses. *)
Theorem C84_compile cwd root ks f dirs ls s i k x r :
  isabs cwd = true -> Forall plain ks ->
  steps cwd root ks (initial ks f dirs) ls = Some s ->
  nth_error ks i = Some k -> nth_error (st_ths s) i = Some (Done x r) ->
  k_kind k = KCompile \/ (exists e rest, k_cc k (Some (dedent (k_code k) ++ [10])) = Failed e rest) ->
  answers k r.
Proof.
  intros Hc Hks Hs Hk Ht Hkk. destruct (steps_inv cwd root Hc ks Hks ls _ s (initial_inv cwd root ks f dirs) Hs) as (I1 & _).
  destruct (I1 i k _ Hk Ht) as [_ H]. apply answers_expected. apply H. right. exact Hkk.
Qed.

(** With any build root, whatever was done before, a try answers for its text if from its beginning
    to its end no other try is made and nobody else changes files in the build root directory
    itself or files of tries. *)
Definition only_try (cwd root : str) (i : nat) (a : label) : Prop :=
  match a with LStart j _ | LStep j => j = i | LOther l _ => ~ exists n, l = place cwd root ++ [n] end.
Theorem C84_alone cwd root ks s ls s' i k x r :
  isabs cwd = true -> Forall plain ks ->
  nth_error ks i = Some k -> nth_error (st_ths s) i = Some Idle ->
  Forall (only_try cwd root i) ls -> steps cwd root ks s ls = Some s' ->
  nth_error (st_ths s') i = Some (Done x r) -> answers k r.
Proof.
  intros Hc Hks Hk Hi Ho Hs Ht.
  assert (Forall (quiet cwd root i) ls) as Hq.
  { revert Ho. apply Forall_impl. intros [j y|j|l c]; cbn; auto. intros H (n & _ & E). apply H. exists n. exact E. }
  destruct (quiet_steps cwd root Hc ks Hks i k ls s s' Idle Hk Hi I Hq Hs) as (t & Et & H).
  rewrite Ht in Et. injection Et as <-. destruct H as [_ H]. apply answers_expected. apply H. left. exact I.
Qed.

(** Tries change no files but those below the directory for temporary files and in the build root
    directory itself. *)
Theorem C84_frame cwd root ks f dirs ls s l :
  isabs cwd = true -> Forall plain ks ->
  steps cwd root ks (initial ks f dirs) ls = Some s ->
  Forall (fun a => match a with LOther _ _ => False | _ => True end) ls ->
  ~ (exists q, l = place cwd (tmp cwd root) ++ q) -> ~ (exists n, l = place cwd root ++ [n]) ->
  st_fs s l = f l.
Proof.
  intros Hc Hks Hs Ha Hl Hr.
  assert (starts l (place cwd (tmp cwd root)) = false) as Hl'.
  { destruct (starts l (place cwd (tmp cwd root))) eqn:E; [|reflexivity]. exfalso. apply Hl.
    revert E. generalize (place cwd (tmp cwd root)). intros p. clear. revert p. induction l as [|y l IH]; intros [|z p] E; cbn in E.
    - exists []. reflexivity.
    - discriminate.
    - exists (y :: l). reflexivity.
    - apply andb_true_iff in E as [E1 E2]. apply PathFacts.str_eqb_true in E1. subst z. destruct (IH p E2) as [q ->]. exists q. reflexivity. }
  assert (forall ls s0 s1, inv cwd root ks s0 -> Forall (fun a => match a with LOther _ _ => False | _ => True end) ls ->
    steps cwd root ks s0 ls = Some s1 -> st_fs s1 l = st_fs s0 l) as H.
  { clear - Hc Hks Hl' Hr. induction ls as [|a ls IH]; intros s0 s1 I0 Ha E; cbn in E; [injection E as <-; reflexivity|].
    destruct (step cwd root ks s0 a) as [s2|] eqn:E2; [|discriminate]. inversion Ha as [|? ? Ha1 Ha2]; subst.
    rewrite (IH s2 s1 (step_inv cwd root Hc ks Hks s0 a s2 I0 E2) Ha2 E).
    apply (step_frame cwd root Hc ks Hks s0 a s2 l I0 E2 Ha1 Hl'). intros (n & _ & K). apply Hr. exists n. exact K. }
  exact (H ls _ s (initial_inv cwd root ks f dirs) Ha Hs).
Qed.

(** A try that has begun ends after at most six steps of its own, whatever the state is. *)
Theorem C84_ends cwd root ks s i k t :
  nth_error ks i = Some k -> nth_error (st_ths s) i = Some t -> t <> Idle ->
  exists m s' x r, (m <= 6)%nat /\ steps cwd root ks s (repeat (LStep i) m) = Some s' /\ nth_error (st_ths s') i = Some (Done x r).
Proof. intros Hk Ht Hi. apply (ends_from cwd root ks 6 i k s t Hk Ht Hi). destruct t; cbn; lia. Qed.

(** The answer is True exactly if every command works; an exception other than ExecutionError goes
    on to the caller; what is logged says what is answered. *)
Definition works (k : try) (text : str) : Prop :=
  exists obj, k_cc k (Some text) = Ok obj /\
    (k_kind k = KCompile \/ exists exe, k_ld k (Some obj) = Ok exe /\
      (k_kind k = KLink \/ exists out, k_exec k (Some exe) = Ok out)).
Theorem C84_answer k text :
  let r := expected k text in
  (tried r = inl true <-> works k text) /\
  (forall n, tried r = inr (Other n) <-> r = inr (Other n)) /\ tried r <> inr ExecErr /\
  snd (checked r) = tried r /\
  fst (checked r) = LCheck :: match tried r with inl true => [LPassed] | inl false => [LFailed] | inr _ => [] end.
Proof.
  cbn zeta. split; [|split; [|split; [|split]]].
  - unfold works, expected. destruct (k_cc k (Some text)) as [obj|e rest] eqn:Ec.
    + destruct (k_kind k) eqn:Ek.
      * split; [intros _; exists obj; auto|reflexivity].
      * destruct (k_ld k (Some obj)) as [exe|e rest] eqn:El.
        -- split; [intros _; exists obj; split; [reflexivity|]; right; exists exe; auto|reflexivity].
        -- split; [destruct e; discriminate|]. intros (o & [= <-] & [K|(x & K & _)]); congruence.
      * destruct (k_ld k (Some obj)) as [exe|e rest] eqn:El.
        -- destruct (k_exec k (Some exe)) as [out|e rest] eqn:Ee.
           ++ split; [intros _; exists obj; split; [reflexivity|]; right; exists exe; split; [exact El|]; right; exists out; exact Ee|reflexivity].
           ++ split; [destruct e; discriminate|]. intros (o & [= <-] & [K|(x & K & [K'|(u & K')])]); try congruence.
        -- split; [destruct e; discriminate|]. intros (o & [= <-] & [K|(x & K & _)]); congruence.
    + split; [destruct e; discriminate|]. intros (o & K & _). congruence.
  - intros n. destruct (expected k text) as [c|[|m]]; cbn; split; congruence.
  - destruct (expected k text) as [c|[|m]]; cbn; discriminate.
  - unfold checked. destruct (tried (expected k text)) as [[]|]; reflexivity.
  - unfold checked. destruct (tried (expected k text)) as [[]|]; reflexivity.
Qed.

(** *** Examples *)
Definition text (s : string) : str := map N_of_ascii (list_ascii_of_string s).
(** Commands that put a letter in front of what they are given, and fail for texts with "!". *)
Definition put_letter (c : N) (i : option str) : res :=
  match i with
  | Some t => if existsb (N.eqb 33) t then Failed ExecErr (Some []) else Ok (c :: t)
  | None => Failed ExecErr None
  end.
Definition run_c (kd : kind) (code : str) : try :=
  Try kd code (text ".c") (text ".o") [] [] (put_letter 79) (put_letter 69) (put_letter 82).
Definition ex_tries : list try := [run_c KRun (text "  a"); run_c KRun (text "b")].
Definition no_files : loc -> option str := fun _ => None.
(** The object of the second try is made before the first one is linked. *)
Definition mixed : list label :=
  [LStart 0 (text "t0"); LStart 1 (text "t1"); LStep 0; LStep 0; LStep 1; LStep 1; LStep 0; LStep 0; LStep 0; LStep 0].
Definition outcome (root : string) (ks : list try) (ls : list label) (i : nat) : option th :=
  match steps (text "/w") (text root) ks (initial ks no_files []) ls with
  | Some s => nth_error (st_ths s) i
  | None => None
  end.

Example C84_together_ex : full_path (text "/w/build") /\ Forall plain ex_tries /\
  outcome "/w/build" ex_tries mixed 0 = Some (Done (text "t0") (inl (text "REOa" ++ [10]))) /\
  expected (run_c KRun (text "  a")) (text "a" ++ [10]) = inl (text "REOa" ++ [10]).
Proof.
  split; [|split; [|split; vm_compute; reflexivity]].
  - exists [text "w"; text "build"]. split; [discriminate|]. split; [|reflexivity].
    repeat constructor; try discriminate; intros K; repeat (destruct K as [K|K]; [discriminate|]); destruct K.
  - repeat constructor; intros K; repeat (destruct K as [K|K]; [discriminate|]); destruct K.
Qed.
Example C84_text_ex : dedent (text "    a" ++ [10] ++ text "      b" ++ [10] ++ text "  " ++ [10] ++ text "    c") =
  text "a" ++ [10] ++ text "  b" ++ [10; 10] ++ text "c".
Proof. reflexivity. Qed.
Example C84_compile_ex :
  outcome "build" [run_c KCompile (text "a!"); run_c KCompile (text "b")]
    [LStart 0 (text "t0"); LStart 1 (text "t1"); LStep 1; LStep 0; LStep 1; LStep 0] 0 = Some (Done (text "t0") (inr ExecErr)) /\
  tried (inr ExecErr) = inl false.
Proof. split; vm_compute; reflexivity. Qed.
(** The same names again, one try after the other. *)
Example C84_alone_ex :
  let ls := [LStart 0 (text "t0"); LStep 0; LStep 0; LStep 0; LStep 0; LStep 0; LStep 0] in
  let ls' := [LStart 1 (text "t1"); LStep 1; LStep 1; LStep 1; LStep 1; LStep 1; LStep 1] in
  Forall (only_try (text "/w") (text "build") 1) ls' /\
  outcome "build" ex_tries (ls ++ ls') 1 = Some (Done (text "t1") (inl (text "REOb" ++ [10]))).
Proof. split; [repeat constructor|vm_compute; reflexivity]. Qed.
Example C84_frame_ex :
  match steps (text "/w") (text "build") ex_tries (initial ex_tries no_files []) mixed with
  | Some s => st_fs s [text "w"; text "build"; text "temp.o"] = Some (text "Ob" ++ [10]) /\
              st_fs s [text "w"; text "build"; text ".tmp"; text "t0"; text "temp.c"] = Some (text "a" ++ [10]) /\
              st_fs s [text "w"; text "temp.o"] = None
  | None => False
  end.
Proof. vm_compute. auto. Qed.
Example C84_ends_ex : outcome "build" ex_tries [LStart 0 (text "t0")] 0 = Some (ToCompile (text "t0")).
Proof. vm_compute. reflexivity. Qed.
Example C84_answer_ex : works (run_c KRun (text "a")) (text "a") /\ ~ works (run_c KRun (text "a!")) (text "a!").
Proof.
  split.
  - eexists. split; [vm_compute; reflexivity|]. right. eexists. split; [vm_compute; reflexivity|]. right. eexists. vm_compute. reflexivity.
  - intros (o & H & _). vm_compute in H. discriminate.
Qed.

(** *** What does not hold *)
(** With the build root as it is without the option --buildroot, all tries have the same object file
    and the same executable: a try may answer for the text of another one. *)
Definition own_text : Prop := forall cwd root ks f dirs ls s i k x r,
  isabs cwd = true -> Forall plain ks ->
  steps cwd root ks (initial ks f dirs) ls = Some s ->
  nth_error ks i = Some k -> nth_error (st_ths s) i = Some (Done x r) -> r = expected k (dedent (k_code k) ++ [10]).
Lemma outcome_some root ks ls i t : outcome root ks ls i = Some t ->
  exists s, steps (text "/w") (text root) ks (initial ks no_files []) ls = Some s /\ nth_error (st_ths s) i = Some t.
Proof. unfold outcome. destruct (steps _ _ _ _ _) as [s|]; [|discriminate]. intros H. exists s. auto. Qed.
Theorem C84_default_root_refuted : ~ own_text.
Proof.
  intros H.
  assert (outcome "build" ex_tries mixed 0 = Some (Done (text "t0") (inl (text "REOb" ++ [10])))) as E by (vm_compute; reflexivity).
  destruct (outcome_some _ _ _ _ _ E) as (s & Hs & Ht).
  specialize (H (text "/w") (text "build") ex_tries no_files [] mixed s 0%nat _ _ _ eq_refl (proj1 (proj2 C84_together_ex)) Hs eq_refl Ht).
  vm_compute in H. discriminate.
Qed.

(** The docstring of tempfile says that the directory is removed in the end (temp.py:38-39). *)
Definition removed : Prop := forall cwd root ks f dirs ls s i k x r,
  isabs cwd = true -> full_path root -> Forall plain ks ->
  steps cwd root ks (initial ks f dirs) ls = Some s ->
  nth_error ks i = Some k -> nth_error (st_ths s) i = Some (Done x r) -> st_fs s (place cwd (src_of cwd root k x)) = None.
Theorem C84_removed_refuted : ~ removed.
Proof.
  intros H.
  destruct C84_together_ex as (H1 & H2 & E & _). destruct (outcome_some _ _ _ _ _ E) as (s & Hs & Ht).
  specialize (H (text "/w") (text "/w/build") ex_tries no_files [] mixed s 0%nat _ _ _ eq_refl H1 H2 Hs eq_refl Ht).
  assert (match steps (text "/w") (text "/w/build") ex_tries (initial ex_tries no_files []) mixed with
          | Some s => st_fs s (place (text "/w") (src_of (text "/w") (text "/w/build") (run_c KRun (text "  a")) (text "t0")))
          | None => None end = Some (text "a" ++ [10])) as K by (vm_compute; reflexivity).
  rewrite Hs in K. unfold ex_tries in H. cbn [nth_error] in H. congruence.
Qed.

Print Assumptions C84_text.
Print Assumptions C84_together.
Print Assumptions C84_compile.
Print Assumptions C84_alone.
Print Assumptions C84_frame.
Print Assumptions C84_ends.
Print Assumptions C84_answer.
Print Assumptions C84_default_root_refuted.
Print Assumptions C84_removed_refuted.
