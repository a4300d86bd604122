(** C73: looking for a program. *)
From Coq Require Import String Ascii List NArith Bool Arith Lia.
From Verif Require Import FnModel PathModel PathSpec PathFacts GlobModel GlobSpec TreeCheck ProgModel.
Import ListNotations.
Open Scope list_scope.

Definition is_file (w : world) (p : str) : Prop := stat w p = Some NFile.
(** [x] in a list, everything before it failing [P]. *)
Definition first_with {A} (P : A -> Prop) (l : list A) (x : A) : Prop :=
  exists l1 l2, l = l1 ++ x :: l2 /\ P x /\ forall y, In y l1 -> ~ P y.

(** Where a name is found: as it is, or in the first of the directories that has it. *)
Definition at_place (w : world) (paths : list str) (n r : str) : Prop :=
  (is_file w n /\ r = n) \/
  (~ is_file w n /\ exists d, first_with (fun d => is_file w (pjoin d n)) paths d /\ r = pjoin d n).
Definition findable (w : world) (paths : list str) (n : str) : Prop :=
  is_file w n \/ exists d, In d paths /\ is_file w (pjoin d n).
(** Directories with colons between them. *)
Fixpoint with_colons (ps : list str) : str :=
  match ps with
  | [] => []
  | [p] => p
  | p :: ps' => p ++ c_colon :: with_colons ps'
  end.

Lemma isfile_iff w p : isfile w p = true <-> is_file w p.
Proof. unfold isfile, is_file. destruct (stat w p) as [[|es]|]; split; congruence. Qed.
Lemma both_iff w p : lexists w p && isfile w p = true <-> is_file w p.
Proof. rewrite andb_true_iff, isfile_iff. unfold lexists, is_file. destruct (stat w p) as [n|]; split; intros H; [apply H|split; [reflexivity|exact H]|destruct H; discriminate|discriminate]. Qed.
Lemma both_false w p : lexists w p && isfile w p = false <-> ~ is_file w p.
Proof. rewrite <- both_iff. destruct (lexists w p && isfile w p); split; congruence. Qed.

Lemma first_with_cons {A} (P : A -> Prop) x l y : ~ P x -> (first_with P (x :: l) y <-> first_with P l y).
Proof.
  intros Hx. split.
  - intros (l1 & l2 & E & Hy & H). destruct l1 as [|z l1]; injection E as E1 E2; [subst; contradiction|].
    exists l1, l2. split; [exact E2|]. split; [exact Hy|]. intros y' Hi. apply H. right. exact Hi.
  - intros (l1 & l2 & -> & Hy & H). exists (x :: l1), l2. split; [reflexivity|]. split; [exact Hy|].
    intros y' [<-|Hi]; [exact Hx|exact (H y' Hi)].
Qed.
Lemma first_with_here {A} (P : A -> Prop) x l y : P x -> (first_with P (x :: l) y <-> y = x).
Proof.
  intros Hx. split.
  - intros (l1 & l2 & E & Hy & H). destruct l1 as [|z l1]; injection E as E1 E2; [congruence|]. subst z. destruct (H x); [left; reflexivity|exact Hx].
  - intros ->. exists [], l. split; [reflexivity|]. split; [exact Hx|]. intros y' [].
Qed.

Lemma search_paths_some w n ps r :
  search_paths w n ps = Some r <-> exists d, first_with (fun d => is_file w (pjoin d n)) ps d /\ r = pjoin d n.
Proof.
  induction ps as [|p ps IH].
  { split; [discriminate|]. intros (d & (l1 & l2 & E & _) & _). destruct l1; discriminate. }
  cbn [search_paths]. rewrite path_new_two. destruct (lexists w (pjoin p n) && isfile w (pjoin p n)) eqn:E.
  - apply both_iff in E. split.
    + intros H. injection H as <-. exists p. split; [apply first_with_here; [exact E|reflexivity]|reflexivity].
    + intros (d & H & ->). apply (first_with_here (fun d => is_file w (pjoin d n)) p ps d E) in H. subst d. reflexivity.
  - apply both_false in E. rewrite IH. split; intros (d & H & ->); exists d; (split; [|reflexivity]).
    + apply (first_with_cons (fun d => is_file w (pjoin d n)) p ps d E). exact H.
    + apply (first_with_cons (fun d => is_file w (pjoin d n)) p ps d E) in H. exact H.
Qed.
Lemma search_paths_none w n ps : search_paths w n ps = None <-> forall d, In d ps -> ~ is_file w (pjoin d n).
Proof.
  induction ps as [|p ps IH]; [split; [intros _ d []|reflexivity]|].
  cbn [search_paths]. rewrite path_new_two. destruct (lexists w (pjoin p n) && isfile w (pjoin p n)) eqn:E.
  - apply both_iff in E. split; [discriminate|]. intros H. destruct (H p); [left; reflexivity|exact E].
  - apply both_false in E. rewrite IH. split; intros H d; [intros [<-|Hd]; [exact E|exact (H d Hd)]|intros Hd; apply H; right; exact Hd].
Qed.
Lemma search_some w ns ps r : search w ns ps = Some r <-> exists n, first_with (findable w ps) ns n /\ at_place w ps n r.
Proof.
  induction ns as [|n ns IH].
  { split; [discriminate|]. intros (n & (l1 & l2 & E & _) & _). destruct l1; discriminate. }
  cbn [search]. rewrite path_new_one. destruct (lexists w n && isfile w n) eqn:E.
  - apply both_iff in E. assert (findable w ps n) as Hf by (left; exact E). split.
    + intros H. injection H as <-. exists n. split; [apply first_with_here; [exact Hf|reflexivity]|left; split; [exact E|reflexivity]].
    + intros (n' & H & Hp). apply (first_with_here _ n ns n' Hf) in H. subst n'. destruct Hp as [[_ ->]|[H _]]; [reflexivity|contradiction].
  - apply both_false in E. destruct (search_paths w n ps) as [p|] eqn:Ep.
    + pose proof Ep as Ep'. apply search_paths_some in Ep'. destruct Ep' as (d & Hd & ->).
      assert (findable w ps n) as Hf.
      { right. exists d. destruct Hd as (l1 & l2 & -> & Hd & _). split; [apply in_elt|exact Hd]. }
      split.
      * intros H. injection H as <-. exists n. split; [apply first_with_here; [exact Hf|reflexivity]|]. right. split; [exact E|]. exists d. split; [exact Hd|reflexivity].
      * intros (n' & H & Hp). apply (first_with_here _ n ns n' Hf) in H. subst n'. destruct Hp as [[H _]|[_ H]]; [contradiction|].
        apply search_paths_some in H. congruence.
    + assert (~ findable w ps n) as Hf.
      { intros [H|(d & Hd & H)]; [contradiction|]. exact (proj1 (search_paths_none w n ps) Ep d Hd H). }
      rewrite IH. split; intros (n' & H & Hp); exists n'; (split; [|exact Hp]).
      * apply first_with_cons; assumption.
      * apply first_with_cons in H; assumption.
Qed.
Lemma search_none w ns ps : search w ns ps = None <-> forall n, In n ns -> ~ findable w ps n.
Proof.
  induction ns as [|n ns IH]; [split; [intros _ n []|reflexivity]|].
  cbn [search]. destruct (lexists w n && isfile w n) eqn:E.
  - apply both_iff in E. split; [discriminate|]. intros H. destruct (H n); [left; reflexivity|left; exact E].
  - apply both_false in E. destruct (search_paths w n ps) as [p|] eqn:Ep.
    + split; [discriminate|]. intros H. destruct (H n); [left; reflexivity|]. apply search_paths_some in Ep.
      destruct Ep as (d & (l1 & l2 & -> & Hd & _) & _). right. exists d. split; [apply in_elt|exact Hd].
    + rewrite IH. split; intros H n'; [|intros Hn; apply H; right; exact Hn].
      intros [<-|Hn]; [|exact (H n' Hn)]. intros [H'|(d & Hd & H')]; [contradiction|].
      exact (proj1 (search_paths_none w n ps) Ep d Hd H').
Qed.

(** The answer is the first name that can be found, at the first place where it is; the search fails, naming
    all it looked for, exactly if none can be found. *)
Theorem C73_found w path names paths :
  (forall r, find_program w false path names (Some paths) = Found r <->
     exists n, first_with (findable w paths) names n /\ at_place w paths n r) /\
  (forall ns, find_program w false path names (Some paths) = Missing ns <->
     ns = names /\ forall n, In n names -> ~ findable w paths n).
Proof.
  unfold find_program. split.
  - intros r. rewrite <- (search_some w names paths r). destruct (search w names paths); split; congruence.
  - intros ns. rewrite <- (search_none w names paths). destruct (search w names paths); split; intros H; [discriminate|destruct H; discriminate|injection H as <-; split; reflexivity|destruct H as [-> _]; reflexivity].
Qed.
(** What is found is a file. *)
Theorem C73_file w win32 path names paths r : find_program w win32 path names paths = Found r -> is_file w r.
Proof.
  unfold find_program. destruct (match paths with Some ps => Some ps | None => option_map split_colon path end) as [ps|]; [|discriminate].
  destruct (search w (if win32 then windows_names names else names) ps) as [p|] eqn:E; [|discriminate]. intros H. injection H as <-.
  apply search_some in E. destruct E as (n & _ & [[H ->]|[_ (d & (l1 & l2 & _ & H & _) & ->)]]); exact H.
Qed.
(** By default the directories are those of PATH. *)
Lemma split_with_colons ps : ps <> [] -> Forall (fun p => ~ In c_colon p) ps -> split_colon (with_colons ps) = ps.
Proof.
  assert (forall p, ~ In c_colon p -> split_colon p = [p]) as H1.
  { induction p as [|c p IH]; intros H; [reflexivity|]. cbn. destruct (N.eqb c c_colon) eqn:E.
    - apply N.eqb_eq in E. destruct H. left. exact E.
    - rewrite IH; [reflexivity|]. intros H'. apply H. right. exact H'. }
  assert (forall p s, ~ In c_colon p -> split_colon (p ++ c_colon :: s) = p :: split_colon s) as H2.
  { induction p as [|c p IH]; intros s H; [reflexivity|]. cbn [app split_colon]. destruct (N.eqb c c_colon) eqn:E.
    - apply N.eqb_eq in E. destruct H. left. exact E.
    - rewrite IH; [reflexivity|]. intros H'. apply H. right. exact H'. }
  induction ps as [|p ps IH]; [congruence|]. intros _ H. inversion H as [|? ? Hp Hps]; subst.
  destruct ps as [|q ps]; [exact (H1 p Hp)|]. change (with_colons (p :: q :: ps)) with (p ++ c_colon :: with_colons (q :: ps)).
  rewrite (H2 p _ Hp), IH; [reflexivity|discriminate|exact Hps].
Qed.
Theorem C73_path w win32 names ps : ps <> [] -> Forall (fun p => ~ In c_colon p) ps ->
  find_program w win32 (Some (with_colons ps)) names None = find_program w win32 (Some (with_colons ps)) names (Some ps).
Proof. intros H1 H2. unfold find_program. cbn [option_map]. rewrite (split_with_colons ps H1 H2). reflexivity. Qed.

(** Running the answer runs the file that was found. *)
Definition C73_runs : Prop := forall w ps names r, world_ok w -> ps <> [] -> Forall (fun p => ~ In c_colon p) ps ->
  find_program w false (Some (with_colons ps)) names None = Found r -> exec_file w (with_colons ps) r = Some r.
(** A file of that name in the current directory is "found", but the name alone runs another one, or none. *)
Definition text (s : string) : str := map N_of_ascii (list_ascii_of_string s).
Definition ex_world1 : world :=
  World (NDir [(text "bin", NDir [(text "cc", NFile)]); (text "proj", NDir [(text "cc", NFile); (text "yacc", NFile)])]) [text "proj"].
Lemma ex_world1_ok : world_ok ex_world1.
Proof. eapply world_check; reflexivity. Qed.
Lemma bin_ok : Forall (fun p => ~ In c_colon p) [text "/bin"].
Proof. repeat constructor. cbn. intuition discriminate. Qed.
Theorem C73_runs_refuted : ~ C73_runs.
Proof.
  intros H. specialize (H ex_world1 [text "/bin"] [text "cc"] (text "cc") ex_world1_ok ltac:(discriminate) bin_ok eq_refl).
  vm_compute in H. discriminate.
Qed.
Example C73_runs_nothing :
  find_program ex_world1 false (Some (text "/bin")) [text "yacc"] None = Found (text "yacc") /\
  exec_file ex_world1 (text "/bin") (text "yacc") = None.
Proof. split; reflexivity. Qed.
(** If no name without a slash is a file of the current directory, it does. *)
Theorem C73_runs_partial w ps names r : ps <> [] -> Forall (fun p => ~ In c_colon p) ps -> Forall (fun p => p <> []) ps ->
  Forall (fun n => is_file w n -> In c_sep n) names ->
  find_program w false (Some (with_colons ps)) names None = Found r -> exec_file w (with_colons ps) r = Some r.
Proof.
  intros H1 H2 H3 H4 Hf. pose proof (C73_file _ _ _ _ _ _ Hf) as Hr. rewrite (C73_path w false names ps H1 H2) in Hf.
  apply C73_found in Hf. destruct Hf as (n & (l1 & l2 & -> & Hn & _) & Hp).
  assert (In c_sep r) as Hs.
  { destruct Hp as [[Hn' ->]|[_ (d & (d1 & d2 & -> & Hd & _) & ->)]].
    - rewrite Forall_app in H4. destruct H4 as [_ H4]. inversion H4; subst. auto.
    - rewrite Forall_app in H3. destruct H3 as [_ H3]. inversion H3 as [|? ? Hd' _]; subst. unfold pjoin.
      destruct (isabs n) eqn:Ea.
      + destruct n as [|c n]; [discriminate|]. cbn in Ea. apply is_sep_true in Ea. left. exact Ea.
      + destruct d as [|c d]; [congruence|]. destruct (ends_sep (c :: d)) eqn:Ee.
        * apply ends_sep_true in Ee. destruct Ee as [d' ->]. apply in_or_app. left. apply in_elt.
        * apply in_elt. }
  unfold exec_file. assert (has_slash r = true) as ->.
  { unfold has_slash. apply existsb_exists. exists c_sep. split; [exact Hs|reflexivity]. }
  rewrite (proj2 (isfile_iff w r) Hr). reflexivity.
Qed.

(** On Windows, a name that has its extension is looked for as it is. *)
Definition C73_windows : Prop := forall w path b paths ns,
  find_program w true path [b ++ s_exe] (Some paths) = Missing ns -> ns = [b ++ s_exe].
(** The test, an "or" of three negations, is always true: gcc.exe.exe, gcc.exe.cmd and gcc.exe.bat come first. *)
Theorem C73_windows_refuted : ~ C73_windows.
Proof. intros H. specialize (H ex_world1 None (text "gcc") [] _ eq_refl). discriminate. Qed.
(** On Windows every name, whatever its extension, is looked for with each of three extensions added and then
    as it is, before the next name. *)
Definition windows_order (names : list str) : list str :=
  flat_map (fun n => [n ++ text ".exe"; n ++ text ".cmd"; n ++ text ".bat"; n]) names.
Lemma ends_in_app p suffix : ends_in p suffix = true -> exists q, p = q ++ suffix.
Proof.
  unfold ends_in. intros H. destruct (startswith_true _ _ H) as [q E]. exists (rev q).
  rewrite <- (rev_involutive p), E, rev_app_distr, rev_involutive. reflexivity.
Qed.
Lemma windows_names_order names : windows_names names = windows_order names.
Proof.
  unfold windows_names, windows_order. induction names as [|n names IH]; [reflexivity|]. cbn [flat_map]. rewrite IH. f_equal.
  destruct (ends_in n s_exe) eqn:E1; [|reflexivity]. destruct (ends_in n s_cmd) eqn:E2; [|reflexivity].
  apply ends_in_app in E1, E2. destruct E1 as [q1 ->], E2 as [q2 E].
  change s_exe with ([46; 101; 120] ++ [101])%N in E. change s_cmd with ([46; 99; 109] ++ [100])%N in E.
  rewrite !app_assoc in E. apply app_inj_tail in E. destruct E. discriminate.
Qed.
Theorem C73_windows_found w path names paths :
  (forall r, find_program w true path names (Some paths) = Found r <->
     exists n, first_with (findable w paths) (windows_order names) n /\ at_place w paths n r) /\
  (forall ns, find_program w true path names (Some paths) = Missing ns <->
     ns = windows_order names /\ forall n, In n (windows_order names) -> ~ findable w paths n).
Proof.
  pose proof (C73_found w path (windows_order names) paths) as [H1 H2].
  assert (find_program w true path names (Some paths) = find_program w false path (windows_order names) (Some paths)) as E
    by (unfold find_program; rewrite windows_names_order; reflexivity).
  rewrite E. split; assumption.
Qed.
(** It is among the names looked for. *)
Theorem C73_windows_partial w path names paths ns n :
  find_program w true path names (Some paths) = Missing ns -> In n names -> In n ns /\ ~ findable w paths n.
Proof.
  unfold find_program. destruct (search w (windows_names names) paths) as [p|] eqn:E; [discriminate|]. intros H Hn. injection H as <-.
  assert (In n (windows_names names)) as Hi.
  { unfold windows_names. apply in_flat_map. exists n. split; [exact Hn|]. apply in_or_app. right. left. reflexivity. }
  split; [exact Hi|]. exact (proj1 (search_none w _ paths) E n Hi).
Qed.

(** Instances. *)
Definition ex_world2 : world :=
  World (NDir [(text "bin", NDir [(text "cc", NDir []); (text "gcc", NFile)]); (text "usr", NDir [(text "gcc", NFile); (text "cc", NFile)]);
               (text "proj", NDir [])]) [text "proj"].
Example C73_example :
  find_program ex_world2 false (Some (text "/bin:/usr")) [text "icc"; text "gcc"; text "cc"] None = Found (text "/bin/gcc") /\
  exec_file ex_world2 (text "/bin:/usr") (text "/bin/gcc") = Some (text "/bin/gcc") /\
  exec_file ex_world2 (text "/bin:/usr") (text "cc") = Some (text "/usr/cc") /\
  find_program ex_world2 false (Some (text "/bin:/usr")) [text "cc"] None = Found (text "/usr/cc") /\
  find_program ex_world2 false (Some (text "/bin:/usr")) [text "icc"; text "c++"] None = Missing [text "icc"; text "c++"] /\
  with_colons [text "/bin"; text "/usr"] = text "/bin:/usr".
Proof. repeat split. Qed.

(** Which file is run for a command: the one it names, if it has a slash, else the first in PATH. *)
Theorem C73_execvp w ps cmd r : ps <> [] -> Forall (fun p => ~ In c_colon p) ps ->
  exec_file w (with_colons ps) cmd = Some r <->
  (In c_sep cmd /\ is_file w cmd /\ r = cmd) \/
  (~ In c_sep cmd /\ exists d, first_with (fun d => is_file w (pjoin d cmd)) ps d /\ r = pjoin d cmd).
Proof.
  intros Hne Hc. unfold exec_file, has_slash. rewrite (split_with_colons ps Hne Hc).
  destruct (existsb is_sep cmd) eqn:E.
  - assert (In c_sep cmd) as Hi by (apply existsb_exists in E as (c & Hi & Hs); apply is_sep_true in Hs; subst c; exact Hi).
    split.
    + intros H. left. destruct (isfile w cmd) eqn:F; [|discriminate]. apply isfile_iff in F. injection H as <-. auto.
    + intros [(_ & F & ->)|[H _]]; [|contradiction]. apply isfile_iff in F. rewrite F. reflexivity.
  - assert (~ In c_sep cmd) as Hi by (intros K; assert (existsb is_sep cmd = true) as X by (apply existsb_exists; exists c_sep; split; [exact K|reflexivity]); congruence).
    assert (forall l, find (isfile w) (map (fun d => pjoin d cmd) l) = Some r <->
      exists d, first_with (fun d => is_file w (pjoin d cmd)) l d /\ r = pjoin d cmd) as H.
    { induction l as [|d l IH]; cbn.
      - split; [discriminate|]. intros (d & (l1 & l2 & K & _) & _). destruct l1; discriminate.
      - destruct (isfile w (pjoin d cmd)) eqn:F.
        + apply isfile_iff in F. split.
          * intros H. injection H as <-. exists d. split; [apply first_with_here; [exact F|reflexivity]|reflexivity].
          * intros (d' & H & ->). apply (first_with_here (fun d => is_file w (pjoin d cmd)) d l d' F) in H. subst d'. reflexivity.
        + assert (~ is_file w (pjoin d cmd)) as F' by (rewrite <- isfile_iff, F; discriminate). rewrite IH.
          split; intros (d' & H & ->); exists d'; (split; [|reflexivity]).
          * apply (first_with_cons (fun d => is_file w (pjoin d cmd)) d l d' F'). exact H.
          * apply (first_with_cons (fun d => is_file w (pjoin d cmd)) d l d' F') in H. exact H. }
    rewrite H. split; [intros K; right; auto|]. intros [(K & _)|(_ & K)]; [contradiction|exact K].
Qed.

Print Assumptions C73_found.
Print Assumptions C73_file.
Print Assumptions C73_path.
Print Assumptions C73_runs_refuted.
Print Assumptions C73_runs_partial.
Print Assumptions C73_windows_refuted.
Print Assumptions C73_windows_found.
Print Assumptions C73_windows_partial.
Print Assumptions C73_execvp.
