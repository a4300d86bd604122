(** Running commands and builds. *)
From stdpp Require Import base list strings gmap.
From Coq Require Import ZArith Ascii Lia.
From Verif Require Import PyMonad ExecModel ExecSpec.
Local Open Scope string_scope.
Local Open Scope list_scope.

(** C68: which way a command ends. *)
Theorem C68_outcome timeout ignore_error w :
  let r := snd (execute timeout ignore_error w) in
  (forall out err, r = Returned out err <->
     exists code, exited w out err code /\ ~ late timeout w /\ (code = 0%Z \/ ignore_error = true)) /\
  (forall out err code, r = RError out err code <->
     exited w out err code /\ ~ late timeout w /\ code <> 0%Z /\ ignore_error = false) /\
  (forall out err code, r = RTimedOut out err code <-> exited w out err code /\ late timeout w) /\
  (r = RInterrupt <-> interrupted w) /\
  (r = ROSError <-> w_process w = SOSError \/ w_process w = SStarted WOSError) /\
  (r = ROther <-> w_process w = SOther \/ w_process w = SStarted WOther).
Proof.
  destruct w as [[| |[| | |out err code]] fired]; unfold execute, exited, interrupted, late; cbn [w_process w_fired].
  1-5: by split_and!; intros; naive_solver.
  change (- sigint)%Z with (-2)%Z. destruct (Z.eqb_spec code (-2)) as [->|Hs]; cbn [snd].
  { split_and!; intros; naive_solver. }
  destruct timeout, fired; cbn [andb]; destruct (Z.eqb_spec code 0) as [->|H0]; cbn [negb andb];
    destruct ignore_error; cbn [negb]; split_and!; intros; naive_solver.
Qed.

(** The timer is started for started processes only, once, and cancelled afterwards. *)
Theorem C68_timer timeout ignore_error w :
  let fs := fst (execute timeout ignore_error w) in
  (FStartTimer ∈ fs <-> timeout = true /\ exists q, w_process w = SStarted q) /\
  (FStartTimer ∈ fs -> follows FStartTimer FCancelTimer fs).
Proof.
  assert (forall A (x y : A) b c, follows x y (x :: b ++ y :: c)) as Hf.
  { intros A x y b c. by exists [], b, c. }
  assert (forall f s, (forall s, f s <> FStartTimer) -> FStartTimer ∉ log_output f s) as Hlog.
  { intros f s Hn. unfold log_output. destruct (String.eqb s ""); [apply not_elem_of_nil|].
    intros H%elem_of_list_singleton. by apply (Hn s). }
  pose proof (fun s => Hlog FStdout s ltac:(done)) as H1. pose proof (fun s => Hlog FStderr s ltac:(done)) as H2. clear Hlog.
  destruct w as [[| |[| | |out err code]] fired], timeout; unfold execute; cbn [w_process w_fired fst];
    try destruct (code =? - sigint)%Z; cbn [fst]; cbn [app].
  all: try (split; [split; [intros H; rewrite ?elem_of_cons, ?elem_of_app, ?elem_of_cons, ?elem_of_nil in H|intros [Ht [q Hq]]];
    try discriminate; exfalso; specialize (H1 out) || specialize (H1 ""); specialize (H2 err) || specialize (H2 ""); intuition discriminate
    |intros H; exfalso; rewrite ?elem_of_cons, ?elem_of_app, ?elem_of_cons, ?elem_of_nil in H;
     specialize (H1 out) || specialize (H1 ""); specialize (H2 err) || specialize (H2 ""); intuition discriminate]).
  all: split; [split; [intros _; split; [done|by eexists]|intros _; by left]|intros _].
  - apply (Hf _ FStartTimer FCancelTimer [FKill] []).
  - apply (Hf _ FStartTimer FCancelTimer [FFailed] []).
  - apply (Hf _ FStartTimer FCancelTimer [] []).
  - apply (Hf _ FStartTimer FCancelTimer [] []).
  - apply (Hf _ FStartTimer FCancelTimer [] _).
Qed.

(** What the process printed is shown, once, after the command and before the exit code. *)
Theorem C68_shown timeout ignore_error w out err code : exited w out err code ->
  exists pre, fst (execute timeout ignore_error w) =
    pre ++ [FCommand (negb (code =? 0)%Z)] ++ (if decide (out = "") then [] else [FStdout out]) ++
    (if decide (err = "") then [] else [FStderr err]) ++ [FExit code] /\
    forall f, f ∈ pre -> f = FStartTimer \/ f = FCancelTimer.
Proof.
  intros [H Hc]. unfold execute. rewrite H. change (- sigint)%Z with (-2)%Z. destruct (Z.eqb_spec code (-2)) as [|_]; [done|]. cbn [fst].
  exists ((if timeout then [FStartTimer] else []) ++ if timeout then [FCancelTimer] else []).
  rewrite <- app_assoc. split.
  - do 3 f_equal. unfold log_output. f_equal; [|f_equal].
    + destruct (String.eqb_spec out ""), (decide (out = "")); done.
    + destruct (String.eqb_spec err ""), (decide (err = "")); done.
  - intros f. destruct timeout; rewrite ?elem_of_app, ?elem_of_cons, ?elem_of_nil; naive_solver.
Qed.

(** The variables of the process: those given, then those of fbuild, and the search path for
    libraries extended at the end. *)
Theorem C68_environment os_env env var paths v :
  let old := match env with Some e => match e !! v with Some x => Some x | None => os_env !! v end | None => os_env !! v end in
  exec_env os_env env var paths !! v =
    if decide (v = var /\ paths <> []) then
      Some (match old with Some x => x +:+ ":" +:+ path_join paths | None => path_join paths end)
    else old.
Proof.
  unfold exec_env. set (base := match env with None => os_env | Some e => e ∪ os_env end).
  assert (base !! v = match env with Some e => match e !! v with Some x => Some x | None => os_env !! v end | None => os_env !! v end) as Hb.
  { subst base. destruct env as [e|]; [|done]. rewrite lookup_union. by destruct (e !! v), (os_env !! v). }
  cbn zeta. rewrite <- Hb. destruct paths as [|p ps].
  { rewrite decide_False by (by intros [_ ?]). done. }
  destruct (decide (v = var)) as [->|Hv].
  - rewrite decide_True by done. by rewrite lookup_insert.
  - rewrite decide_False by (by intros [? _]). by rewrite lookup_insert_ne.
Qed.

(** The dynamic linker splits the search path at colons: it looks in the directories that were there, then in those given. *)
Fixpoint directories (s : string) : list string :=
  match s with
  | EmptyString => [""]
  | String a s' =>
      if decide (a = ":"%char) then "" :: directories s'
      else match directories s' with d :: ds => String a d :: ds | [] => [String a ""] end
  end.
Fixpoint no_colon (s : string) : Prop := match s with EmptyString => True | String a s' => a <> ":"%char /\ no_colon s' end.
Lemma directories_app old : forall rest, directories (old +:+ ":" +:+ rest) = directories old ++ directories rest.
Proof.
  induction old as [|a old IH]; intros rest; [done|].
  change (String a old +:+ ":" +:+ rest) with (String a (old +:+ ":" +:+ rest)). cbn [directories]. rewrite IH.
  destruct (decide (a = ":"%char)); [done|]. by destruct (directories old) eqn:E; [destruct old as [|b old]; cbn in E; repeat case_match; discriminate|].
Qed.
Lemma directories_one p : no_colon p -> directories p = [p].
Proof. induction p as [|a p IH]; [done|]. intros [Ha Hp]. cbn [directories]. rewrite decide_False by done. by rewrite IH. Qed.
Lemma directories_join paths : paths <> [] -> Forall no_colon paths -> directories (path_join paths) = paths.
Proof.
  unfold path_join. induction paths as [|p [|q ps] IH]; intros Hne H; [done| |].
  - apply directories_one. by inversion H.
  - change (String.concat ":" (p :: q :: ps)) with (p +:+ ":" +:+ String.concat ":" (q :: ps)).
    inversion H as [|? ? Hp Hps]. subst. rewrite directories_app, directories_one by done. rewrite IH; done.
Qed.
Theorem C68_search os_env var paths : paths <> [] -> Forall no_colon paths ->
  directories <$> (exec_env os_env None var paths !! var) =
    Some (match os_env !! var with Some old => directories old | None => [] end ++ paths).
Proof.
  intros Hne H. pose proof (C68_environment os_env None var paths var) as E. cbn zeta in E. rewrite E, decide_True by done.
  cbn [fmap option_fmap option_map]. f_equal. destruct (os_env !! var) as [old|]; [rewrite directories_app|]; by rewrite directories_join.
Qed.
Example C68_search_example :
  Forall no_colon ["lib"; "/opt"] /\
  directories <$> (exec_env {["LD_LIBRARY_PATH" := "/a:/b"]} None "LD_LIBRARY_PATH" ["lib"; "/opt"] !! "LD_LIBRARY_PATH") = Some ["/a"; "/b"; "lib"; "/opt"].
Proof. split; [|by vm_compute]. repeat constructor; discriminate. Qed.

(** Claims that are not true: a time-out is reported only if the process did not end well by
    itself; with ignore_error nothing but time-outs is raised for a finished process; the search
    path is what was there and the given directories. *)
Definition timely_claim : Prop := forall ie w out err code,
  snd (execute true ie w) = RTimedOut out err code -> code <> 0%Z.
Theorem C68_timely_refuted : ~ timely_claim.
Proof.
  intros H. by apply (H false (World (SStarted (WExit "" "" 0)) true) "" "" 0%Z).
Qed.
Definition ignored_claim : Prop := forall w out err code,
  w_process w = SStarted (WExit out err code) -> snd (execute false true w) = Returned out err.
Theorem C68_ignored_refuted : ~ ignored_claim.
Proof.
  intros H. by specialize (H (World (SStarted (WExit "" "" (-2))) false) "" "" _ eq_refl).
Qed.
(** LD_LIBRARY_PATH is set but empty: the current directory is searched first. *)
Example C68_empty_path : exec_env {["LD_LIBRARY_PATH" := ""]} None "LD_LIBRARY_PATH" ["/opt/lib"] !! "LD_LIBRARY_PATH" = Some ":/opt/lib".
Proof. by vm_compute. Qed.
Example C68_example :
  execute true false (World (SStarted (WExit "out" "" 1)) false) =
    ([FStartTimer; FCancelTimer; FCommand true; FStdout "out"; FExit 1], RError "out" "" 1) /\
  execute false true (World (SStarted (WExit "out" "warn" 1)) false) =
    ([FCommand true; FStdout "out"; FStderr "warn"; FExit 1], Returned "out" "warn") /\
  exec_env {["PATH" := "/bin"; "CC" := "gcc"]} (Some {["CC" := "clang"]}) "LD_LIBRARY_PATH" ["lib"; "/opt"] =
    {["PATH" := "/bin"; "CC" := "clang"; "LD_LIBRARY_PATH" := "lib:/opt"]}.
Proof. split; [done|]. split; [done|]. apply (bool_decide_unpack _). by vm_compute. Qed.

(** *** C69: the frame of a build *)
Lemma finally_eq {A} (m : P A) f tr :
  finally m f tr = match f (fst (m tr)) with (tr2, inl e) => (tr2, inl e) | (tr2, inr _) => (tr2, snd (m tr)) end.
Proof. unfold finally. by destruct (m tr). Qed.

(** All that can happen, as a table. *)
Definition build_trace (w : list act -> act -> option xn) (o : options) : list act :=
  match o_root o with
  | RootOk =>
      if o_clean o then if o_exists o then [ARemoveRoot] else []
      else if w [] ACreate then [ACreate]
      else if w [ACreate] ALoad then [ACreate; ALoad]
      else
        let b := [ACreate; ALoad; ABuild] in
        let m := b ++ match w [ACreate; ALoad] ABuild with None => [AClearTemp] | Some XError => [ALogError] | _ => [] end in
        if o_nosave o then m ++ [AStopDb]
        else m ++ ASave :: (if w m ASave then [] else [AStopDb])
  | _ => []
  end.

Lemma finally_act {A} w (m : P A) a tr :
  finally m (act_of w a) tr =
    (fst (m tr) ++ [a], match w (fst (m tr)) a with Some e => inl e | None => snd (m tr) end).
Proof. rewrite finally_eq. unfold act_of. by destruct (w _ a). Qed.

Lemma main_trace w o : fst (main w o []) = build_trace w o ++ [AStopScheduler].
Proof.
  unfold main. rewrite finally_act. cbn [fst]. f_equal. unfold build_trace.
  destruct (o_root o); [|done..]. unfold bind at 1, ret at 1. destruct (o_clean o).
  { destruct (o_exists o); [|done]. unfold bind, act_of, ret. by destruct (w [] ARemoveRoot). }
  unfold bind at 1, act_of at 1. cbn [app]. destruct (w [] ACreate); [done|].
  unfold bind at 1, act_of at 1. cbn [app]. destruct (w [ACreate] ALoad); [done|].
  rewrite finally_eq. unfold try, act_of, bind, raise, ret. cbn [app].
  destruct (w [ACreate; ALoad] ABuild) as [[| |n|]|] eqn:?; cbn [app fst].
  all: try (destruct (w [ACreate; ALoad; ABuild] ALogError) eqn:?; cbn [app fst]).
  all: try (destruct (w [ACreate; ALoad; ABuild] AClearTemp) eqn:?; cbn [app fst]).
  all: destruct (o_nosave o); cbn [app fst]; try (by destruct (w _ AStopDb)).
  all: repeat match goal with |- context [match ?x with Some _ => _ | None => _ end] => destruct x end; done.
Qed.

(** ... and how it ends. *)
Definition orelse (x : option xn) (r : xn + option Z) : xn + option Z := match x with Some e => inl e | None => r end.
Definition build_result (w : list act -> act -> option xn) (o : options) : xn + option Z :=
  match o_root o with
  | RootMissing => inl XError
  | RootBroken => inl XOther
  | RootOk =>
      if o_clean o then orelse (if o_exists o then w [] ARemoveRoot else None) (inr None)
      else orelse (w [] ACreate) (orelse (w [ACreate] ALoad)
        (let b := [ACreate; ALoad; ABuild] in
         let m := b ++ match w [ACreate; ALoad] ABuild with None => [AClearTemp] | Some XError => [ALogError] | _ => [] end in
         let r := match w [ACreate; ALoad] ABuild with
                  | None => orelse (w b AClearTemp) (inr (Some 0%Z))
                  | Some XError => orelse (w b ALogError) (inl (XExit 1))
                  | Some e => inl e
                  end in
         if o_nosave o then orelse (w m AStopDb) r
         else orelse (w m ASave) (orelse (w (m ++ [ASave]) AStopDb) r)))
  end.

Lemma main_result w o : snd (main w o []) = orelse (w (build_trace w o) AStopScheduler) (build_result w o).
Proof.
  pose proof (main_trace w o) as Ht. unfold main in Ht |- *. rewrite finally_act in Ht |- *. cbn [fst snd] in Ht |- *.
  apply app_inv_tail in Ht. rewrite Ht. clear Ht. unfold orelse at 1.
  destruct (w (build_trace w o) AStopScheduler); [done|]. unfold build_result.
  destruct (o_root o); [|done..]. unfold bind at 1, ret at 1. destruct (o_clean o).
  { destruct (o_exists o); [|done]. unfold bind, act_of, ret, orelse. by destruct (w [] ARemoveRoot). }
  unfold bind at 1, act_of at 1. cbn [app]. destruct (w [] ACreate); [done|].
  unfold bind at 1, act_of at 1. cbn [app]. unfold orelse at 1. destruct (w [ACreate] ALoad); [done|].
  unfold orelse at 1. rewrite finally_eq. unfold try, act_of, bind, raise, ret, orelse. cbn [app].
  destruct (w [ACreate; ALoad] ABuild) as [[| |n|]|], (o_nosave o); cbn [app fst snd].
  all: repeat match goal with |- context [match ?x with Some _ => _ | None => _ end] => lazymatch x with context [match _ with _ => _ end] => fail | _ => destruct x eqn:?; cbn [app fst snd] end end; congruence.
Qed.

(** Decide what happened in concrete traces. *)
Fixpoint quiet_from (w : list act -> act -> option xn) (pre tr : list act) : Prop :=
  match tr with [] => True | a :: tr' => w pre a = None /\ quiet_from w (pre ++ [a]) tr' end.
Lemma quiet_happened w tr : (forall a r, happened w tr a r -> r = None) <-> quiet_from w [] tr.
Proof.
  assert (forall pre, (forall tr1 a tr2, tr = tr1 ++ a :: tr2 -> w (pre ++ tr1) a = None) <-> quiet_from w pre tr) as H.
  { induction tr as [|b tr IH]; intros pre; cbn [quiet_from].
    - split; [done|]. intros _ tr1 a tr2 H. by destruct tr1.
    - rewrite <- IH. split.
      + intros H. split; [specialize (H [] b tr eq_refl); by rewrite app_nil_r in H|].
        intros tr1 a tr2 ->. rewrite <- app_assoc. by apply (H (b :: tr1) a tr2).
      + intros [H1 H2] tr1 a tr2 Heq. destruct tr1 as [|c tr1].
        * injection Heq as <- _. by rewrite app_nil_r.
        * injection Heq as <- Heq. specialize (H2 _ _ _ Heq). by rewrite <- app_assoc in H2. }
  rewrite <- (H []). split.
  - intros Hh tr1 a tr2 ->. apply (Hh a). by exists tr1, tr2.
  - intros Hh a r (tr1 & tr2 & -> & <-). by apply (Hh tr1 a tr2).
Qed.

Lemma happened_in w tr a r : happened w tr a r -> a ∈ tr.
Proof. intros (tr1 & tr2 & -> & _). rewrite elem_of_app. right. by left. Qed.

Lemma happened_at w pre a post r : a ∉ pre -> a ∉ post -> happened w (pre ++ a :: post) a r -> w pre a = r.
Proof.
  intros H1 H2 (tr1 & tr2 & Heq & H). enough (pre = tr1) as -> by done.
  clear H. revert tr1 Heq. induction pre as [|b pre IH]; intros [|c tr1] Heq; cbn [app] in Heq.
  - done.
  - injection Heq as <- Heq. exfalso. apply H2. rewrite Heq, elem_of_app. right. by left.
  - injection Heq as -> _. exfalso. apply H1. by left.
  - injection Heq as -> Heq. f_equal. apply IH; [|done]. intros Hin. apply H1. by right.
Qed.

Definition trace w o := fst (main w o []).

(** The scheduler is stopped once, at the very end, whatever happens. *)
Theorem C69_stopped w o : exists tr, trace w o = tr ++ [AStopScheduler] /\ AStopScheduler ∉ tr.
Proof.
  exists (build_trace w o). split; [apply main_trace|]. unfold build_trace.
  destruct (o_root o), (o_clean o), (o_exists o), (w [] ACreate), (w [ACreate] ALoad), (o_nosave o),
    (w [ACreate; ALoad] ABuild) as [[| | |]|]; cbn [app];
    repeat match goal with |- context [w ?l ?a] => destruct (w l a) end;
    rewrite ?elem_of_cons, ?elem_of_nil; naive_solver.
Qed.

(** Once the database was loaded, the build runs, and then the database is saved and its service
    stopped; after a failed save the service is not stopped. *)
Theorem C69_saved w o : happened w (trace w o) ALoad None ->
  exists mid, (mid = [] \/ mid = [AClearTemp] \/ mid = [ALogError]) /\
    let before := [ACreate; ALoad; ABuild] ++ mid in
    trace w o = before ++
      (if o_nosave o then [AStopDb]
       else ASave :: (if decide (w before ASave = None) then [AStopDb] else [])) ++ [AStopScheduler].
Proof.
  unfold trace. rewrite main_trace. unfold build_trace. intros H.
  destruct (o_root o).
  2,3: apply happened_in in H; cbn [app] in H; rewrite elem_of_list_singleton in H; discriminate.
  destruct (o_clean o).
  { apply happened_in in H. destruct (o_exists o); cbn [app] in H; rewrite !elem_of_cons, elem_of_nil in H; naive_solver. }
  destruct (w [] ACreate) eqn:E1.
  { apply happened_in in H. cbn [app] in H; rewrite !elem_of_cons, elem_of_nil in H; naive_solver. }
  destruct (w [ACreate] ALoad) eqn:E2.
  { destruct H as (tr1 & tr2 & Heq & H). exfalso.
    destruct tr1 as [|? [|? [|? [|? tr1]]]]; cbn [app] in Heq; try discriminate Heq; injection Heq; intros; subst; cbn [app] in *; congruence. }
  destruct (w [ACreate; ALoad] ABuild) as [[| |n|]|] eqn:E3; cbn [app].
  - exists [ALogError]. split; [tauto|]. cbn [app]. destruct (o_nosave o); [done|]. by destruct (w _ ASave).
  - exists []. split; [tauto|]. cbn [app]. destruct (o_nosave o); [done|]. by destruct (w _ ASave).
  - exists []. split; [tauto|]. cbn [app]. destruct (o_nosave o); [done|]. by destruct (w _ ASave).
  - exists []. split; [tauto|]. cbn [app]. destruct (o_nosave o); [done|]. by destruct (w _ ASave).
  - exists [AClearTemp]. split; [tauto|]. cbn [app]. destruct (o_nosave o); [done|]. by destruct (w _ ASave).
Qed.

(** Temporary files are removed exactly after a successful build, error messages logged exactly
    for fbuild.Error. *)
Theorem C69_temporary w o :
  (AClearTemp ∈ trace w o <-> happened w (trace w o) ABuild None) /\
  (ALogError ∈ trace w o <-> happened w (trace w o) ABuild (Some XError)).
Proof.
  assert (forall r, happened w (trace w o) ABuild r -> happened w (trace w o) ALoad None /\ w [ACreate; ALoad] ABuild = r) as Hb.
  { unfold trace. rewrite main_trace. unfold build_trace. intros r H.
    destruct (o_root o).
    2,3: apply happened_in in H; cbn [app] in H; rewrite elem_of_list_singleton in H; discriminate.
    destruct (o_clean o).
    { apply happened_in in H. destruct (o_exists o); cbn [app] in H; rewrite !elem_of_cons, elem_of_nil in H; naive_solver. }
    destruct (w [] ACreate) eqn:E1.
    { apply happened_in in H. cbn [app] in H; rewrite !elem_of_cons, elem_of_nil in H; naive_solver. }
    destruct (w [ACreate] ALoad) eqn:E2.
    { apply happened_in in H. cbn [app] in H; rewrite !elem_of_cons, elem_of_nil in H; naive_solver. }
    split.
    - destruct (o_nosave o); (eexists [ACreate], _; split; [reflexivity|done]).
    - revert H. destruct (o_nosave o); cbn [app]; apply (happened_at w [ACreate; ALoad] ABuild);
        rewrite ?elem_of_app, ?elem_of_cons, ?elem_of_nil;
        (destruct (w [ACreate; ALoad] ABuild) as [[| | |]|]; cbn [app];
         repeat match goal with |- context [if ?x then _ else _] => destruct x end; cbn [app];
         rewrite ?elem_of_cons, ?elem_of_nil; naive_solver). }
  assert (forall r, happened w (trace w o) ALoad None -> w [ACreate; ALoad] ABuild = r -> happened w (trace w o) ABuild r) as Hb'.
  { intros r Hl Hr. destruct (C69_saved w o Hl) as (mid & _ & Ht). cbn zeta in Ht. cbn [app] in Ht.
    rewrite Ht. by eexists [ACreate; ALoad], _. }
  assert (forall a, a = AClearTemp \/ a = ALogError -> a ∈ trace w o -> happened w (trace w o) ALoad None) as Hl.
  { unfold trace. rewrite main_trace. unfold build_trace. intros a Ha H.
    destruct (o_root o); [|cbn [app] in H; rewrite elem_of_list_singleton in H; destruct Ha; congruence..].
    destruct (o_clean o).
    { destruct (o_exists o); cbn [app] in H; rewrite !elem_of_cons, elem_of_nil in H; naive_solver. }
    destruct (w [] ACreate) eqn:E1.
    { cbn [app] in H; rewrite !elem_of_cons, elem_of_nil in H; naive_solver. }
    destruct (w [ACreate] ALoad) eqn:E2.
    { cbn [app] in H; rewrite !elem_of_cons, elem_of_nil in H; naive_solver. }
    destruct (o_nosave o); (eexists [ACreate], _; split; [reflexivity|done]). }
  assert (happened w (trace w o) ALoad None ->
    (AClearTemp ∈ trace w o <-> w [ACreate; ALoad] ABuild = None) /\
    (ALogError ∈ trace w o <-> w [ACreate; ALoad] ABuild = Some XError)) as Hm.
  { intros H. pose proof H as H0. revert H. unfold trace. rewrite main_trace. unfold build_trace.
    destruct (o_root o); [|intros H%happened_in; cbn [app] in H; rewrite elem_of_list_singleton in H; discriminate..].
    destruct (o_clean o).
    { intros H%happened_in. destruct (o_exists o); cbn [app] in H; rewrite !elem_of_cons, elem_of_nil in H; naive_solver. }
    destruct (w [] ACreate) eqn:E1.
    { intros H%happened_in. cbn [app] in H; rewrite !elem_of_cons, elem_of_nil in H; naive_solver. }
    destruct (w [ACreate] ALoad) eqn:E2.
    { intros (tr1 & tr2 & Heq & H). exfalso.
      destruct tr1 as [|? [|? [|? [|? tr1]]]]; cbn [app] in Heq; try discriminate Heq; injection Heq; intros; subst; cbn [app] in *; congruence. }
    intros _. destruct (w [ACreate; ALoad] ABuild) as [[| |n|]|], (o_nosave o); cbn [app];
      repeat match goal with |- context [w ?l ?a] => destruct (w l a) end; cbn [app];
      rewrite ?elem_of_cons, ?elem_of_nil; naive_solver. }
  split; split.
  - intros H. pose proof (Hl _ (or_introl eq_refl) H) as H'. apply Hb'; [done|]. by apply Hm.
  - intros H. destruct (Hb _ H) as [H' Hr]. by apply Hm.
  - intros H. pose proof (Hl _ (or_intror eq_refl) H) as H'. apply Hb'; [done|]. by apply Hm.
  - intros H. destruct (Hb _ H) as [H' Hr]. by apply Hm.
Qed.

(** The exit status is 0 exactly if nothing raised. *)
Theorem C69_status w o : no_exit w ->
  status (snd (main w o [])) = 0%Z <-> o_root o = RootOk /\ forall a r, happened w (trace w o) a r -> r = None.
Proof.
  intros Hx. unfold trace. rewrite quiet_happened, main_trace, main_result. unfold build_trace, build_result.
  assert (forall tr a e, w tr a = Some e -> status (inl e) <> 0%Z) as Hs.
  { intros tr a e H. destruct e; try done. by apply Hx in H. }
  assert (forall tr a r P, (w tr a = None -> (status r = 0%Z <-> P)) ->
    (status (orelse (w tr a) r) = 0%Z <-> w tr a = None /\ P)) as Ho.
  { intros tr a r Q H. unfold orelse. destruct (w tr a) as [e|] eqn:E.
    - split; [intros H'; by apply Hs in E|by intros [? _]].
    - rewrite H by done. tauto. }
  destruct (o_root o); cbn [app quiet_from].
  2,3: unfold orelse; destruct (w [] AStopScheduler) as [e|] eqn:E; split;
       [intros H; by apply Hs in E|by intros [? _]|done|by intros [? _]].
  destruct (o_clean o).
  { destruct (o_exists o); cbn [app quiet_from].
    - rewrite Ho; [|reflexivity]. unfold orelse. destruct (w [] ARemoveRoot) eqn:E; [|cbn; tauto].
      split; [intros [_ H]; by apply Hs in E|by intros (_ & ? & _)].
    - rewrite Ho; [|reflexivity]. cbn. tauto. }
  destruct (w [] ACreate) eqn:E1; cbn [app quiet_from].
  { rewrite Ho; [|reflexivity]. unfold orelse at 1. split; [intros [_ H]; by apply Hs in E1|]. rewrite E1. by intros (_ & ? & _). }
  unfold orelse at 2.
  destruct (w [ACreate] ALoad) eqn:E2; cbn [app quiet_from].
  { rewrite Ho; [|reflexivity]. unfold orelse at 1. split; [intros [_ H]; by apply Hs in E2|]. rewrite E2. by intros (_ & _ & ? & _). }
  unfold orelse at 2.
  destruct (w [ACreate; ALoad] ABuild) as [x|] eqn:E3.
  { assert (forall r (P Q : Prop), (status r = 0%Z -> False) -> (Q -> Some x = None) ->
      (status r = 0%Z <-> P /\ Q)) as Hbad.
    { intros r P' Q H1 H2. split; [intros H; by apply H1 in H|]. intros [_ H]. by apply H2 in H. }
    assert (forall y r, (status r = 0%Z -> False) -> (forall e, y = Some e -> status (inl e) <> 0%Z) ->
      status (orelse y r) = 0%Z -> False) as Hor.
    { intros y r H1 H2. unfold orelse. destruct y; [by apply H2|done]. }
    apply Hbad.
    - apply Hor; [|apply Hs]. destruct x as [| |n|]; [| |by apply Hx in E3|]; destruct (o_nosave o);
        repeat (apply Hor; [|apply Hs]); try done; (apply Hor; [done|apply Hs]).
    - destruct x; destruct (o_nosave o); cbn [app quiet_from]; rewrite E3; naive_solver. }
  destruct (o_nosave o); cbn [app quiet_from].
  - rewrite Ho; [|reflexivity]. rewrite (Ho _ _ _ (w [ACreate; ALoad; ABuild] AClearTemp = None)).
    + cbn. rewrite E1, E2, E3. tauto.
    + intros _. unfold orelse. destruct (w _ AClearTemp) eqn:E; [|cbn; tauto]. split; [intros H; by apply Hs in E|done].
  - destruct (w [ACreate; ALoad; ABuild; AClearTemp] ASave) as [e|] eqn:E4; cbn [app quiet_from].
    + unfold orelse at 2. unfold orelse. destruct (w _ AStopScheduler) as [e'|] eqn:E5; (split; [intros H|]);
        [by apply Hs in E5| |by apply Hs in E4|]; naive_solver.
    + unfold orelse at 2. rewrite Ho; [|reflexivity].
      rewrite (Ho _ _ _ (w [ACreate; ALoad; ABuild] AClearTemp = None)).
      * rewrite E1, E2, E3. tauto.
      * intros _. unfold orelse. destruct (w _ AClearTemp) eqn:E; [|cbn; tauto]. split; [intros H; by apply Hs in E|done].
Qed.

(** What was meant: the service of the database is always stopped. *)
Definition service_claim : Prop := forall w o, happened w (trace w o) ALoad None -> AStopDb ∈ trace w o.
(** The disk is full. *)
Theorem C69_service_refuted : ~ service_claim.
Proof.
  intros H. specialize (H (fun _ a => match a with ASave => Some XOther | _ => None end) (Options RootOk false false false)).
  assert (trace (fun _ a => match a with ASave => Some XOther | _ => None end) (Options RootOk false false false) =
    [ACreate; ALoad; ABuild; AClearTemp; ASave; AStopScheduler]) as Ht by done.
  rewrite Ht in H. assert (AStopDb ∈ [ACreate; ALoad; ABuild; AClearTemp; ASave; AStopScheduler]) as Hin.
  { apply H. by eexists [ACreate], _. }
  rewrite !elem_of_cons, elem_of_nil in Hin. naive_solver.
Qed.
(** Options.nosave keeps the database on disk as it was; a failed build saves it. *)
Example C69_example :
  main (fun _ a => match a with ABuild => Some XError | _ => None end) (Options RootOk false false false) [] =
    ([ACreate; ALoad; ABuild; ALogError; ASave; AStopDb; AStopScheduler], inl (XExit 1)) /\
  main (fun _ _ => None) (Options RootOk false false true) [] =
    ([ACreate; ALoad; ABuild; AClearTemp; AStopDb; AStopScheduler], inr (Some 0%Z)) /\
  main (fun _ _ => None) (Options RootOk true true false) [] = ([ARemoveRoot; AStopScheduler], inr None) /\
  no_exit (fun _ a => match a with ABuild => Some XError | _ => None end).
Proof. split; [done|]. split; [done|]. split; [done|]. by intros ? [] ?. Qed.

(** *** C70: commands as they are shown *)
Lemma string_app_assoc (a b c : string) : (a +:+ b) +:+ c = a +:+ (b +:+ c).
Proof. induction a as [|x a IH]; [done|]. change (String x ((a +:+ b) +:+ c) = String x (a +:+ (b +:+ c))). by rewrite IH. Qed.
Lemma string_app_nil (a : string) : a +:+ "" = a.
Proof. induction a as [|x a IH]; [done|]. change (String x (a +:+ "") = String x a). by rewrite IH. Qed.

Lemma ordinary_plain a : ordinary a = true ->
  Ascii.eqb a " "%char = false /\ Ascii.eqb a "'"%char = false /\ Ascii.eqb a "\"%char = false.
Proof.
  intros H. repeat split; apply Ascii.eqb_neq; intros ->; discriminate H.
Qed.

Lemma words_plain t : forall cur rest, (forall a, In a (list_ascii_of_string t) -> ordinary a = true) ->
  words false (Some cur) (t +:+ rest) = words false (Some (cur +:+ t)) rest.
Proof.
  induction t as [|a t IH]; intros cur rest Hp; [by rewrite string_app_nil|].
  destruct (ordinary_plain a) as (H1 & H2 & H3); [apply Hp; by left|].
  change (String a t +:+ rest) with (String a (t +:+ rest)). cbn [words]. rewrite H1, H2, H3.
  unfold add. cbn [default from_option]. rewrite IH by (intros b Hb; apply Hp; by right).
  unfold id. by rewrite string_app_assoc.
Qed.
Lemma words_plain_first t rest : t <> "" -> (forall a, In a (list_ascii_of_string t) -> ordinary a = true) ->
  words false None (t +:+ rest) = words false (Some t) rest.
Proof.
  destruct t as [|a t]; [done|]. intros _ Hp.
  destruct (ordinary_plain a) as (H1 & H2 & H3); [apply Hp; by left|].
  change (String a t +:+ rest) with (String a (t +:+ rest)). cbn [words]. rewrite H1, H2, H3.
  change (add None a) with (Some (String a "")).
  rewrite words_plain by (intros b Hb; apply Hp; by right). done.
Qed.
Lemma words_quoted t : forall cur rest, (forall a, In a (list_ascii_of_string t) -> a <> "'"%char) ->
  words true (Some cur) (t +:+ "'" +:+ rest) = words false (Some (cur +:+ t)) rest.
Proof.
  induction t as [|a t IH]; intros cur rest Hp; [by rewrite string_app_nil|].
  change (String a t +:+ "'" +:+ rest) with (String a (t +:+ "'" +:+ rest)). cbn [words].
  assert (Ascii.eqb a "'"%char = false) as -> by (apply Ascii.eqb_neq, Hp; by left).
  unfold add. cbn [default from_option]. rewrite IH by (intros b Hb; apply Hp; by right).
  unfold id. by rewrite string_app_assoc.
Qed.
Lemma escape_plain t : (forall a, In a (list_ascii_of_string t) -> a <> "'"%char) -> escape_quotes t = t.
Proof.
  induction t as [|a t IH]; intros Hp; [done|]. cbn [escape_quotes].
  assert (Ascii.eqb a "'"%char = false) as -> by (apply Ascii.eqb_neq, Hp; by left).
  f_equal. apply IH. intros b Hb. apply Hp. by right.
Qed.

Lemma words_arg c rest : easy c -> words false None (show_arg c +:+ rest) = words false (Some c) rest.
Proof.
  intros [Hne Hc]. unfold show_arg. destruct (has_char " "%char c) eqn:E.
  - assert (forall a, In a (list_ascii_of_string c) -> a <> "'"%char) as Hq.
    { intros a Ha ->. by destruct (Hc _ Ha). }
    rewrite (escape_plain c Hq), !string_app_assoc.
    change ("'" +:+ c +:+ "'" +:+ rest) with (String "'"%char (c +:+ "'" +:+ rest)). cbn [words].
    change (words true (Some "") (c +:+ "'" +:+ rest) = words false (Some c) rest).
    by rewrite (words_quoted c "" rest Hq).
  - apply words_plain_first; [done|]. intros a Ha. destruct (Hc a Ha) as [? | ->]; [done|].
    exfalso. unfold has_char in E. rewrite <- not_true_iff_false in E. apply E, existsb_exists.
    by exists " "%char.
Qed.

Theorem C70_pasteable cmd : (forall c, c ∈ cmd -> easy c) -> pasteable cmd.
Proof.
  unfold pasteable, shell, cmd_string. induction cmd as [|c [|d cmd] IH]; intros He; [done| |].
  - cbn [fmap list_fmap String.concat]. rewrite <- (string_app_nil (show_arg c)), words_arg by (apply He; by left). done.
  - cbn [fmap list_fmap]. change (String.concat " " (show_arg c :: show_arg d :: (show_arg <$> cmd)))
      with (show_arg c +:+ " " +:+ String.concat " " (show_arg <$> d :: cmd)).
    rewrite words_arg by (apply He; by left).
    change (" " +:+ String.concat " " (show_arg <$> d :: cmd)) with (String " "%char (String.concat " " (show_arg <$> d :: cmd))).
    cbn [words]. rewrite IH by (intros e H; apply He; by right). done.
Qed.

(** An argument with a blank is shown between quotes, with a backslash before each quote in it. *)
Theorem C70_shown c : In " "%char (list_ascii_of_string c) ->
  list_ascii_of_string (show_arg c) =
    ["'"%char] ++ flat_map (fun a => if decide (a = "'"%char) then ["\"%char; "'"%char] else [a]) (list_ascii_of_string c) ++ ["'"%char].
Proof.
  intros H. unfold show_arg. assert (has_char " "%char c = true) as ->. { apply existsb_exists. by exists " "%char. }
  change ("'" +:+ escape_quotes c +:+ "'") with (String "'"%char (escape_quotes c +:+ "'")). cbn [list_ascii_of_string app]. f_equal.
  clear H. induction c as [|a c IH]; [done|]. cbn [escape_quotes list_ascii_of_string flat_map].
  destruct (Ascii.eqb_spec a "'"%char) as [->|Ha]; [rewrite decide_True by done|rewrite decide_False by done]; cbn; by rewrite <- IH.
Qed.
Example C70_shown_example : show_arg "it's mine" = "'it\'s mine'" /\ In " "%char (list_ascii_of_string "it's mine").
Proof. split; [done|]. cbn. tauto. Qed.

(** What was meant: any command can be pasted. *)
Definition paste_claim : Prop := forall cmd, pasteable cmd.
Theorem C70_refuted : ~ paste_claim.
Proof. intros H. by specialize (H ["cc"; "-DMSG='it''s mine'"]). Qed.
(** An empty argument is lost, a quote without a blank is opened, and a dollar sign (not in this
    shell) or a backslash is not kept. *)
Example C70_lost : shell (cmd_string ["touch"; ""; "a"]) = Some ["touch"; "a"] /\
  shell (cmd_string ["echo"; "it's"]) = None /\
  shell (cmd_string ["echo"; "a\b"]) = Some ["echo"; "ab"] /\
  shell (cmd_string ["echo"; "it's mine"]) = None.
Proof. by vm_compute. Qed.
Example C70_example :
  cmd_string ["gcc"; "-o"; "my prog"; "-I/usr/include"; "a.c"] = "gcc -o 'my prog' -I/usr/include a.c" /\
  easy "my prog" /\ pasteable ["gcc"; "-o"; "my prog"; "-I/usr/include"; "a.c"].
Proof.
  split; [done|]. split; [|done]. split; [done|]. intros a Ha. cbn in Ha.
  repeat destruct Ha as [<- | Ha]; try (by left); try (by right).
Qed.

Print Assumptions C68_outcome.
Print Assumptions C68_timer.
Print Assumptions C68_shown.
Print Assumptions C68_environment.
Print Assumptions C68_timely_refuted.
Print Assumptions C68_ignored_refuted.
Print Assumptions C69_stopped.
Print Assumptions C69_saved.
Print Assumptions C69_temporary.
Print Assumptions C69_status.
Print Assumptions C69_service_refuted.
Print Assumptions C70_pasteable.
Print Assumptions C70_refuted.
Print Assumptions C68_search.
Print Assumptions C70_shown.
