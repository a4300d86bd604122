(** C89: jars contain the classes the compiler says it wrote. *)
From Coq Require Import Ascii String List NArith Bool Arith Lia.
From Verif Require Import FnModel PathModel PathSpec PathFacts GccModel GccSpec GccFacts TryModel TrySpec TryFacts TryPlaces OwnSpec OwnPlaces JavaModel JavaSpec JavaFacts.
Import ListNotations.
Open Scope N_scope.
Open Scope string_scope.
Open Scope list_scope.
Definition text (s : string) : str := map N_of_ascii (list_ascii_of_string s).

(** A relative path names, in the directory it is relative to, the same file. *)
Theorem C89_relpath cwd p start : isabs cwd = true -> p <> [] ->
  exists r, relpath cwd p start = Some r /\ place (abspath cwd start) r = place cwd p.
Proof. intros H. apply relpath_place. exact H. Qed.
(** A file below the directory is named by what follows the directory, without special names. *)
Theorem C89_entries cwd p start ns : isabs cwd = true -> p <> [] -> place cwd p = place cwd start ++ ns -> ns <> [] ->
  relpath cwd p start = Some (joined ns) /\ Forall good_name ns.
Proof.
  intros H Hp E Hne. split; [apply relpath_below; assumption|]. pose proof (place_good cwd p) as G. rewrite E in G.
  apply Forall_app in G. apply G.
Qed.

(** *** jar is given the destination and the sources. *)
(** [n] names in [dir] what [p] names in [cwd]. *)
Definition same_file (cwd dir : str) (n p : str) : Prop := place (abspath cwd dir) n = place cwd p.
(** What jar is told: to create the destination, with the manifest, of the sources in order. *)
Definition jar_told (cwd dir dst : str) (manifest : option str) (srcs args : list str) : Prop :=
  exists d names, same_file cwd dir d dst /\ Forall2 (same_file cwd dir) names srcs /\
    match manifest with
    | None => args = text "cf" :: d :: names
    | Some m => exists m', same_file cwd dir m' m /\ args = text "cmf" :: m' :: d :: names
    end.

Lemma rels_place cwd dir : isabs cwd = true -> forall srcs, (forall s, In s srcs -> s <> []) ->
  exists names, all_some (map (fun s => relpath cwd s dir) srcs) = Some names /\ Forall2 (same_file cwd dir) names srcs.
Proof.
  intros Hc. induction srcs as [|s srcs IH]; intros H; [exists []; split; [reflexivity|constructor]|].
  destruct (relpath_place cwd Hc s dir (H s (or_introl eq_refl))) as (r & E & P). destruct IH as (ns & E' & P'); [intros x Hx; apply H; right; exact Hx|].
  exists (r :: ns). cbn [map all_some]. rewrite E, E'. split; [reflexivity|]. constructor; assumption.
Qed.
Lemma addroot_ne p root : root <> [] -> addroot p root <> [].
Proof.
  intros H. unfold addroot. destruct (startswith p root) eqn:E; cbn [negb].
  - rewrite path_new_one. destruct (startswith_true _ _ E) as [q ->]. destruct root; [contradiction|discriminate].
  - rewrite path_new_two. unfold pjoin. set (q := if isabs p then snd (psplit p) else p). destruct q as [|c q].
    + cbn. destruct root; [contradiction|]. destruct (ends_sep (c :: root)); discriminate.
    + destruct (isabs (c :: q)); [discriminate|]. destruct root as [|d root]; [contradiction|]. destruct (ends_sep (d :: root)); discriminate.
Qed.
Lemma or_ne a b : b <> [] -> or_ a b <> [].
Proof. intros H. destruct a as [[|c a]|]; try exact H. discriminate. Qed.
Theorem C89_jar cwd root dst srcs manifest dir buildroot :
  isabs cwd = true -> root <> [] -> srcs <> [] -> (forall s, In s srcs -> s <> []) -> manifest <> Some [] ->
  exists args, jar_create cwd root dst srcs manifest dir buildroot =
      JarRun args (or_ dir (or_ buildroot root)) (addroot dst (or_ buildroot root)) /\
    jar_told cwd (or_ dir (or_ buildroot root)) (addroot dst (or_ buildroot root)) manifest srcs args.
Proof.
  intros Hc Hr Hs Hne Hm. unfold jar_create. set (root' := or_ buildroot root). set (dir' := or_ dir root').
  destruct srcs as [|s0 srcs0]; [contradiction|]. set (srcs := s0 :: srcs0) in *.
  destruct (rels_place cwd dir' Hc srcs Hne) as (names & En & Pn).
  destruct (relpath_place cwd Hc (addroot dst root') dir') as (d & Ed & Pd); [apply addroot_ne, or_ne; exact Hr|].
  rewrite En, Ed. destruct manifest as [m|].
  - destruct (relpath_place cwd Hc m dir') as (m' & Em & Pm); [intros ->; apply Hm; reflexivity|]. rewrite Em.
    eexists. split; [reflexivity|]. exists d, names. split; [exact Pd|]. split; [exact Pn|]. exists m'. split; [exact Pm|reflexivity].
  - eexists. split; [reflexivity|]. exists d, names. split; [exact Pd|]. split; [exact Pn|reflexivity].
Qed.

(** *** The classes *)
(** The files found in the output are those reported, in order. *)
Theorem C89_found ls ps : log ls ps -> found (output ls) = ps.
Proof. apply found_log. Qed.
Lemma reports_ne l p : reports l p -> p <> [].
Proof. destruct 1 as [? ? (H & _)|? ? (H & _)|? ? ? ? ? ? (H & _)]; exact H. Qed.
Lemma logs_objects err ss ps : logs err ss ps -> build_objects err ss = Some ps /\ forall p, In p ps -> p <> [].
Proof.
  unfold build_objects. induction 1 as [|s ls ps ss qs E H _ (IH & Hn)]; [split; [reflexivity|intros p []]|]. cbn [map all_some]. rewrite E.
  destruct (all_some (map err ss)) as [os|]; [|discriminate]. cbn [option_map] in *. injection IH as IH. cbn [map concat]. rewrite IH, (found_log _ _ H).
  split; [reflexivity|]. intros p Hp. apply in_app_or in Hp as [Hp|Hp]; [|exact (Hn p Hp)].
  clear -H Hp. induction H as [|l q ls ps Hr _ IH|l ls ps _ _ _ IH]; [destruct Hp| |exact (IH Hp)].
  destruct Hp as [<-|Hp]; [exact (reports_ne _ _ Hr)|exact (IH Hp)].
Qed.
(** The jar is made of the files reported for all sources, in the order of the sources. *)
Theorem C89_lib err cwd root dst srcs ps manifest dir buildroot :
  isabs cwd = true -> root <> [] -> logs err srcs ps -> ps <> [] -> manifest <> Some [] ->
  exists args, build_lib err cwd root dst srcs [] manifest dir buildroot =
      LibJar (JarRun args (or_ dir (or_ buildroot root)) (addroot dst (or_ buildroot root))) /\
    jar_told cwd (or_ dir (or_ buildroot root)) (addroot dst (or_ buildroot root)) manifest ps args.
Proof.
  intros Hc Hr Hl Hp Hm. destruct (logs_objects _ _ _ Hl) as [E Hn]. unfold build_lib. rewrite E.
  destruct (C89_jar cwd root dst ps manifest dir buildroot Hc Hr Hp Hn Hm) as (args & Ej & Ht). exists args. rewrite Ej. split; [reflexivity|exact Ht].
Qed.
Theorem C89_fails err cwd root dst srcs s manifest dir buildroot : In s srcs -> err s = None ->
  build_lib err cwd root dst srcs [] manifest dir buildroot = LibFailed.
Proof.
  intros Hs He. unfold build_lib, build_objects. assert (all_some (map err srcs) = None) as ->; [|reflexivity].
  induction srcs as [|x srcs IH]; [destruct Hs|]. cbn. destruct Hs as [->|Hs]; [rewrite He; reflexivity|].
  rewrite (IH Hs). destruct (err x); reflexivity.
Qed.
(** The directory for the classes is the one asked for, if it is in the build root. *)
Theorem C89_dir root src dst : javac_dir root src dst None = class_dir root src dst None.
Proof.
  unfold javac_dir, class_dir. cbn [or_]. apply addroot_idem.
Qed.
(** It is the destination in the build root or, if there is none, the directory of the source there. *)
Lemma joined_snoc ns n : Forall good_name (ns ++ [n]) -> joined (ns ++ [n]) = (match ns with [] => [] | _ => joined ns ++ [c_sep] end) ++ n.
Proof.
  induction ns as [|m ns IH]; intros H; [reflexivity|]. cbn [app] in *. inversion H as [|? ? Hm H']; subst. rewrite joined_cons by (destruct ns; discriminate). rewrite (IH H').
  destruct ns as [|k ns]; [cbn; rewrite <- app_assoc; reflexivity|]. rewrite (joined_cons m (k :: ns)) by discriminate. rewrite <- !app_assoc. reflexivity.
Qed.
Lemma joined_end ns : Forall good_name ns -> ns <> [] -> exists d c, joined ns = d ++ [c] /\ c <> c_sep.
Proof.
  intros H Hne. destruct (exists_last Hne) as (ms & n & ->). rewrite (joined_snoc ms n H). apply Forall_app in H as [_ H]. inversion H as [|? ? (H1 & H2 & _) _]; subst.
  destruct (exists_last H1) as (n' & c & ->). eexists (_ ++ n'), c. rewrite app_assoc. split; [reflexivity|]. intros ->. apply H2, in_or_app. right. left. reflexivity.
Qed.
Lemma parent_joined ns n : Forall good_name (ns ++ [n]) -> fst (psplit (joined (ns ++ [n]))) = joined ns.
Proof.
  intros H. symmetry. apply directory_iff. rewrite (joined_snoc ns n H). apply Forall_app in H as [Hns Hn]. inversion Hn as [|? ? (_ & Hn' & _) _]; subst.
  destruct ns as [|m ns].
  - exists [], n. split; [reflexivity|]. split; [exact Hn'|]. split; [left; reflexivity|]. left. split; [intros c []|reflexivity].
  - exists (joined (m :: ns) ++ [c_sep]), n. split; [reflexivity|]. split; [exact Hn'|]. split; [right; exists (joined (m :: ns)); reflexivity|]. right.
    split; [exists 1%nat; reflexivity|]. destruct (joined_end (m :: ns) Hns ltac:(discriminate)) as (d & c & E & Hc). exists d, c. auto.
Qed.
Theorem C89_classes cwd root src : isabs cwd = true -> root <> [] ->
  (forall d ds, relative d ds -> no_prefix root d -> place cwd (javac_dir root src (Some d) None) = place cwd root ++ ds) /\
  (forall dst ns n, dst = None \/ dst = Some [] -> relative src (ns ++ [n]) -> no_prefix root (joined ns) ->
     place cwd (javac_dir root src dst None) = place cwd root ++ ns).
Proof.
  intros Hc Hr. assert (forall ns, Forall good_name ns -> no_prefix root (joined ns) -> place cwd (addroot (joined ns) root) = place cwd root ++ ns) as A.
  { intros ns Hg Hn. unfold addroot. rewrite (starts_no _ _ Hn), (joined_rel _ Hg), path_new_two. cbn [negb]. destruct ns as [|m ns].
    - rewrite app_nil_r. unfold pjoin. cbn [joined isabs]. destruct root as [|c r]; [contradiction|]. destruct (ends_sep (c :: r)).
      + rewrite app_nil_r. reflexivity.
      + apply (place_seps cwd (c :: r) [c_sep]); [discriminate|reflexivity].
    - apply (place_joined cwd Hc root (m :: ns) Hg). discriminate. }
  split.
  - intros d ds (Hne & Hg & ->) Hn. rewrite C89_dir. unfold class_dir. assert (or_ (Some (joined ds)) (fst (psplit src)) = joined ds) as ->.
    { destruct (joined_end ds Hg Hne) as (x & c & -> & _). destruct x; reflexivity. }
    apply A; assumption.
  - intros dst ns n Hd (Hne & Hg & ->) Hn. rewrite C89_dir. unfold class_dir. assert (or_ dst (fst (psplit (joined (ns ++ [n])))) = fst (psplit (joined (ns ++ [n])))) as ->.
    { destruct Hd as [->| ->]; reflexivity. }
    cbn [or_]. rewrite (parent_joined ns n Hg). apply Forall_app in Hg as [Hg _]. apply A; assumption.
Qed.
Example C89_example_classes : place (text "/w") (javac_dir (text "build") (text "src/p/A.java") None None) = map text ["w"; "build"; "src"; "p"].
Proof.
  destruct (C89_classes (text "/w") (text "build") (text "src/p/A.java")) as [_ H]; [reflexivity|discriminate|].
  etransitivity; [apply (H None [text "src"; text "p"] (text "A.java"))|reflexivity].
  - left. reflexivity.
  - split; [discriminate|]. split; [|reflexivity]. repeat constructor; try discriminate; intros K; cbn in K; repeat (destruct K as [K|K]; [discriminate|]); destruct K.
  - intros q E. discriminate E.
Qed.

(** *** What the compiler is told *)
Definition has_pair (a b : str) (l : list str) : Prop := exists pre post, l = pre ++ a :: b :: post.
(** [x] comes before all of [y]. *)
Definition ends_with (l y : list str) : Prop := exists pre, l = pre ++ y.
Lemma flat_pair w c l : In c l -> has_pair w c (flat_map (fun c => [w; c]) l).
Proof.
  induction l as [|x l IH]; intros H; [destruct H|]. destruct H as [->|H].
  - exists [], (flat_map (fun c => [w; c]) l). reflexivity.
  - destruct (IH H) as (pre & post & E). exists (w :: x :: pre), post. cbn. rewrite E. reflexivity.
Qed.
Lemma pair_in a b pre l post : has_pair a b l -> has_pair a b (pre ++ l ++ post).
Proof. intros (x & y & ->). exists (pre ++ x), (y ++ post). rewrite <- !app_assoc. reflexivity. Qed.
Theorem C89_told v root src dst buildroot classpaths sourcepaths debug target flags :
  let a := java_compile v root src dst buildroot classpaths sourcepaths debug target flags in
  (exists post, a = (text "-d") :: javac_dir root src dst buildroot :: post) /\
  (forall c, In c (v_classpaths v) \/ In c classpaths -> has_pair (text "-cp") c a) /\
  (forall c, In c (v_sourcepaths v) \/ In c sourcepaths -> has_pair (text "-sourcepath") c a) /\
  (match target, v_target v with
   | Some t, _ | None, Some t => In (text "-target:" ++ t) a
   | None, None => True
   end) /\
  (debug = Some true \/ (debug = None /\ v_debug v = true) -> forall f, In f (v_debug_flags v) -> In f a) /\
  (debug = Some false \/ (debug = None /\ v_debug v = false) -> forall fs,
     java_compile (Javac (v_classpaths v) (v_sourcepaths v) (v_debug v) fs (v_target v) (v_flags v)) root src dst buildroot classpaths sourcepaths debug target flags = a) /\
  ends_with a (v_flags v ++ text "-verbose" :: flags ++ [src]).
Proof.
  cbv zeta. unfold java_compile, javac_args.
  set (dbg := if wanted (Some (v_debug v)) debug then v_debug_flags v else []).
  set (tg := match (match target with None => v_target v | _ => target end) with Some t => [w_target ++ t] | None => [] end).
  set (cps := flat_map (fun c => [w_cp; c]) (v_classpaths v ++ classpaths)).
  set (sps := flat_map (fun c => [w_sourcepath; c]) (v_sourcepaths v ++ sourcepaths)).
  repeat split.
  - eexists. reflexivity.
  - intros c Hc. assert (has_pair w_cp c cps) as H by (apply flat_pair, in_or_app; exact Hc).
    apply (pair_in _ _ ([w_d; javac_dir root src dst buildroot] ++ dbg ++ tg) cps (sps ++ v_flags v ++ (w_verbose :: flags) ++ [src])) in H.
    rewrite <- !app_assoc in H. exact H.
  - intros c Hc. assert (has_pair w_sourcepath c sps) as H by (apply flat_pair, in_or_app; exact Hc).
    apply (pair_in _ _ ([w_d; javac_dir root src dst buildroot] ++ dbg ++ tg ++ cps) sps (v_flags v ++ (w_verbose :: flags) ++ [src])) in H.
    rewrite <- !app_assoc in H. exact H.
  - unfold tg. destruct target as [t|]; [|destruct (v_target v) as [t|]; [|exact I]];
      (apply in_or_app; right; apply in_or_app; right; apply in_or_app; left; left; reflexivity).
  - intros Hd f Hf. apply in_or_app. right. apply in_or_app. left. unfold dbg.
    destruct Hd as [->|[-> E]]; unfold wanted; cbn; [|rewrite E]; cbn; rewrite ?orb_true_r; exact Hf.
  - intros Hd f. unfold dbg. cbn [v_debug v_debug_flags v_classpaths v_sourcepaths v_target v_flags].
    destruct Hd as [->|[-> E]]; unfold wanted; cbn; [|rewrite E]; reflexivity.
  - exists ([w_d; javac_dir root src dst buildroot] ++ dbg ++ tg ++ cps ++ sps). rewrite <- !app_assoc. reflexivity.
Qed.

(** *** Scripts *)
Theorem C89_script root src : startswith src root = true -> saved (fst (scala_call root src None)) = snd (scala_call root src None).
Proof. intros H. unfold scala_call. cbn [fst snd or_]. unfold addroot. rewrite H. cbn [negb]. rewrite path_new_one. reflexivity. Qed.

(** *** Examples and what does not hold *)
Ltac notin := let K := fresh in intros K; cbn in K; repeat (destruct K as [K|K]; [discriminate|]); destruct K.
Ltac notbeg := let r := fresh in let E := fresh in intros [r E]; discriminate E.
Definition log_1 : list str := map text ["[parsing started Foo.java]"; "[wrote RegularFileObject[build/p/Foo.class]]"; "Note: unchecked."; "[wrote build/p/Foo$1.class]"].
Definition log_2 : list str := map text ["[wrote 'p/Bar' to build/p/Bar.class]"; "[total 100ms]"].
Lemma log_1_ok : log log_1 (map text ["build/p/Foo.class"; "build/p/Foo$1.class"]).
Proof.
  apply Log_other; [notbeg|notin|]. apply Log_report.
  - apply (Reports_regular (text "build/p/Foo.class") [93]); [repeat split; [discriminate|notin|notin]|notbeg|notin].
  - apply Log_other; [notbeg|notin|]. apply Log_report; [|apply Log_end].
    apply (Reports_plain (text "build/p/Foo$1.class") []); [repeat split; [discriminate|notin|notin]|notbeg|notbeg|notin].
Qed.
Lemma log_2_ok : log log_2 (map text ["build/p/Bar.class"]).
Proof.
  apply Log_report.
  - apply (Reports_class (text "p/Bar") (text "build/p/Bar.class") []); [discriminate|notin|notin|repeat split; [discriminate|notin|notin]|notin].
  - apply Log_other; [notbeg|notin|]. apply Log_end.
Qed.
Definition errs (s : str) : option str :=
  if str_eqb s (text "p/Foo.java") then Some (output log_1) else if str_eqb s (text "p/Bar.java") then Some (output log_2) else None.
Lemma errs_ok : logs errs (map text ["p/Foo.java"; "p/Bar.java"]) (map text ["build/p/Foo.class"; "build/p/Foo$1.class"; "build/p/Bar.class"]).
Proof.
  apply (Logs_next errs (text "p/Foo.java") log_1 (map text ["build/p/Foo.class"; "build/p/Foo$1.class"])); [reflexivity|apply log_1_ok|].
  apply (Logs_next errs (text "p/Bar.java") log_2 (map text ["build/p/Bar.class"]) [] []); [reflexivity|apply log_2_ok|apply Logs_end].
Qed.
Example C89_example :
  build_lib errs (text "/w") (text "build") (text "lib.jar") (map text ["p/Foo.java"; "p/Bar.java"]) [] (Some (text "etc/m.mf")) None None =
  LibJar (JarRun (map text ["cmf"; "../etc/m.mf"; "lib.jar"; "p/Foo.class"; "p/Foo$1.class"; "p/Bar.class"]) (text "build") (text "build/lib.jar")).
Proof. vm_compute. reflexivity. Qed.

(** Not if the name of a class contains a bracket: it is cut off. *)
Definition any_name_found : Prop := forall p, p <> [] -> ~ In 10 p -> ~ begins p t_regular -> ~ begins p [39] -> found (output [t_wrote ++ p ++ [93]]) = [p].
Theorem C89_bracket_refuted : ~ any_name_found.
Proof. intros H. specialize (H (text "build/a]b/Foo.class") ltac:(discriminate) ltac:(notin) ltac:(notbeg) ltac:(notbeg)). vm_compute in H. discriminate. Qed.
(** A build root that is given is not that of the compiler: the classes are put elsewhere. *)
Definition where_asked : Prop := forall root src dst buildroot, javac_dir root src dst buildroot = class_dir root src dst buildroot.
Theorem C89_buildroot_refuted : ~ where_asked.
Proof. intros H. specialize (H (text "build") (text "p/Foo.java") None (Some (text "other"))). vm_compute in H. discriminate. Qed.
(** No further positional arguments can be given, although build_lib takes them. *)
Definition args_passed_on : Prop := forall err cwd root dst srcs args ps, logs err srcs ps ->
  build_lib err cwd root dst srcs args None None None <> LibType.
Theorem C89_args_refuted : ~ args_passed_on.
Proof. intros H. exact (H errs (text "/w") (text "build") (text "lib.jar") _ [text "x"] _ errs_ok eq_refl). Qed.
(** Sources without classes, such as package-info.java, make no empty jar but an AssertionError. *)
Definition always_jar : Prop := forall err cwd root dst srcs ps, isabs cwd = true -> root <> [] -> srcs <> [] -> logs err srcs ps ->
  exists args dir d, build_lib err cwd root dst srcs [] None None None = LibJar (JarRun args dir d).
Theorem C89_empty_refuted : ~ always_jar.
Proof.
  intros H. destruct (H (fun _ => Some []) (text "/w") (text "build") (text "lib.jar") [text "package-info.java"] [] eq_refl ltac:(discriminate) ltac:(discriminate)) as (a & d & x & E).
  - apply (Logs_next _ _ [] [] [] []); [reflexivity|apply Log_end|apply Logs_end].
  - vm_compute in E. discriminate.
Qed.
(** The path returned for a script outside the build root is not that of the jar: it is beside the
    script, whereas the jar is beside the copy in the build root. *)
Definition script_jar : Prop := forall root src, saved (fst (scala_call root src None)) = snd (scala_call root src None).
Theorem C89_script_refuted : ~ script_jar.
Proof. intros H. specialize (H (text "build") (text "p/run.scala")). vm_compute in H. discriminate. Qed.

Print Assumptions C89_relpath.
Print Assumptions C89_entries.
Print Assumptions C89_jar.
Print Assumptions C89_found.
Print Assumptions C89_lib.
Print Assumptions C89_fails.
Print Assumptions C89_dir.
Print Assumptions C89_classes.
Print Assumptions C89_told.
Print Assumptions C89_script.
Print Assumptions C89_bracket_refuted.
Print Assumptions C89_buildroot_refuted.
Print Assumptions C89_args_refuted.
Print Assumptions C89_empty_refuted.
Print Assumptions C89_script_refuted.
