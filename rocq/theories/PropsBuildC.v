(** C78: what compiling and linking make, and that libraries made so are found again. *)
From Coq Require Import Ascii String List NArith Bool Arith Sorted.
From Verif Require Import FnModel PathModel PathSpec PathFacts LinkModel LinkSpec LinkFacts PropsLink GccModel GccSpec GccFacts PropsGcc.
Import ListNotations.
Open Scope N_scope.
Open Scope string_scope.
Open Scope list_scope.

(** How a linker looks for -lNAME: in each directory for libNAME.so, then for libNAME.a. *)
Definition s_lib : str := [108; 105; 98].        (* lib *)
Definition s_so : str := [46; 115; 111].         (* .so *)
Definition s_a : str := [46; 97].                (* .a *)
Fixpoint find_lib (exists_ : str -> bool) (dirs : list str) (n : str) : option str :=
  match dirs with
  | [] => None
  | d :: ds =>
      if exists_ (pjoin d (s_lib ++ n ++ s_so)) then Some (pjoin d (s_lib ++ n ++ s_so))
      else if exists_ (pjoin d (s_lib ++ n ++ s_a)) then Some (pjoin d (s_lib ++ n ++ s_a))
      else find_lib exists_ ds n
  end.

(** *** Names of products *)
Lemma join_last D x : ~ In c_sep x ->
  fst (psplit (pjoin (fst (psplit D)) x)) = fst (psplit D) /\ is_last_name (pjoin (fst (psplit D)) x) x.
Proof.
  intros Hx. destruct (cut D) as [h t] eqn:E. destruct (cut_spec D h t E) as (ED & Ht & Hh).
  assert (cut h = (h, [])) as Eh by (rewrite <- (app_nil_r h) at 1; apply cut_app; [exact Hh|tauto]).
  assert (fst (psplit D) = fst (psplit h)) as Ep.
  { unfold psplit. rewrite E, Eh. destruct (forallb is_sep h); reflexivity. }
  assert (addprefix h x = pjoin (fst (psplit D)) x) as Ea.
  { unfold addprefix. rewrite Ep. unfold psplit. rewrite Eh.
    destruct (forallb is_sep h); cbn [fst]; rewrite app_nil_r, path_new_two; reflexivity. }
  destruct (addprefix_last h x [] Hx) as [H1 H2].
  - apply last_name_cut. rewrite Eh. reflexivity.
  - rewrite Ea, app_nil_r in *. rewrite <- Ep in H1. auto.
Qed.
Lemma last_nosep p : ~ In c_sep (snd (psplit p)).
Proof. rewrite psplit_snd. destruct (cut p) as [h t] eqn:E. destruct (cut_spec p h t E) as (_ & Ht & _). exact Ht. Qed.
Lemma pjoin_app a b c : isabs b = false -> isabs (b ++ c) = false -> pjoin a b ++ c = pjoin a (b ++ c).
Proof.
  intros H1 H2. unfold pjoin. rewrite H1, H2. destruct a as [|x a]; [reflexivity|].
  destruct (ends_sep (x :: a)); [rewrite <- app_assoc; reflexivity|]. simpl. rewrite <- app_assoc. reflexivity.
Qed.
Lemma nosep_rel x : ~ In c_sep x -> isabs x = false.
Proof. destruct x as [|c x]; [reflexivity|]. intros H. apply is_sep_false. intros ->. apply H. left. reflexivity. Qed.

(** Prefix and suffix go around the last name; the directory is that of the path in the build root. *)
Theorem C78_product root prefix suffix dst d n :
  ~ In c_sep prefix -> ~ In c_sep suffix ->
  directory (addroot dst root) d -> is_last_name (addroot dst root) n ->
  product root prefix suffix dst = pjoin d (prefix ++ n ++ suffix) /\
  directory (product root prefix suffix dst) d /\ is_last_name (product root prefix suffix dst) (prefix ++ n ++ suffix).
Proof.
  intros Hp Hs Hd Hn. apply directory_iff in Hd as ->. apply last_name_cut in Hn. rewrite <- psplit_snd in Hn. subst n.
  assert (~ In c_sep (prefix ++ snd (psplit (addroot dst root)) ++ suffix)) as Hx.
  { intros K. apply in_app_or in K as [K|K]; [contradiction|]. apply in_app_or in K as [K|K]; [|contradiction].
    exact (last_nosep _ K). }
  assert (product root prefix suffix dst = pjoin (fst (psplit (addroot dst root))) (prefix ++ snd (psplit (addroot dst root)) ++ suffix)) as E.
  { unfold product. apply pjoin_app; apply nosep_rel; [exact Hp|exact Hx]. }
  rewrite E. destruct (join_last (addroot dst root) _ Hx) as [H1 H2]. split; [reflexivity|]. split; [|exact H2].
  apply directory_iff. symmetry. exact H1.
Qed.

(** *** Compiling *)
(** The flags are options, and the words asking for the dependency file do not occur in them. *)
Record flags_ok (g : gcc) (o : options) (dep : str) (gs1 gs2 : list (list str)) : Prop := FlagsOk {
  fo_self : o_flags (g_self g) = concat gs1;
  fo_call : o_flags o = concat gs2;
  fo_options : Forall (fun x => single_option x \/ double_option x) (gs1 ++ gs2);
  fo_once : forall x w, In x (gs1 ++ gs2) -> double_option x -> In w x -> once w (concat (gs1 ++ gs2)) /\ w <> w_MMD;
  fo_MF : ~ In w_MF (concat (gs1 ++ gs2));
  fo_dep : ~ In dep (concat (gs1 ++ gs2)) /\ dep <> w_MF /\ dep <> w_MMD
}.
Lemma once_insert w (a b m : list str) : once w (a ++ b) -> ~ In w m -> once w (a ++ m ++ b).
Proof.
  intros (x & y & E & Hx & Hy) Hm. revert x E Hx. induction a as [|c a IH]; intros x E Hx; simpl in *.
  - exists (m ++ x), y. split; [rewrite <- app_assoc; f_equal; exact E|]. split; [|exact Hy].
    intros K. apply in_app_or in K as [K|K]; contradiction.
  - destruct x as [|z x]; simpl in E; injection E as E1 E2.
    + subst c. exists [], (a ++ m ++ b). split; [reflexivity|]. split; [tauto|].
      intros K. apply in_app_or in K as [K|K]; [apply Hy; rewrite <- E2; apply in_or_app; left; exact K|].
      apply in_app_or in K as [K|K]; [contradiction|]. apply Hy. rewrite <- E2. apply in_or_app. right. exact K.
    + destruct (IH x E2 (fun K => Hx (or_intror K))) as (x' & y' & E' & Hx' & Hy').
      exists (c :: x'), y'. simpl. rewrite E'. split; [reflexivity|]. split; [|exact Hy'].
      intros [K|K]; [apply Hx; left; congruence|contradiction].
Qed.
Lemma once_middle w (a b x y : list str) : ~ In w (a ++ b) -> ~ In w x -> ~ In w y -> once w (a ++ (x ++ w :: y) ++ b).
Proof.
  intros Hab Hx Hy. exists (a ++ x), (y ++ b). split; [rewrite <- !app_assoc; reflexivity|].
  rewrite in_app_iff in Hab. rewrite !in_app_iff. tauto.
Qed.

(** Options for the linker do not matter if there is -c. *)
Definition no_ld (o : options) : options :=
  Options (o_pre_flags o) (o_flags o) (o_includes o) (o_macros o) (o_warnings o) (o_libpaths o) (o_libs o) []
    (o_externals o) (o_debug o) (o_profile o) (o_optimize o) (o_arch o) (o_machine o).
Definition gcc_no_ld (g : gcc) : gcc := Gcc (g_exe g) (no_ld (g_self g)) (g_debug_flags g) (g_profile_flags g) (g_optimize_flags g).
Lemma compile_no_ld g srcs dst o dirs : In w_c (o_pre_flags o) ->
  gcc_args (gcc_no_ld g) srcs dst (no_ld o) dirs = gcc_args g srcs dst o dirs.
Proof.
  intros H. unfold gcc_args. cbn [gcc_no_ld no_ld g_self g_exe o_includes o_macros o_warnings o_machine o_pre_flags o_flags
    o_libpaths o_libs o_ldlibs o_externals o_debug o_profile o_optimize o_arch g_debug_flags g_profile_flags g_optimize_flags].
  set (r := link _ _ _ _ _ _). set (cmd := o_pre_flags (g_self g) ++ _).
  assert (mem w_c (g_exe g :: cmd) = true) as ->; [|reflexivity].
  apply mem_ok. right. unfold cmd. apply in_or_app. right. apply in_or_app. left. exact H.
Qed.
Lemma options_items gs : Forall (fun x => single_option x \/ double_option x) gs -> exists its, items (concat gs) = Some its.
Proof.
  induction 1 as [|x gs Hx _ (its & IH)]; [exists []; reflexivity|].
  destruct Hx as [(w & i & -> & Ew)|(w & a & k & -> & Ew)].
  - exists (i :: its). simpl. rewrite Ew, IH. reflexivity.
  - exists (k a :: its). simpl. rewrite Ew, IH. reflexivity.
Qed.
Lemma inputs_none l : inputs l = [] <-> forall f, ~ In (Input f) l.
Proof.
  unfold inputs. split.
  - intros E f H. apply (in_nil (a := f)). rewrite <- E. apply in_flat_map. exists (Input f). split; [exact H|left; reflexivity].
  - intros H. induction l as [|i l IH]; [reflexivity|]. simpl. rewrite IH by (intros f K; apply (H f); right; exact K).
    destruct i; try reflexivity. destruct (H f). left. reflexivity.
Qed.
Lemma outputs_none l : outputs l = [] <-> forall f, ~ In (Output f) l.
Proof.
  unfold outputs. split.
  - intros E f H. apply (in_nil (a := f)). rewrite <- E. apply in_flat_map. exists (Output f). split; [exact H|left; reflexivity].
  - intros H. induction l as [|i l IH]; [reflexivity|]. simpl. rewrite IH by (intros f K; apply (H f); right; exact K).
    destruct i; try reflexivity. destruct (H f). left. reflexivity.
Qed.

Lemma some_inj (a b : list item) : Some a = Some b -> a = b.
Proof. congruence. Qed.

(** The include directories, macros, warnings and machine options of the builder and of the call are told. *)
Definition options_told (g : gcc) (o : options) (dirs : bool) (src : str) (l : list item) : Prop :=
  (forall d, d <> [] -> In d (o_includes (g_self g)) \/ In d (o_includes o) \/ dirs = true /\ directory src d -> In (Include d) l) /\
  (forall m, In m (o_macros (g_self g)) \/ In m (o_macros o) -> In (Macro m) l) /\
  (forall w, In w (o_warnings (g_self g)) \/ In w (o_warnings o) -> In (Warning w) l) /\
  (forall m, m <> [] -> In m (o_machine (g_self g)) \/ In m (o_machine o) -> In (Machine m) l).
(** The compiler is told to compile the one source, to write the object to the path that is returned, and
    to write the dependency file; no libraries are mentioned but in flags. *)
Theorem C78_compile g flags suffix root dep src dst o dirs gs1 gs2 P F :
  let o' := set_pre (add_flags o [w_MMD; w_MF; dep]) (w_c :: flags) in
  let made := compile g flags suffix root dep src dst o dirs in
  well_formed g [src] (Some (snd made)) o' -> flags_ok g o dep gs1 gs2 ->
  items (leading g o') = Some P -> items (concat gs1 ++ concat gs2) = Some F ->
  (forall i, In i (P ++ F) -> argument i <> w_c) -> dep <> w_c ->
  names_no_file P -> names_no_file F ->
  snd made = replaceext (addroot (match dst with Some (c :: d) => c :: d | _ => src end) root) suffix /\
  exists l, items (fst made) = Some l /\
    compile_only l /\ inputs l = [src] /\ outputs l = [snd made] /\ In (Single w_MMD) l /\ In (Double w_MF dep) l /\
    (forall i, In i F -> In i l) /\ (forall n, In (Lib n) l -> In (Lib n) (P ++ F)) /\
    options_told g o dirs src l.
Proof.
  intros o' made W [S1 S2 Sopt Sonce SMF (Sd1 & Sd2 & Sd3)] HP HF Hc Hdep [P1 P2] [F1 F2]. split; [reflexivity|].
  set (gs := gs1 ++ [[w_MMD]; [w_MF; dep]] ++ gs2).
  assert (concat gs = concat gs1 ++ [w_MMD; w_MF; dep] ++ concat gs2) as Egs.
  { unfold gs. rewrite !concat_app. reflexivity. }
  assert (Forall (fun x => single_option x \/ double_option x) gs) as Hopt.
  { unfold gs. rewrite !Forall_app in *. destruct Sopt as [? ?]. split; [assumption|]. split; [|assumption].
    apply Forall_cons; [left; exists w_MMD, (Single w_MMD); split; reflexivity|].
    apply Forall_cons; [right; exists w_MF, dep, (Double w_MF); split; reflexivity|]. apply Forall_nil. }
  assert (forall x w, In x gs -> double_option x -> In w x -> once w (concat gs)) as Honce.
  { intros x w Hx Dx Hw. rewrite Egs. rewrite concat_app in *.
    assert (In x (gs1 ++ gs2) \/ x = [w_MMD] \/ x = [w_MF; dep]) as [K|[-> | ->]].
    { unfold gs in Hx. rewrite !in_app_iff in *. simpl in Hx. intuition congruence. }
    - destruct (Sonce x w K Dx Hw) as [Ho Hm]. apply once_insert; [exact Ho|].
      destruct Ho as (a & b & E & _). intros [E'|[E'|[E'|[]]]]; subst w; try congruence.
      + apply SMF. rewrite E. apply in_or_app. right. left. reflexivity.
      + apply Sd1. rewrite E. apply in_or_app. right. left. reflexivity.
    - destruct Dx as (? & ? & ? & K & _). discriminate.
    - destruct Hw as [<-|[<-|[]]].
      + apply (once_middle w_MF (concat gs1) (concat gs2) [w_MMD] [dep] SMF); simpl; intuition discriminate.
      + apply (once_middle dep (concat gs1) (concat gs2) [w_MMD; w_MF] [] Sd1); simpl; intuition congruence. }
  destruct (C77_flags gs Hopt Honce) as (its & F' & Ei & EF & Hsub & Hall).
  apply Forall_app in Sopt as [So1 So2].
  destruct (options_items gs1 So1) as (i1 & E1), (options_items gs2 So2) as (i2 & E2).
  assert (its = i1 ++ [Single w_MMD; Double w_MF dep] ++ i2) as Eits.
  { pose proof (items_cat _ _ _ _ E1 (items_cat [w_MMD; w_MF; dep] (concat gs2) [Single w_MMD; Double w_MF dep] i2 eq_refl E2)) as K.
    rewrite <- Egs in K. congruence. }
  assert (F = i1 ++ i2) as EF0 by (pose proof (items_cat _ _ _ _ E1 E2) as K; congruence).
  assert (forall i, In i F' -> In i F \/ i = Single w_MMD \/ i = Double w_MF dep) as HF'.
  { intros i Hi. apply (subsequence_in _ _ _ Hsub) in Hi. rewrite Eits in Hi. rewrite EF0. rewrite !in_app_iff in *. simpl in Hi. intuition congruence. }
  assert (forall i, In i F -> In i F') as HFF.
  { intros i Hi. apply Hall. rewrite Eits. rewrite EF0 in Hi. rewrite !in_app_iff in *. tauto. }
  assert (items (the_flags (gcc_no_ld g) (no_ld o')) = Some F') as HF2.
  { unfold the_flags. cbn [gcc_no_ld no_ld g_self o_flags o' set_pre add_flags]. rewrite S1, S2, <- Egs. exact EF. }
  assert (forall i, In i (P ++ F') -> argument i <> w_c) as Hc'.
  { intros i Hi. apply in_app_or in Hi as [Hi|Hi]; [apply Hc; apply in_or_app; left; exact Hi|].
    apply HF' in Hi as [Hi|[->| ->]]; [apply Hc; apply in_or_app; right; exact Hi|discriminate|exact Hdep]. }
  assert (names_no_file F') as NF.
  { split; [apply inputs_none|apply outputs_none]; intros f Hf; apply HF' in Hf as [Hf|[?|?]]; try discriminate.
    - exact (proj1 (inputs_none F) F1 f Hf).
    - exact (proj1 (outputs_none F) F2 f Hf). }
  assert (well_formed (gcc_no_ld g) [src] (Some (snd made)) (no_ld o')) as W' by (destruct W; constructor; assumption).
  assert (fst made = gcc_args (gcc_no_ld g) [src] (Some (snd made)) (no_ld o') dirs) as Em.
  { unfold made, compile, compiler. cbn [fst snd]. fold o'. symmetry. apply compile_no_ld. left. reflexivity. }
  destruct (C77_files (gcc_no_ld g) [src] (Some (snd made)) (no_ld o') dirs P F' [] W' HP HF2 eq_refl Hc' (conj P1 P2) NF (conj eq_refl eq_refl))
    as (l & El & Hin & Hout).
  destruct (C77_told (gcc_no_ld g) [src] (Some (snd made)) (no_ld o') dirs P F' [] W' HP HF2 eq_refl Hc')
    as (is & ms & ws & ls & mm & libs & exts & link & E & [_ T1] & [_ T2] & [_ T3] & _ & [_ T4] & L1 & _).
  assert (compile_only (P ++ F')) as Hco.
  { apply in_or_app. left. apply (items_c _ (leading g o') (le_n _) P HP).
    - intros i Hi. apply Hc. apply in_or_app. left. exact Hi.
    - unfold leading. apply in_or_app. right. apply in_or_app. left. left. reflexivity. }
  rewrite (L1 Hco) in E. rewrite El in E. apply some_inj in E.
  assert (forall i, In i P \/ In i F' -> In i l) as Hl.
  { intros i Hi. rewrite E, !in_app_iff. destruct Hi as [Hi|Hi]; [left; exact Hi|]. do 8 right. left. exact Hi. }
  exists l. rewrite Em. split; [exact El|]. split; [|split; [exact Hin|split; [exact Hout|split; [|split; [|split; [|split]]]]]].
  - apply in_app_or in Hco. apply Hl. exact Hco.
  - apply Hl. right. apply Hall. rewrite Eits, !in_app_iff. simpl. tauto.
  - apply Hl. right. apply Hall. rewrite Eits, !in_app_iff. simpl. tauto.
  - intros i Hi. apply Hl. right. apply HFF. exact Hi.
  - intros n Hn. rewrite E in Hn. rewrite !in_app_iff, !in_map_iff in Hn.
    assert (~ In (Lib n) (match setting [] (o_arch (g_self (gcc_no_ld g))) (o_arch (no_ld o')) with [] => [] | c :: a => [Double w_arch (c :: a)] end)) as HA.
    { destruct (setting [] _ _); simpl; intuition discriminate. }
    apply in_or_app.
    destruct Hn as [H|[H|[(? & ? & _)|[(? & ? & _)|[(? & ? & _)|[(? & ? & _)|[(? & ? & _)|[[H|[]]|[H|[(? & ? & _)|[]]]]]]]]]]]; try discriminate.
    + left. exact H.
    + contradiction.
    + apply HF' in H as [H|[H|H]]; try discriminate. right. exact H.
  - assert (forall k x xs, In x xs -> (k = Include /\ xs = is) \/ (k = Macro /\ xs = ms) \/ (k = Warning /\ xs = ws) \/ (k = Machine /\ xs = mm) -> In (k x) l) as Hk.
    { intros k x xs Hx Hc0. rewrite E, !in_app_iff, !in_map_iff.
      destruct Hc0 as [[-> ->]|[[-> ->]|[[-> ->]|[-> ->]]]]; eauto 12. }
    repeat split.
    + intros d Hd Hx. apply (Hk Include d is); [|auto]. apply T1. split; [exact Hd|]. destruct Hx as [Hx|[Hx|[Hx Hy]]]; [left; exact Hx|right; left; exact Hx|].
      right. right. split; [exact Hx|]. exists src. split; [left; reflexivity|exact Hy].
    + intros m Hx. apply (Hk Macro m ms); [|auto]. apply T2. exact Hx.
    + intros m Hx. apply (Hk Warning m ws); [|auto]. apply T3. exact Hx.
    + intros m Hm Hx. apply (Hk Machine m mm); [|auto]. apply T4. split; [exact Hm|exact Hx].
Qed.

(** *** Linking *)
(** The linker is told to read the sources and to write the path that is returned. *)
Theorem C78_link g flags prefix suffix root dst srcs o dirs P F X :
  let o' := set_pre o flags in
  let made := linker g flags prefix suffix root dst srcs o dirs in
  well_formed g srcs (Some (snd made)) o' ->
  items (leading g o') = Some P -> items (the_flags g o') = Some F -> items (o_ldlibs (g_self g) ++ o_ldlibs o) = Some X ->
  (forall i, In i (P ++ F) -> argument i <> w_c) ->
  names_no_file P -> names_no_file F -> names_no_file X ->
  snd made = product root prefix suffix dst /\
  exists l, items (fst made) = Some l /\ inputs l = srcs /\ outputs l = [snd made] /\
    (forall d, d <> [] -> In d (o_libpaths (g_self g)) \/ In d (o_libpaths o) -> In (LibDir d) l) /\
    (~ compile_only (P ++ F) ->
      (forall k, used (o_libs (g_self g) ++ o_libs o) k -> In (Lib (named k)) l) /\
      (forall x, In x (o_externals (g_self g)) \/ In x (o_externals o) -> In (Lib x) l) /\ forall i, In i X -> In i l).
Proof.
  intros o' made W HP HF HX Hc NP NF NX. split; [reflexivity|].
  destruct (C77_files g srcs (Some (snd made)) o' dirs P F X W HP HF HX Hc NP NF NX) as (l & El & Hi & Ho).
  destruct (C77_told g srcs (Some (snd made)) o' dirs P F X W HP HF HX Hc)
    as (is & ms & ws & ls & mm & libs & exts & link & E & _ & _ & _ & [_ T] & _ & _ & L2 & _ & TL & _ & _ & TX).
  rewrite El in E. apply some_inj in E. exists l. split; [exact El|]. split; [exact Hi|]. split; [exact Ho|]. split.
  - intros d Hd Hx. rewrite E, !in_app_iff. do 5 right. left. apply in_map. apply T. split; [exact Hd|]. tauto.
  - intros Hno. rewrite (L2 Hno) in E. repeat split.
    + intros k Hk. rewrite E, !in_app_iff. do 10 right. left. apply in_map. apply TL. exists k. split; [exact Hk|reflexivity].
    + intros x Hx. rewrite E, !in_app_iff. do 11 right. left. apply in_map. apply TX. tauto.
    + intros i Hx. rewrite E, !in_app_iff. do 12 right. exact Hx.
Qed.

(** How ar reads its arguments, if all options begin with a dash: the archive, then its members. *)
Fixpoint ar_reads (ws : list str) : option (str * list str) :=
  match ws with
  | [] => None
  | [] :: ws' => Some ([], ws')
  | (c :: w) :: ws' => if N.eqb c dash then ar_reads ws' else Some (c :: w, ws')
  end.
Theorem C78_archive self_flags flags prefix suffix root dst srcs :
  let made := ar self_flags flags prefix suffix root dst srcs in
  (forall w, In w (self_flags ++ flags) -> exists r, w = dash :: r) -> (forall r, snd made <> dash :: r) ->
  snd made = product root prefix suffix dst /\ ar_reads (fst made) = Some (snd made, srcs).
Proof.
  intros made Hf Hd. split; [reflexivity|]. unfold made, ar in *. cbn [fst snd] in *. rewrite app_assoc.
  induction (self_flags ++ flags) as [|w ws IH]; simpl.
  - destruct (product root prefix suffix dst) as [|c p]; [reflexivity|].
    destruct (N.eqb c dash) eqn:E; [|reflexivity]. apply N.eqb_eq in E. subst c. destruct (Hd p). reflexivity.
  - destruct (Hf w (or_introl eq_refl)) as (r & ->). simpl. apply IH. intros v Hv. apply Hf. right. exact Hv.
Qed.

(** *** Finding libraries *)
Lemma find_lib_app ex a d b n :
  (forall x, In x a -> ex (pjoin x (s_lib ++ n ++ s_so)) = false /\ ex (pjoin x (s_lib ++ n ++ s_a)) = false) ->
  find_lib ex (a ++ d :: b) n = find_lib ex (d :: b) n.
Proof.
  induction a as [|x a IH]; intros H; [reflexivity|]. destruct (H x (or_introl eq_refl)) as [H1 H2].
  cbn [find_lib app] in *. rewrite H1, H2. apply IH. intros y Hy. apply H. right. exact Hy.
Qed.
Lemma alpha_split l d : alphabetical l -> In d l -> exists a b, l = a ++ d :: b /\ forall x, In x a -> before x d.
Proof.
  induction 1 as [|x l Hs IH Hx]; [intros []|]. intros [->|H].
  - exists [], l. split; [reflexivity|intros ? []].
  - destruct (IH H) as (a & b & -> & Ha). exists (x :: a), b. split; [reflexivity|].
    intros y [->|Hy]; [|exact (Ha y Hy)]. rewrite Forall_forall in Hx. apply Hx. exact H.
Qed.

(** A directory among those searched. *)
Definition searched (g : gcc) (o : options) (d : str) : Prop :=
  In d (o_libpaths (g_self g)) \/ In d (o_libpaths o) \/ exists l, used (all_libs g o) l /\ brings l d.

(** The linker looking for libraries finds the one that was made, if no directory searched has one of this
    name that comes before it. *)
Theorem C78_found g srcs dst o dirs P F X l root suffix ldst d n ex :
  well_formed g srcs dst o ->
  items (leading g o) = Some P -> items (the_flags g o) = Some F -> items (o_ldlibs (g_self g) ++ o_ldlibs o) = Some X ->
  (forall i, In i (P ++ F) -> argument i <> w_c) -> ~ compile_only (P ++ F) -> lib_dirs P = [] ->
  used (all_libs g o) l -> path_of l = product root s_lib suffix ldst -> suffix = s_so \/ suffix = s_a ->
  directory (addroot ldst root) d -> d <> [] -> is_last_name (addroot ldst root) n ->
  ex (path_of l) = true ->
  (suffix = s_a -> ex (pjoin d (s_lib ++ n ++ s_so)) = false) ->
  (forall d', searched g o d' -> before d' d -> ex (pjoin d' (s_lib ++ n ++ s_so)) = false /\ ex (pjoin d' (s_lib ++ n ++ s_a)) = false) ->
  exists its, items (gcc_args g srcs dst o dirs) = Some its /\ In (Lib n) its /\
    find_lib ex (lib_dirs its) n = Some (path_of l).
Proof.
  intros W HP HF HX Hc Hco HL Hu Hp Hs Hd Hd0 Hn Hex Hso Hbefore.
  destruct (C77_told g srcs dst o dirs P F X W HP HF HX Hc)
    as (is & ms & ws & ls & mm & libs & exts & lk & E & _ & _ & _ & [Hla Hls] & _ & _ & L2 & _ & Hlibs & _).
  eexists. split; [exact E|].
  destruct (C78_product root s_lib suffix ldst d n) as (Ep & Hpd & Hpn).
  { intros K. simpl in K. intuition discriminate. }
  { destruct Hs as [-> | ->]; intros K; simpl in K; intuition discriminate. }
  { exact Hd. } { exact Hn. }
  assert (named l = n) as Enamed.
  { unfold named. rewrite Hp. destruct Hs as [-> | ->].
    - apply (C53_name _ s_lib n [115; 111] Hpn eq_refl). intros [K|[K|[]]]; discriminate.
    - apply (C53_name _ s_lib n [97] Hpn eq_refl). intros [K|[]]; discriminate. }
  assert (In d ls) as Hin.
  { apply Hls. split; [exact Hd0|]. right. right. exists l. split; [exact Hu|]. right. rewrite Hp. exact Hpd. }
  split.
  - rewrite (L2 Hco), !in_app_iff. do 10 right. left. apply in_map. apply Hlibs. exists l. split; assumption.
  - assert (forall (k : str -> item) m, (forall x, lib_dirs [k x] = []) -> lib_dirs (map k m) = []) as M.
    { intros k m H. induction m as [|x m IH]; [reflexivity|]. simpl. unfold lib_dirs in *. simpl. rewrite IH.
      specialize (H x). simpl in H. rewrite H. reflexivity. }
    assert (lib_dirs (map LibDir ls) = ls) as Ml.
    { clear. induction ls as [|x m IH]; [reflexivity|]. unfold lib_dirs in *. simpl. rewrite IH. reflexivity. }
    unfold lib_dirs in *. rewrite !flat_map_app, HL, Ml.
    rewrite (M Include), (M Macro), (M Warning) by reflexivity.
    assert (flat_map (fun i => match i with LibDir f => [f] | _ => [] end)
      (match setting [] (o_arch (g_self g)) (o_arch o) with [] => [] | c :: a => [Double w_arch (c :: a)] end) = []) as ->.
    { destruct (setting [] _ _); reflexivity. }
    simpl app at 1. destruct (alpha_split ls d Hla Hin) as (a & b & -> & Ha).
    repeat (cbn [app]; rewrite <- app_assoc). cbn [app]. rewrite find_lib_app.
    + cbn [app find_lib]. rewrite Hp, Ep in *. destruct Hs as [-> | ->].
      * rewrite Hex. reflexivity.
      * rewrite (Hso eq_refl), Hex. reflexivity.
    + intros x Hx. apply Hbefore; [|exact (Ha x Hx)].
      assert (In x (a ++ d :: b)) as K by (apply in_or_app; left; exact Hx). apply Hls in K as [_ K]. exact K.
Qed.

(** *** Concrete builds *)
Definition plain_gcc : gcc := Gcc (text "gcc") none (words ["-g"]) (words ["-pg"]) (words ["-O2"]).
Lemma used_none l : ~ used [] l.
Proof. intros (r & [] & _). Qed.
Lemma used_plain p l : used [Plain p] l -> l = Plain p.
Proof. intros (r & [<-|[]] & H). inversion H as [|? d ? Hd Hr]; subst; [reflexivity|destruct Hd]. Qed.
Lemma no_libs_ok srcs dst o :
  (forall s r, In s srcs -> s <> dash :: r) -> o_macros o = [] -> o_libs o = [] -> o_externals o = [] -> o_arch o = None ->
  dst <> Some w_c -> well_formed plain_gcc srcs dst o.
Proof.
  intros Hs Hm Hl He Ha Hd. assert (all_libs plain_gcc o = []) as El by (unfold all_libs; simpl; exact Hl).
  constructor; rewrite ?El, ?Hm, ?He, ?Ha; try discriminate; try exact Hs; try exact Hd.
  - intros m [].
  - intros l H. destruct (used_none l H).
  - intros m [].
  - intros l x H. destruct (used_none l H).
  - split; [intros l l' H; destruct (used_none l H)|intros p l H; destruct (used_none _ H)].
Qed.
Lemma sub_nosep (s : str) : existsb is_sep s = false -> ~ In c_sep s.
Proof.
  intros H K. assert (existsb is_sep s = true) as E by (apply existsb_exists; exists c_sep; split; [exact K|reflexivity]). congruence.
Qed.

Example C78_example_product :
  let D := addroot (text "sub/foo") (text "build") in
  directory D (text "build/sub") /\ is_last_name D (text "foo") /\ product (text "build") s_lib s_so (text "sub/foo") = text "build/sub/libfoo.so".
Proof.
  split; [|split; [|reflexivity]].
  - exists (text "build/sub/"), (text "foo"). split; [reflexivity|]. split; [apply sub_nosep; reflexivity|].
    split; [right; exists (text "build/sub"); reflexivity|]. right. split; [exists 1%nat; reflexivity|].
    exists (text "build/su"), 98. split; [reflexivity|discriminate].
  - apply last_name_cut. reflexivity.
Qed.

Definition call_c : options := add_flags none (words ["-Wall"; "-x"; "c"]).
Example C78_example_compile :
  let gs1 := [] in let gs2 := [words ["-Wall"]; words ["-x"; "c"]] in
  let dep := text "/tmp/d" in
  let o' := set_pre (add_flags call_c [w_MMD; w_MF; dep]) (w_c :: words ["-fPIC"]) in
  let made := compile plain_gcc (words ["-fPIC"]) (text ".os") (text "build") dep (text "src/a.c") None call_c true in
  let P := [Single w_c; Single (text "-fPIC")] in let F := [Warning (text "all"); Double (text "-x") (text "c")] in
  well_formed plain_gcc [text "src/a.c"] (Some (snd made)) o' /\ flags_ok plain_gcc call_c dep gs1 gs2 /\
  items (leading plain_gcc o') = Some P /\ items (concat gs1 ++ concat gs2) = Some F /\
  (forall i, In i (P ++ F) -> argument i <> w_c) /\ dep <> w_c /\ names_no_file P /\ names_no_file F /\
  made = (words ["-c"; "-fPIC"; "-Isrc"; "-o"; "build/src/a.os"; "-MMD"; "-MF"; "/tmp/d"; "-Wall"; "-x"; "c"; "src/a.c"], text "build/src/a.os").
Proof.
  cbv zeta. split; [|split; [|split; [reflexivity|split; [reflexivity|split; [|split; [discriminate|repeat split; reflexivity]]]]]].
  - apply no_libs_ok; try reflexivity; try discriminate. intros s r [<-|[]]; discriminate.
  - split; try reflexivity.
    + apply Forall_cons; [left; eexists; eexists; split; reflexivity|].
      apply Forall_cons; [right; eexists; eexists; eexists; split; reflexivity|]. apply Forall_nil.
    + intros x w Hx (v & a & k & E & Hk) Hw. destruct Hx as [<-|[<-|[]]]; [discriminate|].
      destruct Hw as [<-|[<-|[]]]; (split; [|discriminate]).
      * exists (words ["-Wall"]), (words ["c"]). split; [reflexivity|].
        split; simpl; intros K; repeat destruct K as [K|K]; try discriminate; exact K.
      * exists (words ["-Wall"; "-x"]), []. split; [reflexivity|].
        split; simpl; intros K; repeat destruct K as [K|K]; try discriminate; exact K.
    + simpl. intros K; repeat destruct K as [K|K]; try discriminate; exact K.
    + split; [|split; discriminate]. simpl. intros K; repeat destruct K as [K|K]; try discriminate; exact K.
  - intros i Hi. simpl in Hi. repeat destruct Hi as [<-|Hi]; try discriminate. destruct Hi.
Qed.

Definition made_lib : str := text "build/sub/libfoo.so".
Definition with_lib (p : str) (paths : list str) : options :=
  Options [] [] [] [] [] paths [Plain p] [] [] None None None None [].
Definition only (fs : list str) (f : str) : bool := existsb (str_eqb f) fs.
Lemma with_lib_ok p paths srcs dst : named (Plain p) <> [] -> p <> named (Plain p) ->
  (forall s r, In s srcs -> s <> dash :: r) -> dst <> Some w_c -> well_formed plain_gcc srcs dst (with_lib p paths).
Proof.
  intros Hn Hp Hs Hd. constructor; try discriminate; try exact Hs; try exact Hd.
  - intros m [].
  - intros l H. apply used_plain in H as ->. exact Hn.
  - intros m [].
  - intros l x H. apply used_plain in H as ->. intros [].
  - split.
    + intros l l' H H'. apply used_plain in H as ->. apply used_plain in H' as ->. reflexivity.
    + intros q l H H'. apply used_plain in H as [= ->]. apply used_plain in H' as ->. exact Hp.
Qed.
Example C78_example_link :
  let made := linker plain_gcc (words ["-shared"]) s_lib s_so (text "build") (text "sub/foo") (words ["a.os"; "b.os"]) none false in
  well_formed plain_gcc (words ["a.os"; "b.os"]) (Some (snd made)) (set_pre none (words ["-shared"])) /\
  items (leading plain_gcc (set_pre none (words ["-shared"]))) = Some [Single (text "-shared")] /\
  made = (words ["-shared"; "-o"; "build/sub/libfoo.so"; "a.os"; "b.os"], made_lib).
Proof.
  cbv zeta. split; [|split; reflexivity].
  apply no_libs_ok; try reflexivity; try discriminate. intros s r [<-|[<-|[]]]; discriminate.
Qed.
Example C78_example_archive :
  ar (words ["-rcs"]) [] s_lib s_a (text "build") (text "foo") (words ["a.o"; "b.o"]) =
    (words ["-rcs"; "build/libfoo.a"; "a.o"; "b.o"], text "build/libfoo.a") /\
  ar_reads (words ["-rcs"; "build/libfoo.a"; "a.o"; "b.o"]) = Some (text "build/libfoo.a", words ["a.o"; "b.o"]).
Proof. split; reflexivity. Qed.

(** build/sub/libfoo.so is found, although /usr/lib, which comes first, is searched too and there is another one in zlib. *)
Definition ex_opts : options := with_lib made_lib (words ["zlib"; "/usr/lib"]).
Definition ex_files : str -> bool := only [made_lib; text "zlib/libfoo.so"; text "/usr/lib/libc.so"].
Example C78_example_found :
  well_formed plain_gcc (words ["m.o"]) (Some (text "m")) ex_opts /\
  items (leading plain_gcc ex_opts) = Some [] /\ items (the_flags plain_gcc ex_opts) = Some [] /\
  items (o_ldlibs (g_self plain_gcc) ++ o_ldlibs ex_opts) = Some [] /\
  used (all_libs plain_gcc ex_opts) (Plain made_lib) /\ made_lib = product (text "build") s_lib s_so (text "sub/foo") /\
  ex_files made_lib = true /\
  (forall d', searched plain_gcc ex_opts d' -> before d' (text "build/sub") ->
    ex_files (pjoin d' (s_lib ++ text "foo" ++ s_so)) = false /\ ex_files (pjoin d' (s_lib ++ text "foo" ++ s_a)) = false) /\
  gcc_args plain_gcc (words ["m.o"]) (Some (text "m")) ex_opts false =
    words ["-L/usr/lib"; "-Lbuild/sub"; "-Lzlib"; "-o"; "m"; "m.o"; "-lfoo"] /\
  find_lib ex_files (words ["/usr/lib"; "build/sub"; "zlib"]) (text "foo") = Some made_lib.
Proof.
  split; [|split; [reflexivity|split; [reflexivity|split; [reflexivity|split; [|split; [reflexivity|split; [reflexivity|split; [|split; reflexivity]]]]]]]].
  - apply with_lib_ok; try discriminate. intros s r [<-|[]]; discriminate.
  - exists (Plain made_lib). split; [left; reflexivity|constructor].
  - intros d' H Hb. destruct H as [[]|[[<-|[<-|[]]]|(l & Hl & [K|K])]].
    + exfalso. revert Hb. vm_compute. intros Hb. inversion Hb; subst. discriminate.
    + split; reflexivity.
    + apply used_plain in Hl as ->. destruct K.
    + apply used_plain in Hl as ->. apply directory_iff in K as ->. destruct (before_irrefl _ Hb).
Qed.

(** *** Beyond the claim *)
(** A library that is given is found, wherever it is. *)
Definition always_found : Prop :=
  forall ex p paths its, ex p = true -> items (gcc_args plain_gcc [] None (with_lib p paths) false) = Some its ->
    find_lib ex (lib_dirs its) (named (Plain p)) = Some p.
(** Another one is in a directory that comes first in the alphabet. *)
Theorem C78_other_library_refuted : ~ always_found.
Proof.
  intros H. specialize (H (only [made_lib; text "/usr/lib/libfoo.a"]) made_lib (words ["/usr/lib"]) _ eq_refl eq_refl).
  vm_compute in H. discriminate.
Qed.
(** There is no -L for the current directory. *)
Definition found_if_only : Prop :=
  forall p its, items (gcc_args plain_gcc [] None (with_lib p []) false) = Some its ->
    find_lib (only [p]) (lib_dirs its) (named (Plain p)) = Some p.
Theorem C78_current_directory_refuted : ~ found_if_only.
Proof. intros H. specialize (H (text "libfoo.so") _ eq_refl). vm_compute in H. discriminate. Qed.
(** The name of a library with a version is not what the linker looks for. *)
Theorem C78_version_refuted : ~ found_if_only.
Proof. intros H. specialize (H (text "/usr/lib/libfoo.so.1") _ eq_refl). vm_compute in H. discriminate. Qed.
(** The names of libraries with the prefixes and suffixes of builders/platform.py, 119-156. *)
Definition named_as_made : Prop :=
  forall root dst n prefix suffix,
    In (prefix, suffix) [(s_lib, s_so); (s_lib, s_a); (s_lib, text ".dylib"); (([] : str), text ".dll"); (([] : str), text ".lib")] ->
    is_last_name (addroot dst root) n -> named (Plain (product root prefix suffix dst)) = n.
Theorem C78_prefix_refuted : ~ named_as_made.
Proof.
  intros H. specialize (H (text "build") (text "foo") (text "foo") [] (text ".dll")).
  specialize (H (or_intror (or_intror (or_intror (or_introl eq_refl))))). 
  assert (is_last_name (addroot (text "foo") (text "build")) (text "foo")) as K by (apply last_name_cut; reflexivity).
  apply H in K. vm_compute in K. discriminate.
Qed.

Print Assumptions C78_product.
Print Assumptions C78_compile.
Print Assumptions C78_link.
Print Assumptions C78_archive.
Print Assumptions C78_found.
Print Assumptions C78_example_compile.
Print Assumptions C78_example_found.
Print Assumptions C78_other_library_refuted.
Print Assumptions C78_current_directory_refuted.
Print Assumptions C78_version_refuted.
Print Assumptions C78_prefix_refuted.
