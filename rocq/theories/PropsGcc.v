(** C77: what the compiler is told. *)
From Coq Require Import Ascii String List NArith Bool Arith Sorted.
From Verif Require Import FnModel PathModel PathSpec PathFacts LinkModel LinkSpec LinkFacts GccModel GccSpec GccFacts.
Import ListNotations.
Open Scope N_scope.
Open Scope string_scope.
Open Scope list_scope.

(** A setting of the call is used if there is one, otherwise that of the builder. *)
Definition setting {A} (default : A) (self x : option A) : A :=
  match x with
  | Some a => a
  | None => match self with Some a => a | None => default end
  end.
(** The options at the beginning. *)
Definition leading (g : gcc) (o : options) : list str :=
  let self := g_self g in
  o_pre_flags self ++ o_pre_flags o ++
  (if setting false (o_debug self) (o_debug o) then g_debug_flags g else []) ++
  (if setting false (o_profile self) (o_profile o) then g_profile_flags g else []) ++
  (if setting false (o_optimize self) (o_optimize o) then g_optimize_flags g else []).
(** The flags of the builder and of the call, each word once. *)
Definition the_flags (g : gcc) (o : options) : list str := firsts str_eqb (o_flags (g_self g) ++ o_flags o).
Definition all_libs (g : gcc) (o : options) : list lib := o_libs (g_self g) ++ o_libs o.

(** Sources do not look like options; macros and names of libraries are not empty; libraries are told
    apart by their names; -c is nobody's argument. *)
Record well_formed (g : gcc) (srcs : list str) (dst : option str) (o : options) : Prop := WellFormed {
  wf_srcs : forall s r, In s srcs -> s <> dash :: r;
  wf_macros : forall m, In m (o_macros (g_self g) ++ o_macros o) -> m <> [];
  wf_libs : forall l, used (all_libs g o) l -> named l <> [];
  wf_exts : forall x, In x (o_externals (g_self g) ++ o_externals o) -> x <> [];
  wf_lib_exts : forall l x, used (all_libs g o) l -> In x (needs_external l) -> x <> [];
  wf_names : distinct_names (all_libs g o);
  wf_exe : g_exe g <> w_c;
  wf_dst : dst <> Some w_c;
  wf_arch : setting [] (o_arch (g_self g)) (o_arch o) <> w_c
}.

(** What the arguments say, in this order, if [P], [F] and [X] are what the options at the beginning, the
    flags and the options for the linker say. *)
Definition told (g : gcc) (srcs : list str) (dst : option str) (o : options) (dirs : bool) (P F X : list item) (args : list str) : Prop :=
  exists includes macros warnings paths machine libs externals linking,
    items args = Some (P ++
      (match setting [] (o_arch (g_self g)) (o_arch o) with [] => [] | a => [Double w_arch a] end) ++
      map Include includes ++ map Macro macros ++ map Warning warnings ++ map LibDir paths ++ map Machine machine ++
      (match dst with Some d => [Output d] | None => [] end) ++
      F ++ map Input srcs ++ linking) /\
    exactly includes (fun d => d <> [] /\ (In d (o_includes (g_self g)) \/ In d (o_includes o) \/
      (dirs = true /\ exists s, In s srcs /\ directory s d))) /\
    exactly macros (fun m => In m (o_macros (g_self g)) \/ In m (o_macros o)) /\
    exactly warnings (fun w => In w (o_warnings (g_self g)) \/ In w (o_warnings o)) /\
    exactly paths (fun d => d <> [] /\ (In d (o_libpaths (g_self g)) \/ In d (o_libpaths o) \/
      exists l, used (all_libs g o) l /\ brings l d)) /\
    exactly machine (fun m => m <> [] /\ (In m (o_machine (g_self g)) \/ In m (o_machine o))) /\
    (compile_only (P ++ F) -> linking = []) /\
    (~ compile_only (P ++ F) -> linking = map Lib libs ++ map Lib externals ++ X) /\
    NoDup libs /\ (forall n, In n libs <-> exists l, used (all_libs g o) l /\ named l = n) /\
    (forall l d d', used (all_libs g o) l -> In d (deps l) -> reach d d' -> left_of (named l) (named d') libs) /\
    NoDup externals /\ (forall x, In x externals <-> In x (o_externals (g_self g)) \/ In x (o_externals o) \/
      exists l, used (all_libs g o) l /\ In x (needs_external l)).

Lemma wanted_setting self x : wanted self x = setting false self x.
Proof. destruct self as [[]|], x as [[]|]; reflexivity. Qed.
Lemma arch_setting self x : arch_of self x = setting [] self x.
Proof. destruct x as [x|]; [reflexivity|]. destruct self as [[|? ?]|]; reflexivity. Qed.
Lemma not_c (f : str -> str) l : (forall x, f x <> w_c) -> ~ In w_c (map f l).
Proof. intros H K. apply in_map_iff in K as (x & E & _). exact (H x E). Qed.
Lemma or_false_l (A : Prop) (B : Prop) : ~ A -> (A \/ B <-> B).
Proof. tauto. Qed.

Theorem C77_told g srcs dst o dirs P F X :
  well_formed g srcs dst o ->
  items (leading g o) = Some P -> items (the_flags g o) = Some F -> items (o_ldlibs (g_self g) ++ o_ldlibs o) = Some X ->
  (forall i, In i (P ++ F) -> argument i <> w_c) ->
  told g srcs dst o dirs P F X (gcc_args g srcs dst o dirs).
Proof.
  intros [W1 W2 W3 W4 W5 W6 W7 W8 W9] HP HF HX Hc. unfold gcc_args.
  assert (map (fun s => path_new [s]) srcs = srcs) as ->.
  { rewrite (map_ext _ (fun s => s)) by apply path_new_one. apply map_id. }
  rewrite !wanted_setting, arch_setting.
  set (incs := fold_left add_new (o_includes (g_self g) ++ o_includes o ++ (if dirs then map (fun s => fst (psplit s)) srcs else [])) []).
  set (r := link _ _ _ _ _ _). rewrite dedup_firsts. fold (the_flags g o).
  set (ar := setting [] (o_arch (g_self g)) (o_arch o)).
  set (I := filter nonempty (sorted incs)).
  set (D := sorted (set_of (o_macros o ++ o_macros (g_self g)))).
  set (W := sorted (set_of (o_warnings o ++ o_warnings (g_self g)))).
  set (L := filter nonempty (sorted (r_libpaths r))).
  set (M := filter nonempty (sorted (set_of (o_machine o ++ o_machine (g_self g))))).
  destruct (link_order (o_libpaths (g_self g)) (o_libpaths o) (o_externals (g_self g)) (o_externals o)
    (o_libs (g_self g)) (o_libs o) W6) as [Hlibs Hord]. fold r in Hlibs, Hord.
  destruct (link_nodups (o_libpaths (g_self g)) (o_libpaths o) (o_externals (g_self g)) (o_externals o)
    (o_libs (g_self g)) (o_libs o)) as [HLn HEn]. fold r in HLn, HEn.
  set (A := match ar with [] => [] | _ => [w_arch; ar] end).
  replace (match ar with [] => [] | c :: a => [w_arch; c :: a] end) with A by (unfold A; destruct ar; reflexivity).
  set (O := match dst with Some d => [w_o; d] | None => [] end).
  set (cmd := o_pre_flags (g_self g) ++ _).
  assert (cmd = leading g o ++ A ++ map (app w_I) I ++ map (app w_D) D ++ map (app w_W) W ++ map (app w_L) L ++
    map (app w_m) M ++ O ++ the_flags g o ++ srcs) as Ecmd.
  { unfold cmd, leading. rewrite <- !app_assoc. reflexivity. }
  clearbody cmd.
  assert (In w_c (g_exe g :: cmd) <-> compile_only (P ++ F)) as Hmem.
  { assert (compile_only (P ++ F) <-> In w_c (leading g o) \/ In w_c (the_flags g o)) as ->.
    { unfold compile_only. rewrite in_app_iff.
      rewrite <- (items_c _ (leading g o) (le_n _) P HP) by (intros i Hi; apply Hc; apply in_or_app; left; exact Hi).
      rewrite <- (items_c _ (the_flags g o) (le_n _) F HF) by (intros i Hi; apply Hc; apply in_or_app; right; exact Hi). reflexivity. }
    assert (~ In w_c A) as HA.
    { unfold A. destruct ar as [|c a] eqn:Ea; [tauto|]. intros [K|[K|[]]]; [discriminate|]. apply W9. fold ar. rewrite Ea. exact K. }
    assert (~ In w_c O) as HO.
    { unfold O. destruct dst as [d|]; [|tauto]. intros [K|[K|[]]]; [discriminate|]. apply W8. rewrite K. reflexivity. }
    assert (~ In w_c srcs) as Hs by (intros K; apply (W1 w_c [99] K); reflexivity).
    rewrite Ecmd. simpl. rewrite !in_app_iff.
    pose proof (not_c (app w_I) I ltac:(discriminate)). pose proof (not_c (app w_D) D ltac:(discriminate)).
    pose proof (not_c (app w_W) W ltac:(discriminate)). pose proof (not_c (app w_L) L ltac:(discriminate)).
    pose proof (not_c (app w_m) M ltac:(discriminate)). tauto. }
  assert (forall x, In x I -> x <> []) as HI by (intros x Hx; apply filter_In in Hx as [_ Hx]; apply nonempty_ok; exact Hx).
  assert (forall x, In x L -> x <> []) as HL by (intros x Hx; apply filter_In in Hx as [_ Hx]; apply nonempty_ok; exact Hx).
  assert (forall x, In x D -> x <> []) as HD.
  { intros x Hx. apply (proj1 (sorted_in _ _)), (proj1 (set_of_in _ _)) in Hx. apply W2. apply in_app_iff. apply in_app_iff in Hx. tauto. }
  assert (items A = Some (match ar with [] => [] | c :: a => [Double w_arch (c :: a)] end)) as IA by (unfold A; destruct ar; reflexivity).
  assert (items O = Some (match dst with Some d => [Output d] | None => [] end)) as IO by (unfold O; destruct dst; reflexivity).
  pose proof (items_map (app w_I) Include I (fun x Hx => word_I x (HI x Hx))) as II.
  pose proof (items_map (app w_D) Macro D (fun x Hx => word_D x (HD x Hx))) as ID.
  pose proof (items_map (app w_W) Warning W (fun x _ => word_W x)) as IW.
  pose proof (items_map (app w_L) LibDir L (fun x Hx => word_L x (HL x Hx))) as IL.
  pose proof (items_map (app w_m) Machine M (fun x _ => word_m x)) as IM.
  pose proof (items_map (fun s => s) Input srcs (fun x Hx => word_input x (fun r => W1 x r Hx))) as IS. rewrite map_id in IS.
  assert (items (map (app w_l) (r_libs r)) = Some (map Lib (r_libs r))) as ILs.
  { apply items_map. intros x Hx. apply word_l. apply Hlibs in Hx as (l & Hl & <-). apply W3. exact Hl. }
  assert (items (map (app w_l) (r_externals r)) = Some (map Lib (r_externals r))) as IE.
  { apply items_map. intros x Hx. apply word_l. apply link_exts in Hx as [Hx|[Hx|(l & Hl & Hx)]].
    - apply W4. apply in_or_app. left. exact Hx.
    - apply W4. apply in_or_app. right. exact Hx.
    - exact (W5 l x Hl Hx). }
  exists I, D, W, L, M, (r_libs r), (r_externals r).
  exists (if mem w_c (g_exe g :: cmd) then [] else map Lib (r_libs r) ++ map Lib (r_externals r) ++ X).
  split.
  { assert (forall k l, items k = Some l -> items (cmd ++ k) = Some (P ++ (match ar with [] => [] | c :: a => [Double w_arch (c :: a)] end) ++
      map Include I ++ map Macro D ++ map Warning W ++ map LibDir L ++ map Machine M ++
      (match dst with Some d => [Output d] | None => [] end) ++ F ++ map Input srcs ++ l)) as Hall.
    { intros k l Hk. rewrite Ecmd. rewrite <- !app_assoc.
      repeat (apply items_cat; [eassumption|]). exact Hk. }
    destruct (mem w_c (g_exe g :: cmd)).
    - rewrite <- (app_nil_r cmd). apply Hall. reflexivity.
    - apply Hall. repeat (apply items_cat; [eassumption|]). exact HX. }
  assert (NoDup incs) as Hincs by (apply fold_add_nodup; constructor).
  split; [|split; [|split; [|split; [|split; [|split; [|split; [|split; [|split; [|split; [|split]]]]]]]]]].
  - split; [apply alpha_filter; apply sorted_alpha; exact Hincs|]. intros d. unfold I, incs.
    rewrite filter_In, sorted_in, fold_add_in, nonempty_ok, !in_app_iff. simpl.
    assert (In d (if dirs then map (fun s => fst (psplit s)) srcs else []) <-> dirs = true /\ exists s, In s srcs /\ directory s d) as ->.
    { destruct dirs.
      - rewrite in_map_iff. split.
        + intros (s & E & Hs). split; [reflexivity|]. exists s. split; [exact Hs|]. apply directory_iff. symmetry. exact E.
        + intros (_ & s & Hs & E). exists s. split; [|exact Hs]. symmetry. apply directory_iff. exact E.
      - split; [intros []|intros [K _]; discriminate]. }
    tauto.
  - split; [apply sorted_alpha; apply set_of_nodup|]. intros m. unfold D. rewrite sorted_in, set_of_in, in_app_iff. tauto.
  - split; [apply sorted_alpha; apply set_of_nodup|]. intros m. unfold W. rewrite sorted_in, set_of_in, in_app_iff. tauto.
  - split; [apply alpha_filter; apply sorted_alpha; exact HLn|]. intros d. unfold L. rewrite filter_In, sorted_in, nonempty_ok.
    assert (forall l, of_lib l d <-> brings l d) as Hbr by (intros l; unfold of_lib, brings; rewrite directory_iff; reflexivity).
    split.
    + intros [H Hne]. split; [exact Hne|]. apply link_paths_sound in H as [H|[H|(l & Hl & H)]]; auto.
      right. right. exists l. split; [exact Hl|]. apply Hbr. exact H.
    + intros [Hne H]. split; [|exact Hne]. apply link_paths; [exact W6|]. destruct H as [H|[H|(l & Hl & H)]]; auto.
      right. right. exists l. split; [exact Hl|]. apply Hbr. exact H.
  - split; [apply alpha_filter; apply sorted_alpha; apply set_of_nodup|]. intros m. unfold M.
    rewrite filter_In, sorted_in, set_of_in, nonempty_ok, in_app_iff. tauto.
  - intros H. apply Hmem in H. apply mem_ok in H. rewrite H. reflexivity.
  - intros H. destruct (mem w_c (g_exe g :: cmd)) eqn:E; [|reflexivity]. apply mem_ok in E. apply Hmem in E. contradiction.
  - apply link_nodup.
  - exact Hlibs.
  - exact Hord.
  - exact HEn.
  - intros x. apply link_exts.
Qed.

(** Flags each word of which stands for itself, and flags of two words none of which occurs elsewhere: leaving
    out repeated words leaves out repeated options only. *)
Theorem C77_flags gs :
  Forall (fun o => single_option o \/ double_option o) gs ->
  (forall o w, In o gs -> double_option o -> In w o -> once w (concat gs)) ->
  exists its F, items (concat gs) = Some its /\ items (firsts str_eqb (concat gs)) = Some F /\
    subsequence F its /\ forall i, In i its -> In i F.
Proof.
  intros Hall Ho. destruct (firsts_concat gs Hall Ho) as (gs' & E & Hs & Hin).
  set (mean := fun o => match o with
    | [w] => match word w with inl i => i | inr _ => Single [] end
    | w :: a :: _ => match word w with inl _ => Single [] | inr k => k a end
    | [] => Single []
    end).
  assert (forall l, (forall o, In o l -> single_option o \/ double_option o) -> items (concat l) = Some (map mean l)) as Hm.
  { induction l as [|o l IH]; intros H; [reflexivity|]. simpl.
    apply (items_cat o (concat l) [mean o] (map mean l)).
    - destruct (H o (or_introl eq_refl)) as [(w & i & -> & Ew)|(w & a & k & -> & Ew)]; simpl; rewrite Ew; reflexivity.
    - apply IH. intros o' Ho'. apply H. right. exact Ho'. }
  rewrite Forall_forall in Hall.
  exists (map mean gs), (map mean gs'). split; [apply Hm; exact Hall|]. split; [|split].
  - rewrite E. apply Hm. intros o H. apply Hall. exact (subsequence_in _ _ _ Hs H).
  - apply subsequence_map. exact Hs.
  - intros i Hi. apply in_map_iff in Hi as (o & <- & H). apply in_map. apply Hin. exact H.
Qed.

(** The files read and written are those meant, if no option names others. *)
Definition names_no_file (l : list item) : Prop := inputs l = [] /\ outputs l = [].
Theorem C77_files g srcs dst o dirs P F X :
  well_formed g srcs dst o ->
  items (leading g o) = Some P -> items (the_flags g o) = Some F -> items (o_ldlibs (g_self g) ++ o_ldlibs o) = Some X ->
  (forall i, In i (P ++ F) -> argument i <> w_c) ->
  names_no_file P -> names_no_file F -> names_no_file X ->
  exists l, items (gcc_args g srcs dst o dirs) = Some l /\ inputs l = srcs /\
    outputs l = match dst with Some d => [d] | None => [] end.
Proof.
  intros W HP HF HX Hc [P1 P2] [F1 F2] [X1 X2].
  destruct (C77_told g srcs dst o dirs P F X W HP HF HX Hc)
    as (is & ms & ws & ls & mm & libs & exts & link & E & _ & _ & _ & _ & _ & L1 & L2 & _).
  eexists. split; [exact E|].
  assert (forall (k : str -> item) l, (forall x, inputs [k x] = []) -> inputs (map k l) = []) as Mi.
  { intros k l H. induction l as [|x l IH]; [reflexivity|]. simpl. unfold inputs in *. simpl. rewrite IH.
    specialize (H x). simpl in H. rewrite H. reflexivity. }
  assert (forall (k : str -> item) l, (forall x, outputs [k x] = []) -> outputs (map k l) = []) as Mo.
  { intros k l H. induction l as [|x l IH]; [reflexivity|]. simpl. unfold outputs in *. simpl. rewrite IH.
    specialize (H x). simpl in H. rewrite H. reflexivity. }
  assert (inputs link = [] /\ outputs link = []) as [Li Lo].
  { destruct (in_dec (fun a b : item => ltac:(decide equality; apply (list_eq_dec N.eq_dec))) (Single w_c) (P ++ F)) as [H|H].
    - rewrite (L1 H). split; reflexivity.
    - rewrite (L2 H). unfold inputs, outputs in *. rewrite !flat_map_app, X1, X2, !app_nil_r.
      split; [rewrite !Mi by reflexivity; reflexivity|rewrite !Mo by reflexivity; reflexivity]. }
  assert (inputs (map Input srcs) = srcs) as Si.
  { unfold inputs. clear. induction srcs as [|s l IH]; [reflexivity|]. simpl. f_equal. exact IH. }
  unfold inputs, outputs in *. rewrite !flat_map_app. rewrite P1, P2, F1, F2, Li, Lo, Si.
  rewrite !(Mi Include), !(Mi Macro), !(Mi Warning), !(Mi LibDir), !(Mi Machine) by reflexivity.
  rewrite !(Mo Include), !(Mo Macro), !(Mo Warning), !(Mo LibDir), !(Mo Machine), (Mo Input) by reflexivity.
  destruct (setting [] (o_arch (g_self g)) (o_arch o)), dst; simpl; rewrite ?app_nil_r; split; reflexivity.
Qed.

(** The command does not depend on the order in which includes, macros, warnings and machine options are given, nor
    on their being given to the builder or the call. *)
Definition with_sets (o : options) (includes macros warnings machine : list str) : options :=
  Options (o_pre_flags o) (o_flags o) includes macros warnings (o_libpaths o) (o_libs o) (o_ldlibs o)
    (o_externals o) (o_debug o) (o_profile o) (o_optimize o) (o_arch o) machine.
Definition gcc_with (g : gcc) (includes macros warnings machine : list str) : gcc :=
  Gcc (g_exe g) (with_sets (g_self g) includes macros warnings machine) (g_debug_flags g) (g_profile_flags g) (g_optimize_flags g).
Definition same (a a' : list str) : Prop := forall x, In x a <-> In x a'.
Lemma sorted_same a a' : NoDup a -> NoDup a' -> same a a' -> sorted a = sorted a'.
Proof.
  intros H H' E. apply alpha_unique; [apply sorted_alpha; exact H|apply sorted_alpha; exact H'|].
  intros x. rewrite !sorted_in. apply E.
Qed.
Theorem C77_order g srcs dst o dirs i1 m1 w1 k1 i2 m2 w2 k2 i1' m1' w1' k1' i2' m2' w2' k2' :
  same (i1 ++ i2) (i1' ++ i2') -> same (m1 ++ m2) (m1' ++ m2') -> same (w1 ++ w2) (w1' ++ w2') -> same (k1 ++ k2) (k1' ++ k2') ->
  gcc_args (gcc_with g i1 m1 w1 k1) srcs dst (with_sets o i2 m2 w2 k2) dirs =
  gcc_args (gcc_with g i1' m1' w1' k1') srcs dst (with_sets o i2' m2' w2' k2') dirs.
Proof.
  intros Hi Hm Hw Hk. unfold gcc_args. cbn [gcc_with with_sets g_self g_exe o_includes o_macros o_warnings o_machine o_pre_flags o_flags
    o_libpaths o_libs o_ldlibs o_externals o_debug o_profile o_optimize o_arch g_debug_flags g_profile_flags g_optimize_flags].
  set (ds := if dirs then _ else _).
  rewrite (sorted_same (fold_left add_new (i1 ++ i2 ++ ds) []) (fold_left add_new (i1' ++ i2' ++ ds) [])).
  2, 3: apply fold_add_nodup; constructor.
  2: { intros x. rewrite !fold_add_in, !app_assoc, !(in_app_iff _ ds). specialize (Hi x). tauto. }
  assert (forall a b a' b', same (a ++ b) (a' ++ b') -> sorted (set_of (b ++ a)) = sorted (set_of (b' ++ a'))) as H.
  { intros a b a' b' E. apply sorted_same; try apply set_of_nodup. intros x. rewrite !set_of_in. specialize (E x).
    rewrite in_app_iff in *. rewrite (in_app_iff b' a'), (in_app_iff a' b') in *. tauto. }
  rewrite (H _ _ _ _ Hm), (H _ _ _ _ Hw), (H _ _ _ _ Hk). reflexivity.
Qed.

(** *** Concrete commands *)
Definition text (s : string) : str := map N_of_ascii (list_ascii_of_string s).
Definition words (l : list string) : list str := map text l.
Definition none : options := Options [] [] [] [] [] [] [] [] [] None None None None [].
Definition libm : lib := Plain (text "/usr/lib/libz.so").
Definition libx : lib := Library (text "out/libx.so") (words ["/opt/lib"]) [libm] (words ["pthread"]).
Definition self_ex : options :=
  Options [] (words ["-fPIC"; "-std=c99"]) (words ["src"; "gen"]) (words ["NDEBUG"]) (words ["all"]) [] [] [] [] (Some true) None None None (words ["arch=native"]).
Definition gcc_ex : gcc := Gcc (text "gcc") self_ex (words ["-g"]) (words ["-pg"]) (words ["-O2"]).
Definition call_ex : options :=
  Options [] (words ["-std=c99"; "-MF"; "a.d"]) (words ["gen"; "inc"]) (words ["A=1"; "NDEBUG"]) [] [] [libx] (words ["-Xlinker"; "-E"]) (words ["m"])
    None (Some false) (Some true) None [].
Definition P_ex : list item := [Single (text "-g"); Single (text "-O2")].
Definition F_ex : list item := [Single (text "-fPIC"); Single (text "-std=c99"); Double (text "-MF") (text "a.d")].
Definition X_ex : list item := [Double (text "-Xlinker") (text "-E")].
Lemma used_ex l : used [libx] l -> l = libx \/ l = libm.
Proof.
  assert (forall l, reach libm l -> l = libm) as Hm by (intros k H; inversion H as [|? ? ? Hd]; subst; [reflexivity|destruct Hd]).
  intros (r & [<-|[]] & H). inversion H as [|? d ? Hd Hr]; subst; [left; reflexivity|].
  destruct Hd as [<-|[]]. right. apply Hm. exact Hr.
Qed.
Example C77_example :
  well_formed gcc_ex (words ["src/a.c"; "b.c"]) (Some (text "out/prog")) call_ex /\
  items (leading gcc_ex call_ex) = Some P_ex /\ items (the_flags gcc_ex call_ex) = Some F_ex /\
  items (o_ldlibs (g_self gcc_ex) ++ o_ldlibs call_ex) = Some X_ex /\
  (forall i, In i (P_ex ++ F_ex) -> argument i <> w_c) /\
  names_no_file P_ex /\ names_no_file F_ex /\ names_no_file X_ex /\
  gcc_args gcc_ex (words ["src/a.c"; "b.c"]) (Some (text "out/prog")) call_ex true =
    words ["-g"; "-O2"; "-Igen"; "-Iinc"; "-Isrc"; "-DA=1"; "-DNDEBUG"; "-Wall"; "-L/opt/lib"; "-L/usr/lib"; "-Lout"; "-march=native";
      "-o"; "out/prog"; "-fPIC"; "-std=c99"; "-MF"; "a.d"; "src/a.c"; "b.c"; "-lx"; "-lz"; "-lm"; "-lpthread"; "-Xlinker"; "-E"].
Proof.
  split.
  - split.
    + intros s r [<-|[<-|[]]]; discriminate.
    + intros m H. vm_compute in H. repeat destruct H as [<-|H]; try discriminate. destruct H.
    + intros l H. apply used_ex in H as [->| ->]; discriminate.
    + intros x [<-|[]]; discriminate.
    + intros l x H Hx. apply used_ex in H as [->| ->]; [destruct Hx as [<-|[]]; discriminate|destruct Hx].
    + split.
      * intros l l' H H' E. apply used_ex in H as [->| ->], H' as [->| ->]; try reflexivity; vm_compute in E; discriminate.
      * intros p l H H' E. apply used_ex in H as [K|K]; [discriminate|]. injection K as ->.
        apply used_ex in H' as [->| ->]; vm_compute in E; discriminate.
    + discriminate.
    + discriminate.
    + discriminate.
  - split; [reflexivity|]. split; [reflexivity|]. split; [reflexivity|]. split.
    + intros i H. simpl in H. repeat destruct H as [<-|H]; try discriminate. destruct H.
    + repeat split; reflexivity.
Qed.
Example C77_example_flags :
  let gs := [words ["-Wall"]; words ["-MF"; "a.d"]; words ["-Wall"]] in
  Forall (fun o => single_option o \/ double_option o) gs /\
  (forall o w, In o gs -> double_option o -> In w o -> once w (concat gs)) /\
  items (firsts str_eqb (concat gs)) = Some [Warning (text "all"); Double (text "-MF") (text "a.d")].
Proof.
  split; [|split; [|reflexivity]].
  - constructor; [left; eexists; eexists; split; reflexivity|].
    constructor; [right; eexists; eexists; eexists; split; reflexivity|].
    constructor; [left; eexists; eexists; split; reflexivity|constructor].
  - intros o w [<-|[<-|[<-|[]]]] (v & a & k & E & Hk) Hw; try discriminate.
    destruct Hw as [<-|[<-|[]]].
    + exists (words ["-Wall"]), (words ["a.d"; "-Wall"]). split; [reflexivity|].
      split; simpl; intros K; repeat destruct K as [K|K]; try discriminate; exact K.
    + exists (words ["-Wall"; "-MF"]), (words ["-Wall"]). split; [reflexivity|].
      split; simpl; intros K; repeat destruct K as [K|K]; try discriminate; exact K.
Qed.

(** *** Beyond the claim *)
(** Directories are searched for headers in the order in which they are given. *)
Definition include_order_kept : Prop :=
  forall g srcs dst o, exists l, items (gcc_args g srcs dst o false) = Some l /\
    subsequence (o_includes o) (flat_map (fun i => match i with Include d => [d] | _ => [] end) l).
Theorem C77_include_order_refuted : ~ include_order_kept.
Proof.
  intros H. destruct (H (Gcc (text "gcc") none [] [] []) (words ["a.c"]) None (with_sets none (words ["new"; "bak"]) [] [] []))
    as (l & E & S). vm_compute in E. injection E as <-. simpl in S.
  inversion S as [|? ? ? S'|? ? ? S']; subst. inversion S' as [|? ? ? S''|? ? ? S'']; subst; inversion S''.
Qed.

(** Of two definitions of a macro that of the call is the last one, which counts. *)
Definition call_macros_win : Prop :=
  forall g srcs dst o m, In m (o_macros o) -> exists l k, items (gcc_args g srcs dst o false) = Some l /\
    flat_map (fun i => match i with Macro d => [d] | _ => [] end) l = k ++ [m].
Theorem C77_macros_refuted : ~ call_macros_win.
Proof.
  intros H. destruct (H (gcc_with (Gcc (text "gcc") none [] [] []) [] (words ["LEVEL=9"]) [] []) (words ["a.c"]) None
    (with_sets none [] (words ["LEVEL=2"]) [] []) (text "LEVEL=2") (or_introl eq_refl)) as (l & k & E & S).
  vm_compute in E. injection E as <-. simpl in S. destruct k as [|a [|b [|c k]]]; discriminate.
Qed.

(** Options of two words are passed on. *)
Definition add_flags_only (fl : list str) : options := add_flags none fl.
Definition doubles_kept : Prop :=
  forall g srcs dst o its, items (o_flags (g_self g) ++ o_flags o) = Some its ->
    exists l, items (gcc_args g srcs dst o false) = Some l /\ forall i, In i its -> In i l.
Theorem C77_doubles_refuted : ~ doubles_kept.
Proof.
  intros H. destruct (H (Gcc (text "gcc") none [] [] []) (words ["a.o"]) None (add_flags_only (words ["-framework"; "Cocoa"; "-framework"; "OpenGL"])) 
    [Double (text "-framework") (text "Cocoa"); Double (text "-framework") (text "OpenGL")] eq_refl) as (l & E & S).
  vm_compute in E. injection E as <-. specialize (S _ (or_intror (or_introl eq_refl))).
  simpl in S. repeat destruct S as [S|S]; try discriminate. exact S.
Qed.

(** Any source is compiled. *)
Definition sources_read : Prop :=
  forall g srcs o, o_pre_flags o = [w_c] -> exists l, items (gcc_args g srcs None o false) = Some l /\ inputs l = srcs.
Theorem C77_dash_refuted : ~ sources_read.
Proof.
  intros H. destruct (H (Gcc (text "gcc") none [] [] []) (words ["-x.c"]) (set_pre none [w_c]) eq_refl) as (l & E & S).
  vm_compute in E. injection E as <-. discriminate.
Qed.

(** The libraries are given unless the compiler is told not to link. *)
Definition libs_given : Prop :=
  forall g srcs dst o x, In x (o_externals o) -> exists l, items (gcc_args g srcs dst o false) = Some l /\
    (compile_only l \/ In (Lib x) l).
Theorem C77_libs_refuted : ~ libs_given.
Proof.
  intros H. destruct (H (Gcc (text "gcc") none [] [] []) (words ["a.o"]) None
    (Options (words ["-Xlinker"; "-c"]) [] [] [] [] [] [] [] (words ["m"]) None None None None []) (text "m") (or_introl eq_refl)) as (l & E & S).
  vm_compute in E. injection E as <-. destruct S as [S|S]; simpl in S; repeat destruct S as [S|S]; try discriminate; exact S.
Qed.

Print Assumptions C77_told.
Print Assumptions C77_flags.
Print Assumptions C77_files.
Print Assumptions C77_order.
Print Assumptions C77_example.
Print Assumptions C77_include_order_refuted.
Print Assumptions C77_macros_refuted.
Print Assumptions C77_doubles_refuted.
Print Assumptions C77_dash_refuted.
Print Assumptions C77_libs_refuted.
