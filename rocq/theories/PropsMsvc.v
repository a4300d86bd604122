(** C91: building with Microsoft's C compiler. *)
From Coq Require Import Ascii String List NArith Bool Arith Lia.
From Verif Require Import FnModel PathModel PathSpec PathFacts LinkModel LinkSpec LinkFacts GccModel GccSpec GccFacts TryModel TrySpec TryFacts TryPlaces OwnSpec OwnPlaces JavaModel JavaFacts SmallSpec PropsSmall MsvcModel MsvcSpec MsvcFacts.
Import ListNotations.
Open Scope N_scope.
Open Scope string_scope.
Open Scope list_scope.
Notation text := PropsSmall.text.

(** *** Libraries *)
(** Each library that is used, directly or by another, is there once, left of all it depends on. *)
Theorem C91_libs self o : let libs := m_libs (mlink self o) in let roots := k_libs self ++ k_libs o in
  NoDup libs /\ (forall k, In k libs <-> used roots k) /\ forall k d, used roots k -> In d (deps k) -> before_in k d libs.
Proof. exact (mlink_libs self o). Qed.
Lemma names_all l : Forall2 names_lib l (map lib_option l).
Proof. induction l as [|x l IH]; constructor; [apply lib_option_ok|exact IH]. Qed.
(** What the linker is told. *)
Theorem C91_link self dst srcs o : let roots := k_libs self ++ k_libs o in
  exists dirs exts libs names,
    mlink_args self dst srcs o = text "/nologo" :: k_pre self ++ k_pre o ++ [text "/OUT:" ++ dst] ++ k_flags self ++ k_flags o ++
      map (app (text "/LIBRARYPATH:")) dirs ++ names ++ srcs ++ k_ldlibs o /\
    exactly dirs (fun x => x <> [] /\ (In x (k_libpaths self) \/ In x (k_libpaths o) \/ exists k, used roots k /\ In x (dirs_of k))) /\
    (forall x, In x exts <-> In x (k_exts self) \/ In x (k_exts o) \/ exists k, used roots k /\ In x (needs_external k)) /\
    (forall k, In k libs <-> used roots k) /\ (forall k d, used roots k -> In d (deps k) -> before_in k d libs) /\
    Forall2 names_lib (k_exts self ++ exts ++ map path_of (k_libs self) ++ map path_of libs) names.
Proof.
  cbv zeta. exists (filter nonempty (sorted (m_paths (mlink self o)))), (m_exts (mlink self o)), (m_libs (mlink self o)).
  eexists. split; [reflexivity|]. destruct (mlink_libs self o) as (_ & H1 & H2). split; [|split; [|split; [exact H1|split; [exact H2|]]]].
  - split.
    + apply alpha_filter, sorted_alpha, mlink_nodup.
    + intros x. rewrite filter_In, sorted_in, nonempty_ok, mlink_paths. tauto.
  - intros x. apply mlink_exts.
  - apply names_all.
Qed.
(** A library is named left of those it depends on. *)
Theorem C91_order self dst srcs o k d : used (k_libs self ++ k_libs o) k -> In d (deps k) ->
  exists a b, names_lib (path_of k) a /\ names_lib (path_of d) b /\ before_in a b (mlink_args self dst srcs o).
Proof.
  intros Hk Hd. destruct (mlink_libs self o) as (_ & _ & H). destruct (H k d Hk Hd) as (l1 & l2 & l3 & E).
  exists (lib_option (path_of k)), (lib_option (path_of d)). split; [apply lib_option_ok|]. split; [apply lib_option_ok|].
  unfold mlink_args. cbv zeta. rewrite E. rewrite !map_app. cbn [map]. rewrite !map_app. cbn [map].
  set (A := map (app s_librarypath) _). set (B := map lib_option (k_exts self)). set (C := map lib_option (m_exts _)). set (D := map lib_option (map path_of (k_libs self))).
  exists (s_nologo :: k_pre self ++ k_pre o ++ [s_out ++ dst] ++ k_flags self ++ k_flags o ++ A ++ B ++ C ++ D ++ map lib_option (map path_of l1)),
    (map lib_option (map path_of l2)), (map lib_option (map path_of l3) ++ srcs ++ k_ldlibs o).
  cbn [app]. repeat (rewrite <- ?app_assoc; cbn [app]). reflexivity.
Qed.
(** Libraries made by DllLink and static ones. *)
Theorem C91_dll self prefix suffix root dst buildroot srcs o :
  let (a, d) := dll_link self prefix suffix root dst buildroot srcs o in In (text "/OUT:" ++ d) a /\ In (text "/DLL") a /\ (forall s, In s srcs -> In s a).
Proof.
  unfold dll_link, exe_link, mlink_args. cbv zeta. cbn [k_pre k_flags k_libpaths k_libs k_ldlibs k_exts]. set (d := product _ _ _ _). repeat split.
  - right. rewrite !in_app_iff. right. right. left. left. reflexivity.
  - right. rewrite !in_app_iff. right. right. right. right. left. right. left. reflexivity.
  - intros s H. right. rewrite !in_app_iff. tauto.
Qed.
Theorem C91_lib self root dst buildroot srcs o :
  let (a, d) := lib_link self root dst buildroot srcs o in
  a = text "/nologo" :: k_pre self ++ k_pre o ++ [text "/OUT:" ++ d] ++ k_flags self ++ k_flags o ++ srcs ++ k_ldlibs self ++ k_ldlibs o.
Proof. reflexivity. Qed.

(** *** Where products are *)
Lemma product_at cwd root prefix suffix p ns n : isabs cwd = true -> kept p ns n -> no_prefix root p -> ~ In 47 prefix -> ~ In 47 suffix ->
  place cwd (product root prefix suffix p) = place cwd root ++ ns ++ [prefix ++ n ++ suffix].
Proof.
  intros Hc Hk Hn H1 H2. unfold product. destruct (addroot_kept cwd Hc p root ns n Hk Hn) as (Hg & h & -> & Hh & Hph).
  apply Forall_app in Hg as [_ Hg]. inversion Hg as [|? ? Hm _]; subst.
  rewrite psplit_snd, (cut_app h n Hh (proj1 (proj2 Hm))). cbn [snd].
  pose proof (good_around _ n _ H1 H2 Hm) as Hgood. rewrite pjoin_app; [|apply nosep_rel; exact H1|apply nosep_rel, Hgood].
  rewrite (place_join cwd Hc _ _ Hgood), (place_parent cwd h n Hh (proj1 (proj2 Hm))), Hph, <- app_assoc. reflexivity.
Qed.
Theorem C91_products cwd root p ns n : isabs cwd = true -> kept p ns n -> no_prefix root p ->
  (forall self prefix suffix ctx_root buildroot srcs o, chosen buildroot ctx_root root -> ~ In 47 prefix -> ~ In 47 suffix ->
     place cwd (snd (exe_link self prefix suffix ctx_root p buildroot srcs o)) = place cwd root ++ ns ++ [prefix ++ n ++ suffix] /\
     place cwd (snd (dll_link self prefix suffix ctx_root p buildroot srcs o)) = place cwd root ++ ns ++ [prefix ++ n ++ suffix]) /\
  (forall self ctx_root buildroot srcs o, chosen buildroot ctx_root root ->
     place cwd (snd (lib_link self ctx_root p buildroot srcs o)) = place cwd root ++ ns ++ [n ++ text ".lib"]).
Proof.
  intros Hc Hk Hn. split.
  - intros self prefix suffix cr br srcs o H H1 H2. apply chosen_or in H. unfold dll_link, exe_link. cbv zeta. cbn [snd]. rewrite H.
    split; apply product_at; assumption.
  - intros self cr br srcs o H. apply chosen_or in H. unfold lib_link. cbv zeta. cbn [snd]. rewrite H.
    apply (product_at cwd root [] s_lib p ns n); try assumption; [intros []|]. intros K. repeat (destruct K as [K|K]; [discriminate|]). destruct K.
Qed.
Theorem C91_object cwd root suffix p ns n r : isabs cwd = true -> kept p ns n -> stem n r -> no_prefix root p -> ~ In 47 suffix ->
  forall self debug optimize flags self_suffix ctx_root src dst given buildroot o dirs, chosen buildroot ctx_root root -> chosen dst src p -> chosen given self_suffix suffix ->
  place cwd (snd (cl_compile self debug optimize flags self_suffix ctx_root src dst given buildroot o dirs)) = place cwd root ++ ns ++ [r ++ suffix].
Proof.
  intros Hc Hk Hr Hn Hs self debug optimize flags ss cr src dst given br o dirs H1 H2 H3. apply chosen_or in H1, H2, H3.
  unfold cl_compile, cl_compiler. cbv zeta. cbn [snd]. rewrite H1, H2, H3. apply (after_root cwd Hc p root _ ns n r); assumption.
Qed.

(** *** What the compiler is told *)
Definition setting_ (self x : option bool) : bool := match x with Some b => b | None => match self with Some b => b | None => false end end.
Lemma wanted_is self x : wanted self x = setting_ self x.
Proof. destruct self as [[]|], x as [[]|]; reflexivity. Qed.
Theorem C91_compile self debug optimize flags self_suffix root src dst suffix buildroot o dirs :
  let (a, d) := cl_compile self debug optimize flags self_suffix root src dst suffix buildroot o dirs in
  exists includes macros warnings,
    a = text "/nologo" :: l_pre self ++ text "/c" :: flags ++ (if setting_ (l_debug self) (l_debug o) then debug else []) ++
      (if setting_ (l_optimize self) (l_optimize o) then optimize else []) ++
      map (app (text "/I")) includes ++ map (app (text "/D")) macros ++ map (app (text "/W")) warnings ++ [text "/Fo" ++ d] ++
      firsts str_eqb (l_flags self ++ text "/showIncludes" :: l_flags o) ++ [src] /\
    exactly includes (fun x => x <> [] /\ (In x (l_includes self) \/ In x (l_includes o) \/ (dirs = true /\ directory src x))) /\
    exactly macros (fun x => In x (l_macros self) \/ In x (l_macros o)) /\
    exactly warnings (fun x => In x (l_warnings self) \/ In x (l_warnings o)).
Proof.
  unfold cl_compile, cl_compiler. cbv zeta. set (d := replaceext _ _). unfold cl_args. cbv zeta.
  cbn [set_lpre add_lflags l_pre l_flags l_includes l_macros l_warnings l_debug l_optimize]. rewrite !wanted_is.
  eexists _, _, _. split; [|split; [|split]].
  - cbn [app]. rewrite (dedup_firsts (l_flags self ++ _)). reflexivity.
  - split.
    + apply alpha_filter, sorted_alpha, fold_add_nodup. constructor.
    + intros x. rewrite filter_In, sorted_in, nonempty_ok, fold_add_in, !in_app_iff. rewrite directory_iff. destruct dirs; cbn; [|intuition discriminate].
      split; intros H; decompose [and or] H; subst; intuition auto.
  - split; [apply sorted_alpha, set_of_nodup|]. intros x. rewrite sorted_in, set_of_in, in_app_iff. tauto.
  - split; [apply sorted_alpha, set_of_nodup|]. intros x. rewrite sorted_in, set_of_in, in_app_iff. tauto.
Qed.

(** *** Dependencies *)
(** The files that are recorded are those the compiler says it included, in their order. *)
Theorem C91_deps cwd ls t : isabs cwd = true -> Forall line_ok ls -> ~ In 10 t ->
  Forall2 (fun d p => place cwd d = place cwd p) (note_deps cwd (concat (map line_text ls) ++ t)) (included ls).
Proof.
  intros Hc H Ht. pose proof (note_deps_ok cwd Hc ls t H Ht) as K. induction K as [|d p ds ps [_ Hd] _ IH]; constructor; assumption.
Qed.
(** Files below the working directory are recorded by relative paths. *)
Theorem C91_relative cwd ls t : isabs cwd = true -> Forall line_ok ls -> ~ In 10 t ->
  Forall2 (fun d p => forall ns, ns <> [] -> place cwd p = place cwd n_dot ++ ns -> d = joined ns) (note_deps cwd (concat (map line_text ls) ++ t)) (included ls).
Proof.
  intros Hc H Ht. pose proof (note_deps_ok cwd Hc ls t H Ht) as K.
  assert (forall p, In p (included ls) -> p <> []) as Hne.
  { clear -H. intros p Hp. apply in_flat_map in Hp as (l & Hl & Hp). rewrite Forall_forall in H. specialize (H l Hl). destruct l as [a b q|u]; [|destruct Hp].
    destruct Hp as [<-|[]]. apply H. }
  induction K as [|d p ds ps [Hr Hd] _ IH]; constructor; [|apply IH; intros q Hq; apply Hne; right; exact Hq].
  intros ns Hns E. rewrite (relpath_below cwd Hc p n_dot ns) in Hr; [injection Hr as <-; reflexivity|apply Hne; left; reflexivity|exact E|exact Hns].
Qed.
(** What is shown is the rest, without the line that names the source. *)
Theorem C91_shown src ls t : Forall line_ok ls -> ~ In 10 t -> t <> [] ->
  note_shown src (concat (map line_text ls) ++ t) = filter (fun l => negb (str_eqb l (snd (psplit src) ++ text (String (ascii_of_N 13) (String (ascii_of_N 10) ""))))) (others ls) ++ [t].
Proof.
  intros H Ht Hne. unfold note_shown. rewrite klines_out by assumption. rewrite flat_map_app. f_equal.
  - clear -H. induction H as [|l ls Hl _ IH]; [reflexivity|]. cbn [map flat_map others]. destruct l as [a b p|u].
    + destruct Hl as (H1 & _ & H2). rewrite note_ok by assumption. exact IH.
    + cbn [line_text app filter]. rewrite (other_none u Hl). change (text _) with s_crlf in IH |- *. destruct (str_eqb _ _); cbn [negb app]; [exact IH|f_equal; exact IH].
  - destruct t as [|c t]; [contradiction|]. cbn [flat_map]. rewrite last_none by exact Ht.
    destruct (str_eqb (c :: t) (snd (psplit src) ++ s_crlf)) eqn:E; [|reflexivity]. apply str_eqb_true in E. destruct Ht. rewrite E. apply in_or_app. right. right. left. reflexivity.
Qed.

(** When compiling fails, it is the rest without the line that names the source without its extension. *)
Theorem C91_failed src ls t : Forall line_ok ls -> ~ In 10 t -> t <> [] ->
  note_failed src (concat (map line_text ls) ++ t) =
  filter (fun l => negb (str_eqb l (fst (splitext (snd (psplit src))) ++ text (String (ascii_of_N 13) (String (ascii_of_N 10) ""))))) (others ls) ++ [t].
Proof.
  intros H Ht Hne. unfold note_failed. rewrite klines_out by assumption. rewrite flat_map_app. f_equal.
  - clear -H. induction H as [|l ls Hl _ IH]; [reflexivity|]. cbn [map flat_map others]. destruct l as [a b p|u].
    + destruct Hl as (H1 & _ & H2). rewrite note_ok by assumption. exact IH.
    + cbn [line_text app filter]. rewrite (other_none u Hl). change (text _) with s_crlf in IH |- *. destruct (str_eqb _ _); cbn [negb app]; [exact IH|f_equal; exact IH].
  - destruct t as [|c t]; [contradiction|]. cbn [flat_map]. rewrite last_none by exact Ht.
    destruct (str_eqb (c :: t) (fst (splitext (snd (psplit src))) ++ s_crlf)) eqn:E; [|reflexivity]. apply str_eqb_true in E. destruct Ht. rewrite E. apply in_or_app. right. right. left. reflexivity.
Qed.

(** *** Examples and what does not hold *)
Definition lib_y : lib := Plain (text "build/y.dll").
Definition lib_x : lib := Library (text "build/x.lib") [text "opt"; text "ext"] [lib_y] [text "ws2.lib"].
Definition none_ : linkopts := Linkopts [] [] [] [] [] [].
Definition call_ : linkopts := Linkopts [] [text "/DEBUG"] [text "libs"] [lib_y; lib_x] [text "extra.obj"] [text "user32.dll"].
Example C91_example_link :
  mlink_args none_ (text "build/a.exe") [text "build/a.obj"] call_ =
    map text ["/nologo"; "/OUT:build/a.exe"; "/DEBUG"; "/LIBRARYPATH:ext"; "/LIBRARYPATH:libs"; "/LIBRARYPATH:opt"; "/DEFAULTLIB:user32.lib"; "/DEFAULTLIB:ws2.lib";
      "/DEFAULTLIB:build/x.lib"; "/DEFAULTLIB:build/y.lib"; "build/a.obj"; "extra.obj"] /\
  used (k_libs none_ ++ k_libs call_) lib_x /\ In lib_y (deps lib_x).
Proof. split; [vm_compute; reflexivity|]. split; [exists lib_x; split; [right; left; reflexivity|constructor]|left; reflexivity]. Qed.
Definition cr : str := [13].
Definition lines_ : list line := [Other (text "a.c" ++ cr); Including 0 0 (text "/w/inc/x.h"); Including 0 1 (text "/usr/y.h"); Other (text "a.c(3) : warning" ++ cr)].
Example C91_example_lines : Forall line_ok lines_.
Proof.
  repeat apply Forall_cons; [| | | |constructor]; cbn [line_ok].
  - split; [intros K; cbn in K; repeat (destruct K as [K|K]; [discriminate|]); destruct K|]. intros a b p E. discriminate E.
  - split; [discriminate|]. split; [intros K; cbn in K; repeat (destruct K as [K|K]; [discriminate|]); destruct K|intros r E; discriminate E].
  - split; [discriminate|]. split; [intros K; cbn in K; repeat (destruct K as [K|K]; [discriminate|]); destruct K|intros r E; discriminate E].
  - split; [intros K; cbn in K; repeat (destruct K as [K|K]; [discriminate|]); destruct K|]. intros a b p E. discriminate E.
Qed.
Example C91_example_deps :
  note_deps (text "/w") (concat (map line_text lines_) ++ text "end") = map text ["inc/x.h"; "../usr/y.h"] /\
  note_shown (text "src/a.c") (concat (map line_text lines_) ++ text "end") = [text "a.c(3) : warning" ++ cr ++ [10]; text "end"].
Proof. vm_compute. split; reflexivity. Qed.
Example C91_example_compile :
  cl_compile (Clopts [] [text "/W3"] [text "inc"] [] [] None None) [text "/Zi"] [text "/Ox"] [] (text ".obj") (text "build") (text "src/a.c") None None None
      (Clopts [] [] [] [text "X=1"] [] (Some true) None) true =
    (map text ["/nologo"; "/c"; "/Zi"; "/Iinc"; "/Isrc"; "/DX=1"; "/Fobuild/src/a.obj"; "/W3"; "/showIncludes"; "src/a.c"], text "build/src/a.obj").
Proof. vm_compute. reflexivity. Qed.
Example C91_example_place : place (text "/w") (snd (exe_link none_ [] (text ".exe") (text "build") (text "t/a") None [] call_)) = map text ["w"; "build"; "t"; "a.exe"].
Proof.
  destruct (C91_products (text "/w") (text "build") (text "t/a") [text "t"] (text "a")) as [H _].
  - reflexivity.
  - left. split; [discriminate|]. split; [|reflexivity]. repeat constructor; try discriminate; intros K; cbn in K; repeat (destruct K as [K|K]; [discriminate|]); destruct K.
  - intros q E. discriminate E.
  - destruct (H none_ [] (text ".exe") (text "build") None [] call_) as [E _]; [apply chosen_or; reflexivity|intros []| |etransitivity; [exact E|reflexivity]].
    intros K. cbn in K. repeat (destruct K as [K|K]; [discriminate|]). destruct K.
Qed.
(** The ldlibs of the builder do not reach the linker. *)
Definition ldlibs_passed_on : Prop := forall self dst srcs o x, In x (k_ldlibs self) -> In x (mlink_args self dst srcs o).
Theorem C91_ldlibs_refuted : ~ ldlibs_passed_on.
Proof.
  intros H. specialize (H (Linkopts [] [] [] [] [text "extra.obj"] []) (text "a.exe") [] none_ (text "extra.obj") (or_introl eq_refl)).
  vm_compute in H. repeat (destruct H as [H|H]; [discriminate|]). destruct H.
Qed.
(** The libraries of the builder are named twice. *)
Definition named_once : Prop := forall self dst srcs o k a, used (k_libs self ++ k_libs o) k -> names_lib (path_of k) a ->
  ~ exists l1 l2 l3, mlink_args self dst srcs o = l1 ++ a :: l2 ++ a :: l3.
Theorem C91_twice_refuted : ~ named_once.
Proof.
  intros H. apply (H (Linkopts [] [] [] [lib_y] [] []) (text "a.exe") [] none_ lib_y (text "/DEFAULTLIB:build/y.lib")).
  - exists lib_y. split; [left; reflexivity|constructor].
  - left. exists (text "build/y"). split; reflexivity.
  - exists (map text ["/nologo"; "/OUT:a.exe"]), [], []. vm_compute. reflexivity.
Qed.
(** The first of these can be left of what depends on it. *)
Definition never_left : Prop := forall self dst srcs o k d a b, used (k_libs self ++ k_libs o) k -> In d (deps k) -> names_lib (path_of k) a -> names_lib (path_of d) b ->
  ~ before_in b a (mlink_args self dst srcs o).
Theorem C91_left_refuted : ~ never_left.
Proof.
  intros H. apply (H (Linkopts [] [] [] [lib_y] [] []) (text "a.exe") [] (Linkopts [] [] [] [lib_x] [] []) lib_x lib_y (text "/DEFAULTLIB:build/x.lib") (text "/DEFAULTLIB:build/y.lib")).
  - exists lib_x. split; [right; left; reflexivity|constructor].
  - left. reflexivity.
  - right. split; [|reflexivity]. intros r E. assert (rev (text "build/x.lib") = rev (r ++ t_dll)) as E' by (cbn [path_of lib_x] in E; rewrite <- E; reflexivity).
    rewrite rev_app_distr in E'. discriminate E'.
  - left. exists (text "build/y"). split; reflexivity.
  - eexists (map text ["/nologo"; "/OUT:a.exe"; "/LIBRARYPATH:ext"; "/LIBRARYPATH:opt"; "/DEFAULTLIB:ws2.lib"]), [], _. vm_compute. reflexivity.
Qed.
(** When compiling fails, the line that names the source is shown. *)
Definition name_hidden : Prop := forall src ls t, Forall line_ok ls -> ~ In (snd (psplit src) ++ [13; 10]) (note_failed src (concat (map line_text ls) ++ t)).
Theorem C91_failed_refuted : ~ name_hidden.
Proof. intros H. apply (H (text "a.c") lines_ [] C91_example_lines). vm_compute. left. reflexivity. Qed.

Print Assumptions C91_libs.
Print Assumptions C91_link.
Print Assumptions C91_order.
Print Assumptions C91_dll.
Print Assumptions C91_lib.
Print Assumptions C91_products.
Print Assumptions C91_object.
Print Assumptions C91_compile.
Print Assumptions C91_deps.
Print Assumptions C91_relative.
Print Assumptions C91_shown.
Print Assumptions C91_failed.
Print Assumptions C91_ldlibs_refuted.
Print Assumptions C91_twice_refuted.
Print Assumptions C91_left_refuted.
Print Assumptions C91_failed_refuted.
