(** C95: what ocamlfind is told. *)
From Coq Require Import List NArith Bool Arith Lia.
From Verif Require Import FnModel FnFacts LinkModel GccModel OcamlBuildModel OcamlBuildSpec FindModel FindSpec FindFacts PropsOcamlBuild.
Import ListNotations.
Open Scope N_scope.

(** Flags that can be read by themselves: no option at the end that lacks its argument. *)
Definition whole (l : list str) : Prop := exists P, oitems l = Some P.
Definition whole_flags (b : ocaml) (k : ocall) : Prop :=
  whole (oc_pre_flags b) /\ whole (k_pre_flags k) /\ whole (oc_debug_flags b) /\ whole (oc_optimize_flags b) /\
  whole (oc_flags b) /\ whole (k_flags k).
Lemma whole_app a b : whole a -> whole b -> whole (a ++ b).
Proof. intros (P & HP) (Q & HQ). exists (P ++ Q). apply oitems_cat; assumption. Qed.
Lemma whole_beginning b k : whole_flags b k -> whole (beginning b k) /\ whole (oc_flags b ++ k_flags k).
Proof.
  intros (H1 & H2 & H3 & H4 & H5 & H6). split; [|apply whole_app; assumption]. unfold beginning.
  assert (whole []) as H0 by (exists []; reflexivity).
  repeat apply whole_app; try assumption; destruct (chosen _ _); assumption.
Qed.
Lemma run_told f ex root dst srcs k l (b : bool) : whole_flags (fi_base f) k ->
  match run (fi_base f) ex root dst srcs k with
  | None => find_run f ex root dst srcs (if b then set_flags k (k_flags k ++ [w_linkpkg]) else k) l = None
  | Some (plain, path) => forall P, oitems plain = Some P ->
      exists args, find_run f ex root dst srcs (if b then set_flags k (k_flags k ++ [w_linkpkg]) else k) l = Some (args, path) /\
      told (fi_cmd f) (fi_libs f) l b P args
  end.
Proof.
  intros Hw. pose proof (find_words f ex root dst srcs k l b) as H. cbv zeta in H.
  destruct (run (fi_base f) ex root dst srcs k) as [[plain path]|]; [|exact H].
  destruct H as (X & Y & -> & -> & ->). intros P HP. eexists. split; [reflexivity|].
  destruct (whole_beginning _ _ Hw) as [(Q & HQ) (F & HF)].
  destruct (up_to_read (fi_base f) ex path k Q F HQ HF) as (A & HA). eapply told_words; eassumption.
Qed.

(** Any command: as the plain compiler, with the packages, syntaxes and ppopts of the builder and of the call. *)
Definition C95_run_claim : Prop :=
  forall f ex root dst srcs k l, whole_flags (fi_base f) k ->
  match run (fi_base f) ex root dst srcs k with
  | None => find_run f ex root dst srcs k l = None
  | Some (plain, path) => forall P, oitems plain = Some P ->
      exists args, find_run f ex root dst srcs k l = Some (args, path) /\ told (fi_cmd f) (fi_libs f) l false P args
  end.
Theorem C95_run : C95_run_claim.
Proof. intros f ex root dst srcs k l H. exact (run_told f ex root dst srcs k l false H). Qed.

Definition C95_compile_claim : Prop :=
  forall f ex root src dst k l, whole_flags (fi_base f) k ->
  match compile (fi_base f) ex root src dst k with
  | None => find_compile f ex root src dst k l = None
  | Some (plain, path) => forall P, oitems plain = Some P ->
      exists args, find_compile f ex root src dst k l = Some (args, path) /\ told (fi_cmd f) (fi_libs f) l false P args
  end.
Theorem C95_compile : C95_compile_claim.
Proof.
  intros f ex root src dst k l (H1 & H2 & H3 & H4 & H5 & H6).
  refine (run_told f ex root _ [PathModel.addroot src root] (set_pre_flags k (k_pre_flags k ++ [w_c])) l false _).
  repeat split; try assumption. simpl. apply whole_app; [exact H2|]. eexists. reflexivity.
Qed.

Definition C95_link_lib_claim : Prop :=
  forall f ex root dst objs k l, whole_flags (fi_base f) k ->
  match link_lib (fi_base f) ex root dst objs k with
  | None => find_link_lib f ex root dst objs k l = None
  | Some (plain, path) => forall P, oitems plain = Some P ->
      exists args, find_link_lib f ex root dst objs k l = Some (args, path) /\ told (fi_cmd f) (fi_libs f) l false P args
  end.
Theorem C95_link_lib : C95_link_lib_claim.
Proof.
  intros f ex root dst objs k l (H1 & H2 & H3 & H4 & H5 & H6).
  refine (run_told f ex root (dst ++ oc_lib_suffix (fi_base f)) (linked objs) (drop_libs (set_pre_flags k (w_a :: k_pre_flags k))) l false _).
  repeat split; try assumption. simpl. apply (whole_app [w_a]); [eexists; reflexivity|exact H2].
Qed.

(** Executables are linked with the packages, unless the call, or else the builder, says not to. *)
Definition C95_link_exe_claim : Prop :=
  forall f ex root dst objs k l linkpkg, whole_flags (fi_base f) k ->
  match link_exe (fi_base f) ex root dst objs k with
  | None => find_link_exe f ex root dst objs k l linkpkg = None
  | Some (plain, path) => forall P, oitems plain = Some P ->
      exists args, find_link_exe f ex root dst objs k l linkpkg = Some (args, path) /\
      told (fi_cmd f) (fi_libs f) l (match linkpkg with Some b => b | None => fi_linkpkg f end) P args
  end.
Theorem C95_link_exe : C95_link_exe_claim.
Proof.
  intros f ex root dst objs k l linkpkg H.
  pose proof (run_told f ex root (dst ++ oc_exe_suffix (fi_base f)) (linked objs) k l (match linkpkg with Some b => b | None => fi_linkpkg f end) H) as K.
  replace (find_link_exe f ex root dst objs k l linkpkg) with
    (find_run f ex root (dst ++ oc_exe_suffix (fi_base f)) (linked objs)
      (if match linkpkg with Some b => b | None => fi_linkpkg f end then set_flags k (k_flags k ++ [w_linkpkg]) else k) l); [exact K|].
  unfold find_link_exe, find_uncached_link_exe. destruct linkpkg as [[]|]; [| |destruct (fi_linkpkg f)]; try reflexivity;
    rewrite app_nil_r; destruct k; reflexivity.
Qed.

(** FALSE: so are those linked without the cache, as in the checks of a builder; nothing adds -linkpkg there. *)
Definition C95_uncached_claim : Prop :=
  forall f ex root dst objs k l plain path P args,
  whole_flags (fi_base f) k -> link_exe (fi_base f) ex root dst objs k = Some (plain, path) -> oitems plain = Some P ->
  find_uncached_link_exe f ex root dst objs k l = Some (args, path) -> told (fi_cmd f) (fi_libs f) l (fi_linkpkg f) P args.
Definition base : ocaml := Ocaml [46; 99; 109; 111] [46; 99; 109; 97] [] [] [] None [] [] [] false false [[45; 103]] [].
Definition no_opts : ocall := OCall [] [] [] [] [] None None false None [] None None.
(** ocamlfind ocamlc -package str *)
Definition f_str : finder := Finder base [111; 99; 97; 109; 108; 99] (Find [[115; 116; 114]] [] [[120]]) true.
Definition obj_a : str := [97; 46; 99; 109; 111].
Theorem C95_uncached_refuted : ~ C95_uncached_claim.
Proof.
  intros H. assert (whole []) as H0 by (exists []; reflexivity).
  specialize (H f_str (fun _ => false) [98] [97] [obj_a] no_opts (Find [] [] [])).
  specialize (H _ _ _ _ ltac:(repeat split; try exact H0; eexists; reflexivity) eq_refl eq_refl eq_refl).
  destruct H as (words & L & E & HL & _ & _ & _ & _ & Hs).
  injection E as <-. injection HL as <-. discriminate.
Qed.

(** ocamldep is told the packages, syntaxes and ppopts in the same way. *)
Definition C95_modules_claim : Prop :=
  forall d src preprocessor flags l P,
  whole (fd_pre_flags d) -> whole (fd_flags d) -> whole flags ->
  oitems (fd_pre_flags d ++ [w_modules] ++ with_word w_pp preprocessor ++ fd_flags d ++ flags ++ [src]) = Some P ->
  told (fd_cmd d) (fd_libs d) l false P (find_modules d src preprocessor flags l).
Lemma modules_words d src preprocessor flags l :
  find_modules d src preprocessor flags l =
  fd_cmd d :: extended ((fd_pre_flags d ++ [w_modules] ++ with_word w_pp preprocessor ++ fd_flags d ++ flags) ++ []) (fd_libs d) l ++ [src].
Proof. unfold find_modules, extended. rewrite app_nil_r, <- !app_assoc. reflexivity. Qed.
Theorem C95_modules : C95_modules_claim.
Proof.
  intros d src preprocessor flags l P H1 H2 H3 HP. rewrite modules_words.
  assert (whole (fd_pre_flags d ++ [w_modules] ++ with_word w_pp preprocessor ++ fd_flags d ++ flags)) as (A & HA).
  { apply whole_app; [exact H1|]. apply whole_app; [eexists; reflexivity|]. apply whole_app; [|apply whole_app; assumption].
    destruct preprocessor; eexists; reflexivity. }
  apply (told_words _ _ _ false _ _ A); [exact HA|]. rewrite <- !app_assoc. exact HP.
Qed.

(** For build_objects, ocamldep gets those of the builder and of the call. *)
Definition C95_objects_claim : Prop :=
  forall f cmd src preprocessor flags l P, whole flags ->
  oitems ([w_modules] ++ with_word w_pp preprocessor ++ flags ++ [src]) = Some P ->
  exists words L, objects_modules f (own_dep f cmd) src preprocessor flags l = cmd :: words /\ oitems words = Some L /\
  others L = others P /\
  (forall p, In p (values s_package L) <-> In p (values s_package P) \/ In p (fi_packages (fi_libs f)) \/ In p (fi_packages l)) /\
  (forall p, In p (values s_syntax L) <-> In p (values s_syntax P) \/ In p (fi_syntaxes (fi_libs f)) \/ In p (fi_syntaxes l)) /\
  (forall p, In p (values s_ppopt L) <-> In p (values s_ppopt P) \/ In p (fi_ppopts (fi_libs f)) \/ In p (fi_ppopts l)).
Lemma inserted_in new l l' p : inserted new l l' -> (In p l' <-> In p l \/ In p new).
Proof. intros (a & b & -> & ->). rewrite !in_app_iff. tauto. Qed.
Theorem C95_objects : C95_objects_claim.
Proof.
  intros f cmd src preprocessor flags l P (F & HF) HP. unfold objects_modules.
  (* with the flags of the call to ocamldep first *)
  assert (whole ([w_modules] ++ with_word w_pp preprocessor ++ flags)) as (A & HA).
  { apply whole_app; [eexists; reflexivity|]. apply whole_app; [destruct preprocessor; eexists; reflexivity|eexists; exact HF]. }
  pose proof (told_words cmd (fi_libs f) l false ([w_modules] ++ with_word w_pp preprocessor ++ flags) [src] A P HA) as T.
  rewrite <- !app_assoc in T. specialize (T HP). rewrite app_nil_r in T.
  destruct T as (words & L & E & HL & Ho & I1 & I2 & I3 & _). injection E as <-.
  assert (oitems ([w_modules] ++ with_word w_pp preprocessor ++ extended flags (fi_libs f) l ++ [src]) = Some L) as HL2.
  { rewrite <- HL. unfold extended. rewrite <- !app_assoc. reflexivity. }
  assert (whole (extended flags (fi_libs f) l)) as Hx by (eexists; apply find_items_read; exact HF).
  destruct (C95_modules (own_dep f cmd) src preprocessor (extended flags (fi_libs f) l) (Find [] [] []) L ltac:(exists []; reflexivity)
    ltac:(exists []; reflexivity) Hx HL2) as (words & L' & E & HL' & Ho' & J1 & J2 & J3 & _).
  exists words, L'. split; [exact E|]. split; [exact HL'|]. split; [congruence|]. simpl in J1, J2, J3. rewrite app_nil_r in J1, J2, J3.
  split; [|split]; intros p.
  - rewrite (inserted_in _ _ _ p J1), (inserted_in _ _ _ p I1), in_app_iff. tauto.
  - rewrite (inserted_in _ _ _ p J2), (inserted_in _ _ _ p I2), in_app_iff. tauto.
  - rewrite (inserted_in _ _ _ p J3), (inserted_in _ _ _ p I3), in_app_iff. tauto.
Qed.

(** FALSE: as often as the compiler gets them; those of the builder are given twice. *)
Definition C95_once_claim : Prop :=
  forall f cmd src preprocessor l words L,
  objects_modules f (own_dep f cmd) src preprocessor [] l = cmd :: words -> oitems words = Some L ->
  values s_ppopt L = fi_ppopts (fi_libs f) ++ fi_ppopts l.
Theorem C95_once_refuted : ~ C95_once_claim.
Proof. intros H. specialize (H f_str [100] [97] None (Find [] [] []) _ _ eq_refl eq_refl). discriminate. Qed.

(** FALSE: when a source is compiled by itself, ocamldep gets the packages of the call. *)
Definition C95_alone_claim : Prop :=
  forall f cmd src preprocessor l words L p,
  compile_modules f (own_dep f cmd) src preprocessor [] l = cmd :: words -> oitems words = Some L ->
  In p (fi_packages l) -> In p (values s_package L).
Theorem C95_alone_refuted : ~ C95_alone_claim.
Proof.
  intros H. destruct (H f_str [100] [97] None (Find [[122]] [] []) _ _ [122] eq_refl eq_refl (or_introl eq_refl)) as [E|[]]. discriminate.
Qed.

(** Example: ocamlfind ocamlc -package str -package z -ppopt x -linkpkg ... *)
Example C95_example :
  whole_flags base no_opts /\
  link_exe base (fun _ => false) [98] [97] [obj_a] no_opts = Some ([w_o; [98; 47; 97]; obj_a], [98; 47; 97]) /\
  find_link_exe f_str (fun _ => false) [98] [97] [obj_a] no_opts (Find [[122]] [] []) None =
  Some ([[111; 99; 97; 109; 108; 99]; w_linkpkg; w_package; [115; 116; 114]; w_package; [122]; w_ppopt; [120]; w_o; [98; 47; 97]; obj_a], [98; 47; 97]) /\
  find_link_exe f_str (fun _ => false) [98] [97] [obj_a] no_opts (Find [] [] []) (Some false) =
  Some ([[111; 99; 97; 109; 108; 99]; w_package; [115; 116; 114]; w_ppopt; [120]; w_o; [98; 47; 97]; obj_a], [98; 47; 97]) /\
  find_compile f_str (fun _ => false) [98] [97; 46; 109; 108] None no_opts (Find [] [[115]] []) =
  Some ([[111; 99; 97; 109; 108; 99]; w_c; w_package; [115; 116; 114]; w_syntax; [115]; w_ppopt; [120]; w_o; [98; 47; 97; 46; 99; 109; 111];
         [98; 47; 97; 46; 109; 108]], [98; 47; 97; 46; 99; 109; 111]).
Proof.
  assert (whole []) as H0 by (exists []; reflexivity).
  repeat split; try exact H0; try reflexivity. eexists. reflexivity.
Qed.

Print Assumptions C95_run.
Print Assumptions C95_compile.
Print Assumptions C95_link_lib.
Print Assumptions C95_link_exe.
Print Assumptions C95_modules.
Print Assumptions C95_objects.
Print Assumptions C95_uncached_refuted.
Print Assumptions C95_once_refuted.
Print Assumptions C95_alone_refuted.
