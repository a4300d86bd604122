(** C79: what ocamlc and ocamlopt are told. *)
From Coq Require Import Ascii String List NArith Bool Arith Lia Permutation.
From Verif Require Import FnModel PathModel PathSpec PathFacts LinkModel LinkSpec LinkFacts GccModel GccSpec GccFacts.
From Verif Require Import GlobModel GlobSpec TreeCheck.
From Verif Require Import OcamlSpec OcamlFacts OcamlBuildModel OcamlBuildSpec.
From Verif Require OcamlModel.
Import ListNotations.
Open Scope N_scope.
Open Scope list_scope.

(** *** Reading commands *)
Lemma oitems_app n : forall a, (length a <= n)%nat -> forall b l k, oitems a = Some l -> oitems b = Some k -> oitems (a ++ b) = Some (l ++ k).
Proof.
  induction n as [|n IH]; intros [|w a] Hn b l k Ha Hb; simpl in Hn; try lia; simpl in Ha; try (injection Ha as <-; exact Hb).
  simpl. destruct (oword w) as [i|f].
  - destruct (oitems a) as [l'|] eqn:E; [|discriminate]. injection Ha as <-.
    rewrite (IH a ltac:(lia) b l' k E Hb). reflexivity.
  - destruct a as [|x a]; [discriminate|]. simpl. destruct (oitems a) as [l'|] eqn:E; [|discriminate]. injection Ha as <-.
    simpl in Hn. rewrite (IH a ltac:(lia) b l' k E Hb). reflexivity.
Qed.
Lemma oitems_cat a b l k : oitems a = Some l -> oitems b = Some k -> oitems (a ++ b) = Some (l ++ k).
Proof. apply (oitems_app (length a)). apply le_n. Qed.
Definition no_dash (s : str) : Prop := forall r, s <> 45 :: r.
Lemma oitems_files l : (forall s, In s l -> no_dash s) -> oitems l = Some (map OIn l).
Proof.
  induction l as [|s l IH]; intros H; [reflexivity|]. simpl.
  assert (oword s = inl (OIn s)) as ->.
  { pose proof (H s (or_introl eq_refl)) as Hs. destruct s as [|c s]; [reflexivity|]. simpl.
    destruct (N.eqb_spec c 45) as [->|]; [destruct (Hs s); reflexivity|reflexivity]. }
  rewrite IH; [reflexivity|]. intros t Ht. apply H. right. exact Ht.
Qed.
Lemma oitems_pairs w k (f : str -> str) l : oword w = inr k -> oitems (flat_map (fun x => [w; f x]) l) = Some (map (fun x => k (f x)) l).
Proof. intros E. induction l as [|x l IH]; [reflexivity|]. simpl. rewrite E, IH. reflexivity. Qed.
Lemma oitems_with w k o : oword w = inr k -> oitems (with_word w o) = Some (match o with Some a => [k a] | None => [] end).
Proof. intros E. destruct o as [a|]; [|reflexivity]. simpl. rewrite E. reflexivity. Qed.

(** A setting of the call, or else of the builder. *)
Definition chosen {A} (self : A) (x : option A) : A := match x with Some a => a | None => self end.
Definition beginning (b : ocaml) (k : ocall) : list str :=
  oc_pre_flags b ++ k_pre_flags k ++
  (if chosen (oc_debug b) (k_debug k) then oc_debug_flags b else []) ++
  (if chosen (oc_optimize b) (k_optimize k) then oc_optimize_flags b else []).
Definition libraries (b : ocaml) (k : ocall) : list str := oc_libs b ++ k_external_libs k ++ k_libs k.
(** A library is given by its path, or without the suffix. *)
Definition library_file (b : ocaml) (ex : str -> bool) (l f : str) : Prop :=
  (ex l = true /\ f = l) \/ (ex l = false /\ f = l ++ oc_lib_suffix b).

(** What the command says, if [P] and [F] are what the options at the beginning and the flags say. *)
Theorem C79_told b ex root dst srcs k P F args path :
  run b ex root dst srcs k = Some (args, path) ->
  oitems (beginning b k) = Some P -> oitems (oc_flags b ++ k_flags k) = Some F ->
  (forall s, In s srcs -> no_dash s) -> (forall l, In l (libraries b k) -> no_dash l /\ no_dash (l ++ oc_lib_suffix b)) ->
  path = addroot dst root /\
  exists includes cclibs files,
    oitems args = Some (P ++ map OInc includes ++ (if k_custom k then [OOpt w_custom] else []) ++
      (match chosen (oc_cc b) (option_map Some (k_cc k)) with Some c => [OOpt2 w_cc c] | None => [] end) ++
      map (OOpt2 w_cclib) cclibs ++
      (match k_preprocessor k with Some p => [OOpt2 w_pp p] | None => [] end) ++
      (match k_for_pack k with Some p => [OOpt2 w_for_pack p] | None => [] end) ++
      F ++ [OOut path] ++ map OIn files ++ map OIn srcs) /\
    exactly includes (fun d => ex d = true /\ (In d (k_includes k) \/ In d (oc_includes b) \/ directory path d)) /\
    Forall2 (fun l f => (ex l = true /\ f = l) \/ (ex l = false /\ f = w_l ++ l)) (oc_c_libs b ++ k_c_libs k) cclibs /\
    Forall2 (library_file b ex) (libraries b k) files.
Proof.
  unfold run. set (dst' := addroot dst root). intros H HP HF Hs Hl.
  assert (args = beginning b k ++ flat_map (fun i => [w_I; i]) (filter ex (sorted (set_of (k_includes k ++ oc_includes b ++ [fst (psplit dst')])))) ++
    (if k_custom k then [w_custom] else []) ++ with_word w_cc (match k_cc k with Some c => Some c | None => oc_cc b end) ++
    flat_map (fun l => [w_cclib; if ex l then l else w_l ++ l]) (oc_c_libs b ++ k_c_libs k) ++
    with_word w_pp (k_preprocessor k) ++ with_word w_for_pack (k_for_pack k) ++
    (oc_flags b ++ k_flags k) ++ [w_o; dst'] ++ map (lib_file b ex) (libraries b k) ++ srcs /\ path = dst') as [-> ->].
  { unfold beginning, libraries.
    assert (forall s x, wanted (Some s) x = chosen s x) as Hw by (intros [] [[]|]; reflexivity). rewrite <- !Hw, <- !app_assoc.
    destruct srcs; [destruct (oc_libs b ++ k_external_libs k ++ k_libs k) eqn:E; [discriminate|]|]; injection H as <- <-; split; reflexivity. }
  clear H. split; [reflexivity|].
  exists (filter ex (sorted (set_of (k_includes k ++ oc_includes b ++ [fst (psplit dst')])))).
  exists (map (fun l => if ex l then l else w_l ++ l) (oc_c_libs b ++ k_c_libs k)), (map (lib_file b ex) (libraries b k)).
  split; [|split; [|split]].
  - apply oitems_cat; [exact HP|]. apply oitems_cat.
    { rewrite (oitems_pairs w_I OInc (fun i => i)) by reflexivity. reflexivity. }
    apply oitems_cat; [destruct (k_custom k); reflexivity|].
    apply oitems_cat.
    { rewrite (oitems_with w_cc (OOpt2 w_cc)) by reflexivity. destruct (k_cc k); reflexivity. }
    apply oitems_cat.
    { rewrite (oitems_pairs w_cclib (OOpt2 w_cclib) (fun l => if ex l then l else w_l ++ l)) by reflexivity. rewrite map_map. reflexivity. }
    apply oitems_cat; [apply (oitems_with w_pp (OOpt2 w_pp)); reflexivity|].
    apply oitems_cat; [apply (oitems_with w_for_pack (OOpt2 w_for_pack)); reflexivity|].
    apply oitems_cat; [exact HF|]. apply oitems_cat; [reflexivity|].
    apply oitems_cat; apply oitems_files; [|exact Hs]. intros f Hf. apply in_map_iff in Hf as (l & <- & Hf).
    unfold lib_file. destruct (Hl l Hf) as [H1 H2]. destruct (ex l); assumption.
  - split; [apply alpha_filter; apply sorted_alpha; apply set_of_nodup|]. intros d.
    rewrite filter_In, sorted_in, set_of_in, !in_app_iff, directory_iff. simpl. intuition congruence.
  - induction (oc_c_libs b ++ k_c_libs k) as [|l ls IH]; constructor; [|exact IH]. destruct (ex l); auto.
  - clear. induction (libraries b k) as [|l ls IH]; constructor; [|exact IH]. unfold library_file, lib_file. destruct (ex l); auto.
Qed.

(** *** Compiling *)
Lemma placed_cases root s : placed root s ->
  ((exists r, s = root ++ c_sep :: r) /\ addroot s root = s) \/
  ((forall q, s <> root ++ q) /\ addroot s root = root ++ c_sep :: s).
Proof.
  intros (Ha & Hr & He & Hq).
  destruct (addroot_cases s root) as [[Hs E]|(Hs & _)].
  - left. destruct (startswith_true _ _ Hs) as [q Eq]. destruct (Hq q Eq) as [r ->]. split; [exists r; exact Eq|exact E].
  - right. assert (forall q, s <> root ++ q) as Hn by (intros q ->; rewrite startswith_app in Hs; discriminate).
    split; [exact Hn|]. destruct (addroot_rel s root Ha Hn) as (d & -> & _ & ->). rewrite He. destruct root as [|c root]; [congruence|].
    rewrite <- app_assoc. reflexivity.
Qed.
Lemma placed_copy root s : placed root s -> copy_of root s (addroot s root).
Proof.
  intros H. destruct (placed_cases root s H) as [[H1 ->]|[H1 ->]]; [left; split; [exact H1|reflexivity]|].
  right. split; [|reflexivity]. intros r. apply H1.
Qed.
Lemma copy_unique root s c c' : copy_of root s c -> copy_of root s c' -> c = c'.
Proof.
  intros [[(r & Hr) ->]|[Hn ->]] [[(r' & Hr') ->]|[Hn' ->]]; try reflexivity; exfalso; [apply (Hn' r); exact Hr|apply (Hn r'); exact Hr'].
Qed.
Lemma copy_root root s c : copy_of root s c -> exists r, c = root ++ c_sep :: r.
Proof. intros [[(r & Hr) ->]|[_ ->]]; [exists r; exact Hr|exists s; reflexivity]. Qed.
Lemma copy_dir root s c : copy_of root s c -> exists d, c = d ++ s /\ (d = [] \/ exists d', d = d' ++ [c_sep]).
Proof.
  intros [[_ ->]|[_ ->]]; [exists []; split; [reflexivity|left; reflexivity]|].
  exists (root ++ [c_sep]). split; [rewrite <- app_assoc; reflexivity|right; exists root; reflexivity].
Qed.
Lemma sep_before (a r b e : str) : a ++ c_sep :: r = b ++ e -> ~ In c_sep e -> exists r', b = a ++ c_sep :: r' .
Proof.
  revert b. induction a as [|x a IH]; intros [|y b] E He; simpl in E.
  - exfalso. apply He. rewrite <- E. left. reflexivity.
  - injection E as <- E. exists b. reflexivity.
  - exfalso. apply He. rewrite <- E. right. apply in_or_app. right. left. reflexivity.
  - injection E as <- E. destruct (IH b E He) as [r' ->]. exists r'. reflexivity.
Qed.
Lemma not_both (b b' : str) : b ++ [46; 109; 108] = b' ++ [46; 109; 108; 105] -> False.
Proof.
  intros E. change [46; 109; 108] with ([46; 109] ++ [108]) in E. change [46; 109; 108; 105] with ([46; 109; 108] ++ [105]) in E.
  rewrite !app_assoc in E. apply app_inj_tail in E as [_ E]. discriminate.
Qed.
Lemma replace_source (b e e' n : str) c : (e = [46; 109; 108] \/ e = [46; 109; 108; 105]) -> is_last_name b n -> In c n -> c <> c_dot ->
  replaceext (b ++ e) e' = b ++ e'.
Proof.
  intros He Hn Hc Hd. unfold replaceext. rewrite path_new_one.
  assert (splitext (b ++ e) = (b, e)) as ->; [|reflexivity]. apply splitext_ext. split.
  - reflexivity.
  - destruct He as [->| ->]; unfold c_sep; cbn; intros H; repeat (destruct H as [H|H]; [discriminate|]); exact H.
  - intros _. exists (tl e), n, c. split; [destruct He as [->| ->]; reflexivity|]. split; [|split; [exact Hn|split; [exact Hc|exact Hd]]].
    destruct He as [->| ->]; unfold c_dot; cbn; intros H; repeat (destruct H as [H|H]; [discriminate|]); exact H.
  - intros ->. destruct He; discriminate.
Qed.
Lemma compiled_path b root s : placed root s -> source s -> ~ In c_sep (oc_obj_suffix b) ->
  object_of (oc_obj_suffix b) root s (addroot (replaceext (addroot s root) (suffix_for b s)) root).
Proof.
  intros Hp (b0 & n & c & Hs & Hn & Hc & Hd) Hx. pose proof (placed_copy root s Hp) as Hcopy.
  destruct (copy_root _ _ _ Hcopy) as (r & Er). destruct (copy_dir _ _ _ Hcopy) as (d & Ed & Hdd).
  assert (is_last_name (d ++ b0) n) as Hn'.
  { destruct Hn as (Hn1 & h & -> & Hh). split; [exact Hn1|]. exists (d ++ h). split; [apply app_assoc|].
    destruct Hh as [->|(h' & ->)]; [rewrite app_nil_r; exact Hdd|right; exists (d ++ h'); apply app_assoc]. }
  assert (exists e e', (e = [46; 109; 108] \/ e = [46; 109; 108; 105]) /\ s = b0 ++ e /\ suffix_for b s = e' /\
    (e = [46; 109; 108] /\ e' = oc_obj_suffix b \/ e = [46; 109; 108; 105] /\ e' = [46; 99; 109; 105])) as (e & e' & He & Es & Ee & Hee).
  { unfold suffix_for. destruct (endswith s s_mli) eqn:E.
    - apply endswith_iff in E as [b1 E]. exists [46; 109; 108; 105], [46; 99; 109; 105]. split; [right; reflexivity|].
      split; [|split; [reflexivity|right; split; reflexivity]]. destruct Hs as [->| ->]; [|reflexivity].
      destruct (not_both _ _ E).
    - exists [46; 109; 108], (oc_obj_suffix b). split; [left; reflexivity|].
      split; [|split; [reflexivity|left; split; reflexivity]]. destruct Hs as [->| ->]; [reflexivity|].
      assert (endswith (b0 ++ [46; 109; 108; 105]) s_mli = true) by (apply endswith_iff; exists b0; reflexivity). congruence. }
  assert (addroot s root = (d ++ b0) ++ e) as Ea by (rewrite Ed, Es, app_assoc; reflexivity).
  rewrite Ea, (replace_source _ _ _ _ _ He Hn' Hc Hd), Ee.
  assert (~ In c_sep e) as Hse by (destruct He as [->| ->]; unfold c_sep; cbn; intros H; repeat (destruct H as [H|H]; [discriminate|]); exact H).
  destruct (sep_before root r (d ++ b0) e) as (r' & Er'); [congruence|exact Hse|].
  assert (addroot ((d ++ b0) ++ e') root = (d ++ b0) ++ e') as ->.
  { destruct (addroot_cases ((d ++ b0) ++ e') root) as [[_ K]|[K _]]; [exact K|].
    rewrite Er', <- app_assoc, startswith_app in K. discriminate. }
  exists ((d ++ b0) ++ e), (d ++ b0). rewrite <- Ea. split; [exact Hcopy|]. rewrite Ea.
  destruct Hee as [[-> ->]|[-> ->]]; [left|right]; split; reflexivity.
Qed.

Lemma dash_app a b : oitems (a ++ [w_c]) = Some b -> forall l, oitems a = Some l -> b = l ++ [OOpt w_c].
Proof. intros E l El. rewrite (oitems_cat a [w_c] l [OOpt w_c] El eq_refl) in E. congruence. Qed.
Lemma inputs_app a b : o_inputs (a ++ b) = o_inputs a ++ o_inputs b.
Proof. apply flat_map_app. Qed.
Lemma outputs_app a b : o_outputs (a ++ b) = o_outputs a ++ o_outputs b.
Proof. apply flat_map_app. Qed.
Lemma inputs_map (f : str -> oitem) l : (forall x, o_inputs [f x] = []) -> o_inputs (map f l) = [].
Proof. intros H. induction l as [|x l IH]; [reflexivity|]. specialize (H x). unfold o_inputs in *. simpl in *. rewrite IH, H. reflexivity. Qed.
Lemma outputs_map (f : str -> oitem) l : (forall x, o_outputs [f x] = []) -> o_outputs (map f l) = [].
Proof. intros H. induction l as [|x l IH]; [reflexivity|]. specialize (H x). unfold o_outputs in *. simpl in *. rewrite IH, H. reflexivity. Qed.
Lemma inputs_in l : o_inputs (map OIn l) = l.
Proof. induction l as [|x l IH]; [reflexivity|]. unfold o_inputs in *. simpl in *. rewrite IH. reflexivity. Qed.

Definition o_quiet (l : list oitem) : Prop := o_inputs l = [] /\ o_outputs l = [].

(** Inputs, output and directories of a command of which only the flags are unknown. *)
Lemma told_files b ex root dst srcs k P F args path :
  run b ex root dst srcs k = Some (args, path) ->
  oitems (beginning b k) = Some P -> oitems (oc_flags b ++ k_flags k) = Some F -> o_quiet P -> o_quiet F ->
  (forall s, In s srcs -> no_dash s) -> (forall l, In l (libraries b k) -> no_dash l /\ no_dash (l ++ oc_lib_suffix b)) ->
  exists l files, oitems args = Some l /\ o_inputs l = files ++ srcs /\ o_outputs l = [path] /\
    Forall2 (library_file b ex) (libraries b k) files /\ (forall i, In i P -> In i l) /\
    forall d, ex d = true -> (In d (k_includes k) \/ In d (oc_includes b) \/ directory path d) -> In (OInc d) l.
Proof.
  intros H HP HF [P1 P2] [F1 F2] Hs Hl. destruct (C79_told _ _ _ _ _ _ _ _ _ _ H HP HF Hs Hl) as (_ & inc & cc & files & E & [_ Hi] & _ & Hf).
  eexists. exists files. split; [exact E|]. split; [|split; [|split; [exact Hf|split]]].
  - rewrite !inputs_app, P1, F1, !inputs_in, !inputs_map by reflexivity.
    destruct (k_custom k), (chosen _ _), (k_preprocessor k), (k_for_pack k); reflexivity.
  - rewrite !outputs_app, P2, F2, !outputs_map by reflexivity.
    destruct (k_custom k), (chosen _ _), (k_preprocessor k), (k_for_pack k); reflexivity.
  - intros i Hin. apply in_or_app. left. exact Hin.
  - intros d Hd Hin. apply in_or_app. right. apply in_or_app. left. apply in_map. apply Hi. split; [exact Hd|exact Hin].
Qed.

(** What the words of the call say: no file to compile, nothing to write. *)
Record plain_call (b : ocaml) (k : ocall) : Prop := PlainCall {
  pc_self : exists P, oitems (oc_pre_flags b) = Some P /\ o_quiet P;
  pc_pre : exists P, oitems (k_pre_flags k) = Some P /\ o_quiet P;
  pc_debug : exists P, oitems (oc_debug_flags b) = Some P /\ o_quiet P;
  pc_optimize : exists P, oitems (oc_optimize_flags b) = Some P /\ o_quiet P;
  pc_flags : exists F, oitems (oc_flags b ++ k_flags k) = Some F /\ o_quiet F;
  pc_libs : forall l, In l (libraries b k) -> no_dash l /\ no_dash (l ++ oc_lib_suffix b);
  pc_suffix : ~ In c_sep (oc_obj_suffix b)
}.
Lemma quiet_app a b : o_quiet a -> o_quiet b -> o_quiet (a ++ b).
Proof. intros [A1 A2] [B1 B2]. split; [rewrite inputs_app, A1, B1|rewrite outputs_app, A2, B2]; reflexivity. Qed.
Lemma quiet_nil : o_quiet [].
Proof. split; reflexivity. Qed.
Lemma plain_rest b k : plain_call b k -> exists R, o_quiet R /\
  oitems ((if chosen (oc_debug b) (k_debug k) then oc_debug_flags b else []) ++
          (if chosen (oc_optimize b) (k_optimize k) then oc_optimize_flags b else [])) = Some R.
Proof.
  intros [_ _ (D & ED & HD) (O & EO & HO) _ _ _].
  destruct (chosen (oc_debug b) (k_debug k)), (chosen (oc_optimize b) (k_optimize k)).
  - exists (D ++ O). split; [apply quiet_app; assumption|apply oitems_cat; assumption].
  - exists D. rewrite app_nil_r. auto.
  - exists O. auto.
  - exists []. split; [apply quiet_nil|reflexivity].
Qed.
Lemma dash_root root r : placed root r -> no_dash root -> no_dash (addroot r root).
Proof.
  intros Hp Hn. pose proof (placed_copy root r Hp) as Hc. destruct (copy_root _ _ _ Hc) as (q & ->).
  destruct Hp as (_ & Hr & _). destruct root as [|c root]; [congruence|]. intros t E. simpl in E. injection E as E1 E2. subst c. apply (Hn root). reflexivity.
Qed.

(** The one source is compiled in the build root; libraries may be named as well.  The file that is written
    is the returned one, and stands beside the copy of the source. *)
Theorem C79_compile b ex root s k :
  plain_call b k -> placed root s -> source s -> no_dash root ->
  exists args path copy l files,
    compile b ex root s None k = Some (args, path) /\ object_of (oc_obj_suffix b) root s path /\ copy_of root s copy /\
    oitems args = Some l /\ In (OOpt [45; 99]) l /\ o_inputs l = files ++ [copy] /\ o_outputs l = [path] /\
    Forall2 (library_file b ex) (libraries b k) files /\
    forall d, ex d = true -> (In d (k_includes k) \/ In d (oc_includes b) \/ directory path d) -> In (OInc d) l.
Proof.
  intros Hk Hp Hs Hd. destruct (plain_rest b k Hk) as (R & HR & ER). pose proof Hk as [(S & ES & HS) (P & EP & HP) _ _ (F & EF & HF) Hl Hx].
  set (k' := set_pre_flags k (k_pre_flags k ++ [w_c])).
  destruct (compile b ex root s None k) as [[args path]|] eqn:Ec; [|discriminate Ec].
  assert (path = addroot (replaceext (addroot s root) (suffix_for b s)) root) as Ep.
  { unfold compile, run in Ec. injection Ec as _ <-. reflexivity. }
  assert (oitems (beginning b k') = Some (((S ++ P) ++ [OOpt w_c]) ++ R)) as EB.
  { unfold beginning, k'. cbn [k_pre_flags set_pre_flags k_debug k_optimize].
    replace (oc_pre_flags b ++ (k_pre_flags k ++ [w_c]) ++
      (if chosen (oc_debug b) (k_debug k) then oc_debug_flags b else []) ++
      (if chosen (oc_optimize b) (k_optimize k) then oc_optimize_flags b else []))
    with (((oc_pre_flags b ++ k_pre_flags k) ++ [w_c]) ++ (if chosen (oc_debug b) (k_debug k) then oc_debug_flags b else []) ++
      (if chosen (oc_optimize b) (k_optimize k) then oc_optimize_flags b else [])) by (rewrite <- !app_assoc; reflexivity).
    apply oitems_cat; [apply oitems_cat; [apply oitems_cat; assumption|reflexivity]|exact ER]. }
  destruct (told_files b ex root _ [addroot s root] k' _ F args path Ec EB EF) as (l & files & E1 & E2 & E3 & E4 & E5 & E6).
  - apply quiet_app; [|exact HR]. apply quiet_app; [apply quiet_app; assumption|split; reflexivity].
  - exact HF.
  - intros t [<-|[]]. apply dash_root; assumption.
  - exact Hl.
  - exists args, path, (addroot s root), l, files. split; [reflexivity|]. split; [rewrite Ep; apply compiled_path; assumption|].
    split; [apply placed_copy; exact Hp|]. split; [exact E1|]. split.
    + apply E5. apply in_or_app. left. apply in_or_app. right. left. reflexivity.
    + auto.
Qed.

(** *** The directories of other objects *)
Lemma seps_end (a b : str) k r : a ++ repeat c_sep k = b ++ r -> b <> [] -> ends_sep b = false -> exists r', a = b ++ r'.
Proof.
  revert b. induction a as [|x a IH]; intros [|y b] E Hb He; try congruence.
  - exfalso. destruct (exists_last Hb) as (b' & z & Eb). rewrite Eb, ends_sep_snoc in He.
    assert (In z (repeat c_sep k)) as Hz.
    { change (repeat c_sep k) with ([] ++ repeat c_sep k). rewrite E, Eb. apply in_or_app. left. apply in_or_app. right. left. reflexivity. }
    apply repeat_spec in Hz. subst z. discriminate.
  - simpl in E. injection E as <- E. destruct b as [|z b]; [exists a; reflexivity|].
    destruct (IH (z :: b) E ltac:(discriminate)) as [r' ->].
    { destruct (exists_last (l := z :: b) ltac:(discriminate)) as (b' & y & Eb). rewrite Eb in *. change (x :: b' ++ [y]) with ((x :: b') ++ [y]) in He.
      rewrite ends_sep_snoc in *. exact He. }
    exists r'. reflexivity.
Qed.
Lemma not_sep_end d (c : N) : c <> c_sep -> ends_sep (d ++ [c]) = false.
Proof. intros H. rewrite ends_sep_snoc. apply is_sep_false. exact H. Qed.
Lemma end_not_sep r : r <> [] -> ends_sep r = false -> exists d c, r = d ++ [c] /\ c <> c_sep.
Proof.
  intros Hr He. destruct (exists_last Hr) as (d & c & ->). exists d, c. split; [reflexivity|]. rewrite ends_sep_snoc in He.
  intros ->. discriminate.
Qed.
Lemma relative_head h n : isabs (h ++ n) = false -> (forall c, In c h -> c = c_sep) -> h = [].
Proof. destruct h as [|c h]; [reflexivity|]. intros Ha H. rewrite (H c (or_introl eq_refl)) in Ha. discriminate. Qed.
Definition parent_in (root p : str) : str := match p with [] => root | _ :: _ => addroot p root end.
Lemma placed_parent root s : placed root s ->
  fst (psplit (addroot s root)) = parent_in root (fst (psplit s)).
Proof.
  intros Hp. pose proof Hp as (Ha & Hr & He & Hq). symmetry. apply directory_iff.
  pose proof (directory_split s) as D. set (p := fst (psplit s)) in *. clearbody p.
  destruct D as (h & n & Es & Hn & Hh & Hd). subst s.
  destruct (placed_cases root _ Hp) as [[(r & Er) ->]|[Hno ->]].
  - destruct Hd as [[Hall ->]|[(k & Ek) (d' & c & Ep & Hc)]].
    { pose proof (relative_head h n Ha Hall) as ->. exfalso. apply Hn. simpl in Er. rewrite Er. apply in_or_app. right. left. reflexivity. }
    destruct (sep_before root r h n (eq_sym Er) Hn) as (r' & Eh).
    destruct (seps_end p root k (c_sep :: r')) as (q & Eq); [congruence|exact Hr|exact He|].
    assert (addroot p root = p) as Eroot.
    { destruct (addroot_cases p root) as [[_ K]|[K _]]; [exact K|]. rewrite Eq, startswith_app in K. discriminate. }
    assert (parent_in root p = p) as ->.
    { destruct p; [|exact Eroot]. destruct d'; discriminate. }
    exists h, n. split; [reflexivity|]. split; [exact Hn|]. split; [exact Hh|]. right. split; [exists k; exact Ek|].
    exists d', c. auto.
  - exists (root ++ c_sep :: h), n. split; [rewrite <- app_assoc; reflexivity|]. split; [exact Hn|].
    split.
    { right. destruct Hh as [->|(h' & ->)]; [exists root; reflexivity|]. exists (root ++ c_sep :: h'). rewrite <- app_assoc. reflexivity. }
    right. destruct Hd as [[Hall ->]|[(k & Ek) (d' & c & Ep & Hc)]].
    + pose proof (relative_head h n Ha Hall) as ->. split; [exists 1%nat; reflexivity|]. apply end_not_sep; assumption.
    + assert (isabs p = false) as Hpa.
      { subst h. destruct p; [destruct d'; discriminate|exact Ha]. }
      assert (forall q, p <> root ++ q) as Hpn by (intros q Eq; apply (Hno ((q ++ repeat c_sep k) ++ n)); rewrite Ek, Eq, <- !app_assoc; reflexivity).
      assert (addroot p root = root ++ c_sep :: p) as Eroot.
      { destruct (addroot_rel p root Hpa Hpn) as (e & -> & _ & ->). rewrite He. destruct root; [congruence|]. rewrite <- app_assoc. reflexivity. }
      assert (parent_in root p = root ++ c_sep :: p) as ->.
      { destruct p; [|exact Eroot]. destruct d'; discriminate. }
      split.
      * exists k. rewrite Ek, <- app_assoc. reflexivity.
      * exists (root ++ c_sep :: d'), c. split; [rewrite Ep, <- app_assoc; reflexivity|exact Hc].
Qed.
Lemma object_directory suffix root s o : placed root s -> ~ In c_sep suffix -> object_of suffix root s o ->
  directory o (parent_in root (fst (psplit s))).
Proof.
  intros Hp Hx (c & b & Hc & Ho). pose proof (copy_unique _ _ _ _ Hc (placed_copy root s Hp)) as ->.
  rewrite <- (placed_parent root s Hp). pose proof (directory_split (addroot s root)) as D.
  set (p := fst (psplit (addroot s root))) in *. clearbody p. destruct D as (h & n & Es & Hn & Hh & Hd).
  assert (exists e e', addroot s root = b ++ e /\ o = b ++ e' /\ ~ In c_sep e /\ ~ In c_sep e') as (e & e' & E1 & -> & N1 & N2).
  { destruct Ho as [[E1 ->]|[E1 ->]]; do 2 eexists; (split; [exact E1|]; split; [reflexivity|]; split; [|try exact Hx]);
    unfold c_sep; cbn; intros H; repeat (destruct H as [H|H]; [discriminate|]); exact H. }
  assert (exists n', b = h ++ n' /\ ~ In c_sep n') as (n' & -> & Hn').
  { rewrite E1 in Es. destruct Hh as [->|(h' & ->)].
    - exists b. split; [reflexivity|]. intros K. apply Hn. simpl in Es. rewrite <- Es. apply in_or_app. left. exact K.
    - rewrite <- app_assoc in Es. simpl in Es. symmetry in Es. destruct (sep_before _ _ _ _ Es N1) as (n' & ->).
      exists n'. split; [rewrite <- app_assoc; reflexivity|]. rewrite <- app_assoc in Es. simpl in Es. apply app_inv_head in Es.
      injection Es as ->. intros K. apply Hn. apply in_or_app. left. exact K. }
  exists h, (n' ++ e'). split; [symmetry; apply app_assoc|]. split; [|split; [exact Hh|exact Hd]].
  intros K. apply in_app_or in K as [K|K]; contradiction.
Qed.

(** With the directories that build_objects passes on, every source is compiled with the directories of
    the objects of all sources, as far as they exist by then. *)
Theorem C79_searched b ex root includes libs external_libs srcs s t o d k :
  plain_call b k -> k_includes k = objects_includes root includes libs external_libs srcs ->
  In s srcs -> In t srcs -> placed root s -> source s -> placed root t -> no_dash root ->
  object_of (oc_obj_suffix b) root t o -> directory o d -> ex d = true ->
  exists args path l, compile b ex root s None k = Some (args, path) /\ oitems args = Some l /\ In (OInc d) l.
Proof.
  intros Hk Ek Hs Ht Ps Ss Pt Hroot Ho Hd Hex.
  destruct (C79_compile b ex root s k Hk Ps Ss Hroot) as (args & path & copy & l & files & E1 & _ & _ & E2 & _ & _ & _ & _ & Hi).
  exists args, path, l. split; [exact E1|]. split; [exact E2|]. apply Hi; [exact Hex|]. left. rewrite Ek.
  pose proof (directory_unique _ _ _ Hd (object_directory _ _ _ _ Pt (pc_suffix _ _ Hk) Ho)) as ->.
  unfold objects_includes. apply set_of_in. apply in_or_app. right. apply in_or_app. right. apply in_or_app. right.
  apply in_flat_map. exists t. split; [exact Ht|]. destruct (fst (psplit t)) as [|c p]; [left; reflexivity|right; left; reflexivity].
Qed.

(** The directories of the libraries are passed on as well, and those that were given. *)
Theorem C79_library_dirs b ex root includes libs external_libs srcs s x d k :
  plain_call b k -> k_includes k = objects_includes root includes libs external_libs srcs ->
  placed root s -> source s -> no_dash root ->
  In d includes \/ (In x libs \/ In x external_libs) /\ directory x d -> ex d = true ->
  exists args path l, compile b ex root s None k = Some (args, path) /\ oitems args = Some l /\ In (OInc d) l.
Proof.
  intros Hk Ek Ps Ss Hroot Hd Hex.
  destruct (C79_compile b ex root s k Hk Ps Ss Hroot) as (args & path & copy & l & files & E1 & _ & _ & E2 & _ & _ & _ & _ & Hi).
  exists args, path, l. split; [exact E1|]. split; [exact E2|]. apply Hi; [exact Hex|]. left. rewrite Ek.
  unfold objects_includes. apply set_of_in. destruct Hd as [Hd|[Hx Hd]]; [apply in_or_app; left; exact Hd|].
  pose proof (directory_unique _ _ _ Hd (directory_split x)) as ->. apply in_or_app. right. apply in_or_app.
  destruct Hx as [Hx|Hx]; [left|right; apply in_or_app; left]; apply in_map_iff; exists x; auto.
Qed.
(** A name that is given for the object is used instead, with the suffix. *)
Theorem C79_compile_given b ex root s d k args path : d <> [] -> compile b ex root s (Some d) k = Some (args, path) ->
  path = addroot (replaceext d (if endswith s s_mli then s_cmi else oc_obj_suffix b)) root.
Proof. intros Hd H. unfold compile, run, suffix_for in H. destruct d as [|c d]; [congruence|]. injection H as _ <-. reflexivity. Qed.

(** *** Linking *)
(** The interfaces are left out; the libraries come first. *)
Definition not_cmi (o : str) : Prop := forall b, o <> b ++ [46; 99; 109; 105].
Lemma filter_not_cmi objs o : In o (linked objs) <-> In o objs /\ not_cmi o.
Proof.
  unfold linked. rewrite filter_In. unfold not_cmi. destruct (endswith o s_cmi) eqn:E; simpl; split; try tauto.
  - intros [_ K]. discriminate.
  - intros [_ K]. apply endswith_iff in E as [b E]. destruct (K b E).
  - intros [H _]. split; [exact H|]. intros b Eb. assert (endswith o s_cmi = true) by (apply endswith_iff; exists b; exact Eb). congruence.
Qed.
Lemma linked_kept objs : kept not_cmi (linked objs) objs.
Proof.
  induction objs as [|o objs IH]; [constructor|]. pose proof (filter_not_cmi [o] o) as H. unfold linked in *. simpl in *.
  destruct (negb (endswith o s_cmi)); simpl in *.
  - apply kept_take; [|exact IH]. apply H. left. reflexivity.
  - apply kept_skip; [|exact IH]. intros K. apply H. split; [left; reflexivity|exact K].
Qed.
Theorem C79_link_exe b ex root dst objs k args path :
  plain_call b k -> (forall o, In o objs -> no_dash o) -> link_exe b ex root dst objs k = Some (args, path) ->
  exists l files used, oitems args = Some l /\ o_inputs l = files ++ used /\ o_outputs l = [path] /\
    path = addroot (dst ++ oc_exe_suffix b) root /\
    Forall2 (library_file b ex) (libraries b k) files /\ kept not_cmi used objs.
Proof.
  intros Hk Ho H. destruct (plain_rest b k Hk) as (R & HR & ER). pose proof Hk as [(S & ES & HS) (P & EP & HP) _ _ (F & EF & HF) Hl Hx].
  assert (oitems (beginning b k) = Some (S ++ P ++ R)) as EB by (unfold beginning; repeat (apply oitems_cat; [assumption|]); exact ER).
  destruct (told_files b ex root _ _ k _ F args path H EB EF (quiet_app _ _ HS (quiet_app _ _ HP HR)) HF) as (l & files & E1 & E2 & E3 & E4 & _).
  - intros s Hs. apply Ho. apply filter_not_cmi in Hs as [Hs _]. exact Hs.
  - exact Hl.
  - exists l, files, (linked objs). split; [exact E1|]. split; [exact E2|]. split; [exact E3|]. split.
    + unfold link_exe, run in H. destruct (linked objs); [destruct (oc_libs b ++ k_external_libs k ++ k_libs k); [discriminate|]|]; injection H as _ <-; reflexivity.
    + split; [exact E4|apply linked_kept].
Qed.
(** Packing: the objects without the interfaces. *)
Theorem C79_packed b ex root buildroot dst objs k args path :
  plain_call b k -> (forall o, In o objs -> no_dash o) -> pack_run b ex root buildroot dst objs k = Some (args, path) ->
  exists l files used, oitems args = Some l /\ In (OOpt [45; 112; 97; 99; 107]) l /\ o_inputs l = files ++ used /\ o_outputs l = [path] /\
    path = pack b root buildroot dst /\
    Forall2 (library_file b ex) (libraries b k) files /\ kept not_cmi used objs.
Proof.
  intros Hk Ho H. destruct (plain_rest b k Hk) as (R & HR & ER). pose proof Hk as [(S & ES & HS) (P & EP & HP) _ _ (F & EF & HF) Hl Hx].
  set (k' := set_pre_flags k (k_pre_flags k ++ [w_pack])).
  assert (oitems (beginning b k') = Some (S ++ (P ++ [OOpt w_pack]) ++ R)) as EB.
  { unfold beginning, k'. cbn [set_pre_flags k_pre_flags k_debug k_optimize].
    apply oitems_cat; [exact ES|]. apply oitems_cat; [|exact ER]. apply oitems_cat; [exact EP|reflexivity]. }
  destruct (told_files b ex root _ _ k' _ F args path H EB EF) as (l & files & E1 & E2 & E3 & E4 & E5 & _).
  - apply quiet_app; [exact HS|]. apply quiet_app; [|exact HR]. apply quiet_app; [exact HP|split; reflexivity].
  - exact HF.
  - intros s Hs. apply Ho. apply filter_not_cmi in Hs as [Hs _]. exact Hs.
  - exact Hl.
  - exists l, files, (linked objs). split; [exact E1|]. split.
    { apply E5. apply in_or_app. right. apply in_or_app. left. apply in_or_app. right. left. reflexivity. }
    split; [exact E2|]. split; [exact E3|]. split.
    + unfold pack_run, run in H. destruct (linked objs); [destruct (oc_libs b ++ _ ++ _); [discriminate|]|]; injection H as _ <-; reflexivity.
    + split; [exact E4|apply linked_kept].
Qed.
(** The libraries of the call do not become part of a library. *)
Theorem C79_link_lib b ex root dst objs k args path :
  plain_call b k -> (forall o, In o objs -> no_dash o) -> link_lib b ex root dst objs k = Some (args, path) ->
  exists l files used, oitems args = Some l /\ In (OOpt [45; 97]) l /\ o_inputs l = files ++ used /\ o_outputs l = [path] /\
    path = addroot (dst ++ oc_lib_suffix b) root /\
    Forall2 (library_file b ex) (oc_libs b) files /\ kept not_cmi used objs.
Proof.
  intros Hk Ho H. destruct (plain_rest b k Hk) as (R & HR & ER). pose proof Hk as [(S & ES & HS) (P & EP & HP) _ _ (F & EF & HF) Hl Hx].
  set (k' := drop_libs (set_pre_flags k (w_a :: k_pre_flags k))).
  assert (oitems (beginning b k') = Some (S ++ ([OOpt w_a] ++ P) ++ R)) as EB.
  { unfold beginning, k'. cbn [drop_libs set_pre_flags k_pre_flags k_debug k_optimize].
    apply oitems_cat; [exact ES|]. apply oitems_cat; [|exact ER]. apply (oitems_cat [w_a]); [reflexivity|exact EP]. }
  destruct (told_files b ex root _ _ k' _ F args path H EB EF) as (l & files & E1 & E2 & E3 & E4 & E5 & _).
  - apply quiet_app; [exact HS|]. apply quiet_app; [|exact HR]. apply quiet_app; [split; reflexivity|exact HP].
  - exact HF.
  - intros s Hs. apply Ho. apply filter_not_cmi in Hs as [Hs _]. exact Hs.
  - intros x Hin. apply Hl. unfold libraries in *. cbn [k' drop_libs set_pre_flags k_external_libs k_libs] in Hin. rewrite !app_nil_r in Hin.
    apply in_or_app. left. exact Hin.
  - exists l, files, (linked objs). split; [exact E1|]. split; [apply E5; apply in_or_app; right; left; reflexivity|].
    split; [exact E2|]. split; [exact E3|]. split.
    + unfold link_lib, run in H. destruct (linked objs); [destruct (oc_libs b ++ _ ++ _); [discriminate|]|]; injection H as _ <-; reflexivity.
    + split; [|apply linked_kept]. unfold libraries in E4. cbn [k' drop_libs set_pre_flags k_external_libs k_libs] in E4.
      rewrite !app_nil_r in E4. exact E4.
Qed.

Print Assumptions C79_told.
Print Assumptions C79_compile.
Print Assumptions C79_searched.
Print Assumptions C79_library_dirs.
Print Assumptions C79_compile_given.
Print Assumptions C79_packed.
Print Assumptions C79_link_exe.
Print Assumptions C79_link_lib.
