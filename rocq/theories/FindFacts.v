(** Lemmas about the commands of ocamlfind. *)
From Coq Require Import List NArith Bool Arith Lia.
From Verif Require Import FnModel FnFacts LinkModel GccModel OcamlBuildModel OcamlBuildSpec FindModel FindSpec PropsOcamlBuild.
Import ListNotations.
Open Scope N_scope.

Lemma oitems_rest n : forall a, (length a <= n)%nat -> forall b l p, oitems a = Some l -> oitems (a ++ b) = Some p ->
  exists k, oitems b = Some k /\ p = l ++ k.
Proof.
  induction n as [|n IH]; intros [|w a] Hn b l p Ha Hp; simpl in Hn; try lia; simpl in Ha; try (injection Ha as <-; exists p; split; [exact Hp|reflexivity]).
  simpl in Hp. destruct (oword w) as [i|f].
  - destruct (oitems a) as [l'|] eqn:E; [|discriminate]. injection Ha as <-.
    destruct (oitems (a ++ b)) as [p'|] eqn:Ep; [|discriminate]. injection Hp as <-.
    destruct (IH a ltac:(lia) b l' p' E Ep) as (k & Hk & ->). exists k. split; [exact Hk|reflexivity].
  - destruct a as [|x a]; [discriminate|]. simpl in Hp. destruct (oitems a) as [l'|] eqn:E; [|discriminate]. injection Ha as <-.
    simpl in Hn. destruct (oitems (a ++ b)) as [p'|] eqn:Ep; [|discriminate]. injection Hp as <-.
    destruct (IH a ltac:(lia) b l' p' E Ep) as (k & Hk & ->). exists k. split; [exact Hk|reflexivity].
Qed.

Lemma values_app w a b : values w (a ++ b) = values w a ++ values w b.
Proof. induction a as [|[] a IH]; simpl; try exact IH; [reflexivity|]. destruct (str_eqb _ _); simpl; rewrite IH; reflexivity. Qed.
Lemma values_pairs w v l : values w (map (OOpt2 v) l) = if str_eqb v w then l else [].
Proof. induction l as [|x l IH]; simpl; [destruct (str_eqb v w); reflexivity|]. rewrite IH. destruct (str_eqb v w); reflexivity. Qed.
Lemma says_app w a b : says w (a ++ b) = says w a || says w b.
Proof. unfold says. apply existsb_app. Qed.
Lemma says_pairs w v l : says w (map (OOpt2 v) l) = false.
Proof. induction l; simpl; [reflexivity|assumption]. Qed.
Lemma others_app a b : others (a ++ b) = others a ++ others b.
Proof. unfold others. apply filter_app. Qed.
Lemma others_pairs v l : (forall x, is_find (OOpt2 v x) = true) -> others (map (OOpt2 v) l) = [].
Proof. intros H. induction l as [|x l IH]; [reflexivity|]. unfold others in *. simpl map. cbn [filter]. rewrite H. exact IH. Qed.

Definition link_items (b : bool) : list oitem := if b then [OOpt s_linkpkg] else [].
Definition find_items (self call : libs_of) : list oitem :=
  map (OOpt2 s_package) (fi_packages self ++ fi_packages call) ++
  map (OOpt2 s_syntax) (fi_syntaxes self ++ fi_syntaxes call) ++ map (OOpt2 s_ppopt) (fi_ppopts self ++ fi_ppopts call).
Lemma find_items_read self call (flags : list str) F : oitems flags = Some F -> oitems (extended flags self call) = Some (F ++ find_items self call).
Proof.
  intros H. unfold extended. apply oitems_cat; [exact H|]. unfold find_items.
  apply oitems_cat; [rewrite (oitems_pairs w_package (OOpt2 s_package) (fun x => x)) by reflexivity; reflexivity|].
  apply oitems_cat; [rewrite (oitems_pairs w_syntax (OOpt2 s_syntax) (fun x => x)) by reflexivity; reflexivity|].
  rewrite (oitems_pairs w_ppopt (OOpt2 s_ppopt) (fun x => x)) by reflexivity. reflexivity.
Qed.

(** Reading the words before and after what is added. *)
Lemma told_words cmd self call b X Y A P : oitems X = Some A -> oitems (X ++ Y) = Some P ->
  told cmd self call b P (cmd :: extended (X ++ (if b then [w_linkpkg] else [])) self call ++ Y).
Proof.
  intros HX HP. destruct (oitems_rest _ X (le_n _) Y A P HX HP) as (B & HB & ->).
  exists (extended (X ++ (if b then [w_linkpkg] else [])) self call ++ Y), ((A ++ link_items b) ++ find_items self call ++ B).
  split; [reflexivity|]. split.
  { rewrite app_assoc. apply oitems_cat; [|exact HB]. apply find_items_read. apply oitems_cat; [exact HX|]. destruct b; reflexivity. }
  unfold find_items.
  assert (values s_package (link_items b) = [] /\ values s_syntax (link_items b) = [] /\ values s_ppopt (link_items b) = [] /\
    others (link_items b) = [] /\ says s_linkpkg (link_items b) = b) as (V1 & V2 & V3 & V4 & V5) by (destruct b; repeat split; reflexivity).
  split; [|split; [|split; [|split]]].
  - rewrite !others_app, V4, !others_pairs by (intros; reflexivity). rewrite ?app_nil_r. reflexivity.
  - rewrite !values_app, V1, !values_pairs. change (str_eqb s_package s_package) with true. change (str_eqb s_syntax s_package) with false.
    change (str_eqb s_ppopt s_package) with false. cbv iota. rewrite ?app_nil_r. eexists _, _. split; reflexivity.
  - rewrite !values_app, V2, !values_pairs. change (str_eqb s_package s_syntax) with false. change (str_eqb s_syntax s_syntax) with true.
    change (str_eqb s_ppopt s_syntax) with false. cbv iota. rewrite ?app_nil_r. eexists _, _. split; reflexivity.
  - rewrite !values_app, V3, !values_pairs. change (str_eqb s_package s_ppopt) with false. change (str_eqb s_syntax s_ppopt) with false.
    change (str_eqb s_ppopt s_ppopt) with true. cbv iota. rewrite ?app_nil_r. eexists _, _. split; reflexivity.
  - rewrite !says_app, V5, !says_pairs. simpl. destruct (says s_linkpkg A), (says s_linkpkg B), b; reflexivity.
Qed.

(** The words of a command up to the flags. *)
Definition up_to_flags (b : ocaml) (ex : str -> bool) (dst : str) (k : ocall) : list str :=
  beginning b k ++ flat_map (fun i => [w_I; i]) (filter ex (sorted (set_of (k_includes k ++ oc_includes b ++ [fst (PathModel.psplit dst)])))) ++
  (if k_custom k then [w_custom] else []) ++ with_word w_cc (match k_cc k with Some c => Some c | None => oc_cc b end) ++
  flat_map (fun l => [w_cclib; if ex l then l else w_l ++ l]) (oc_c_libs b ++ k_c_libs k) ++
  with_word w_pp (k_preprocessor k) ++ with_word w_for_pack (k_for_pack k) ++ oc_flags b ++ k_flags k.
Definition from_out (b : ocaml) (ex : str -> bool) (dst : str) (srcs : list str) (k : ocall) : list str :=
  [w_o; dst] ++ map (lib_file b ex) (libraries b k) ++ srcs.
Lemma run_words b ex root dst srcs k args path : run b ex root dst srcs k = Some (args, path) ->
  path = PathModel.addroot dst root /\ args = up_to_flags b ex path k ++ from_out b ex path srcs k.
Proof.
  unfold run, up_to_flags, from_out, beginning, libraries. set (d := PathModel.addroot dst root). intros H.
  assert (forall s x, wanted (Some s) x = chosen s x) as Hw by (intros [] [[]|]; reflexivity). rewrite <- !Hw.
  destruct srcs; [destruct (oc_libs b ++ k_external_libs k ++ k_libs k) eqn:E; [discriminate|]|]; injection H as <- <-;
    (split; [reflexivity|]); rewrite <- !app_assoc; reflexivity.
Qed.
Lemma up_to_read b ex dst k P F : oitems (beginning b k) = Some P -> oitems (oc_flags b ++ k_flags k) = Some F ->
  exists A, oitems (up_to_flags b ex dst k) = Some A.
Proof.
  intros HP HF. eexists. unfold up_to_flags. apply oitems_cat; [exact HP|].
  apply oitems_cat; [rewrite (oitems_pairs w_I OInc (fun i => i)) by reflexivity; reflexivity|].
  apply oitems_cat; [instantiate (1 := if k_custom k then [OOpt w_custom] else []); destruct (k_custom k); reflexivity|].
  apply oitems_cat; [apply (oitems_with w_cc (OOpt2 w_cc)); reflexivity|].
  apply oitems_cat; [apply (oitems_pairs w_cclib (OOpt2 w_cclib) (fun l => if ex l then l else w_l ++ l)); reflexivity|].
  apply oitems_cat; [apply (oitems_with w_pp (OOpt2 w_pp)); reflexivity|].
  apply oitems_cat; [apply (oitems_with w_for_pack (OOpt2 w_for_pack)); reflexivity|]. exact HF.
Qed.
(** The run of ocamlfind and that of the plain builder. *)
Lemma find_words f ex root dst srcs k l (b : bool) :
  let k' := if b then set_flags k (k_flags k ++ [w_linkpkg]) else k in
  match run (fi_base f) ex root dst srcs k with
  | None => find_run f ex root dst srcs k' l = None
  | Some (plain, path) =>
      exists X Y, plain = X ++ Y /\ X = up_to_flags (fi_base f) ex path k /\
      find_run f ex root dst srcs k' l = Some (fi_cmd f :: extended (X ++ (if b then [w_linkpkg] else [])) (fi_libs f) l ++ Y, path)
  end.
Proof.
  intros k'. destruct (run (fi_base f) ex root dst srcs k) as [[plain path]|] eqn:E.
  - pose proof (run_words _ _ _ _ _ _ _ _ E) as [-> ->]. eexists _, _. split; [reflexivity|]. split; [reflexivity|].
    unfold find_run.
    destruct (run (as_ocaml f) ex root dst srcs (with_find f k' l)) as [[args path]|] eqn:E'.
    + pose proof (run_words _ _ _ _ _ _ _ _ E') as [-> ->]. apply f_equal. apply f_equal2; [|reflexivity].
      unfold up_to_flags, beginning, from_out, libraries, extended, k'. destruct b; simpl; unfold extended; rewrite <- ?app_assoc, ?app_nil_r; simpl; rewrite <- ?app_assoc; reflexivity.
    + exfalso. unfold run in E, E'. unfold k' in E'. destruct b; simpl in E'; destruct srcs; try discriminate;
        destruct (oc_libs (fi_base f) ++ k_external_libs k ++ k_libs k); discriminate.
  - unfold find_run, run in *. unfold k'. destruct b; simpl; destruct srcs; try discriminate;
      destruct (oc_libs (fi_base f) ++ k_external_libs k ++ k_libs k); try discriminate; reflexivity.
Qed.
