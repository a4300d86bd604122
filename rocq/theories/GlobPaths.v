(** Globbing computes the results of GlobFacts, and what these are. *)
From Coq Require Import List NArith Bool Arith Lia.
From Verif Require Import FnModel FnSpec FnFacts PathModel PathSpec PathFacts GlobModel GlobSpec GlobFacts.
Import ListNotations.
Open Scope N_scope.

(** * Splitting what was joined *)
Definition dir_text (d : str) : Prop := forallb is_sep d = true \/ ends_sep d = false.
Lemma ends_sep_false_snoc d : d <> [] -> ends_sep d = false -> exists d' c, d = d' ++ [c] /\ is_sep c = false.
Proof.
  destruct d as [|c d] using rev_ind; [congruence|]. intros _ E. rewrite ends_sep_snoc in E. exists d, c. split; [reflexivity|exact E].
Qed.
Lemma psplit_join d c : name_ok c -> dir_text d -> psplit (pjoin d c) = (d, c).
Proof.
  intros [Hc Hs] Hd. pose proof (rel_name c Hc Hs) as Hr. unfold psplit. destruct d as [|x d].
  - rewrite pjoin_nil, (cut_none c Hs). reflexivity.
  - unfold pjoin. rewrite Hr. destruct (ends_sep (x :: d)) eqn:E.
    + destruct Hd as [Hd|Hd]; [|congruence]. rewrite cut_app; [|right; destruct (ends_sep_true _ E) as [d' Ed]; exists d'; exact Ed|exact Hs].
      rewrite Hd. reflexivity.
    + rewrite (cut_sep (x :: d) c Hs). destruct (ends_sep_false_snoc (x :: d)) as (d' & y & Ed & Ey); [discriminate|exact E|].
      rewrite Ed. rewrite !forallb_app. cbn [forallb]. rewrite Ey. cbn. rewrite !andb_false_r. cbn.
      rewrite (rstrip_snoc d' y Ey). reflexivity.
Qed.
Lemma ends_sep_join d c : name_ok c -> ends_sep (pjoin d c) = false.
Proof.
  intros [Hc Hs]. assert (forall a : str, ends_sep (a ++ c) = false) as H.
  { intros a. destruct c as [|x c] using rev_ind; [congruence|]. rewrite app_assoc, ends_sep_snoc. apply is_sep_false. intros ->.
    apply Hs. apply in_or_app. right. left. reflexivity. }
  unfold pjoin. rewrite (rel_name c Hc Hs). destruct d as [|y d]; [exact (H [])|]. destruct (ends_sep (y :: d)); [apply H|].
  change (c_sep :: c) with ([c_sep] ++ c). rewrite app_assoc. apply H.
Qed.
Lemma has_magic_app a b : has_magic (a ++ b) = has_magic a || has_magic b.
Proof. apply existsb_app. Qed.
Lemma has_magic_join d c : name_ok c -> has_magic (pjoin d c) = has_magic d || has_magic c.
Proof.
  intros [Hc Hs]. unfold pjoin. rewrite (rel_name c Hc Hs). destruct d as [|y d]; [reflexivity|]. destruct (ends_sep (y :: d)); rewrite has_magic_app; reflexivity.
Qed.
Lemma pjoin_longer d c : name_ok c -> (length d < length (pjoin d c))%nat.
Proof.
  intros [Hc Hs]. unfold pjoin. rewrite (rel_name c Hc Hs). destruct d as [|y d]; [destruct c; [congruence|cbn; lia]|].
  destruct (ends_sep (y :: d)); rewrite app_length; [destruct c; [congruence|cbn; lia]|cbn; lia].
Qed.
Lemma comp_name rec c : comp_ok rec c -> name_ok (comp_text c).
Proof. intros (H1 & H2 & _). split; assumption. Qed.

Definition text_of (b : str) (rcs : list comp) : str := put b (map comp_text (rev rcs)).
Lemma text_of_cons b c rcs : text_of b (c :: rcs) = pjoin (text_of b rcs) (comp_text c).
Proof. unfold text_of. cbn [rev]. rewrite map_app. cbn [map]. apply put_snoc. Qed.
Lemma text_of_dir rec b rcs : base_ok b -> Forall (comp_ok rec) rcs -> dir_text (text_of b rcs).
Proof.
  intros [_ Hb] H. destruct rcs as [|c rcs]; [exact Hb|]. right. rewrite text_of_cons. apply ends_sep_join.
  apply Forall_cons_iff in H. exact (comp_name rec c (proj1 H)).
Qed.
Definition starts_magic (rcs : list comp) : Prop := exists c rcs', rcs = rcs' ++ [c] /\ is_magic c.
Lemma magic_text rec c : comp_ok rec c -> is_magic c -> has_magic (comp_text c) = true.
Proof. intros (_ & _ & H) Hm. destruct c as [s|g|]; [destruct Hm|exact (proj1 (proj2 H))|reflexivity]. Qed.
Lemma text_of_magic rec b rcs : Forall (comp_ok rec) rcs -> starts_magic rcs -> has_magic (text_of b rcs) = true.
Proof.
  intros H (c & rcs' & -> & Hm). induction rcs' as [|c' rcs' IH].
  - cbn [app] in *. rewrite text_of_cons. apply Forall_cons_iff in H. destruct H as [Hc _].
    rewrite (has_magic_join _ _ (comp_name rec c Hc)), (magic_text rec c Hc Hm). apply orb_true_r.
  - cbn [app] in *. apply Forall_cons_iff in H. destruct H as [Hc H]. rewrite text_of_cons, (has_magic_join _ _ (comp_name rec c' Hc)), (IH H). reflexivity.
Qed.

Section World.
  Variable w : world.
  Hypothesis w_ok : world_ok w.
  Let root_ok : tree_ok (w_root w) := proj1 w_ok.

  Definition in_dir (rec : bool) (d basename : str) : option (list str) :=
    if has_magic basename
    then if rec && isrecursive basename then Some (glob2 w d) else glob1 w d basename
    else Some (glob0 w d basename).

  Lemma glob1_spec g d : pattern_ok g ->
    glob1 w d (show g) = Some (filter (keeps g) (map fst (entries_of (node_of w (dwalk w d))))).
  Proof.
    intros Hg. unfold glob1, listdir. rewrite (stat_or_dot w w_ok d).
    destruct (node_of w (dwalk w d)) as [[|es]|]; [reflexivity| |reflexivity]. cbn [entries_of].
    apply (proj2 (fn_filter_ok [] _ (show g) _)). split.
    - intros n. destruct (fnmatch_exact g n Hg) as (b & Hb & _). exists b. exact Hb.
    - generalize (map fst es) as l. intros l. unfold keeps. destruct (ishidden (show g)); [reflexivity|]. cbn [orb].
      induction l as [|x l IH]; [reflexivity|]. cbn [filter]. rewrite IH. destruct (ishidden x); [reflexivity|]. cbn [negb andb filter].
      destruct (match fnmatch x (show g) with Some b => b | None => false end); reflexivity.
  Qed.
  Lemma glob0_spec s d : name_ok s ->
    glob0 w d s = match dwalk w d with
                  | Some loc => match enter w loc s with Some _ => [s] | None => [] end
                  | None => []
                  end.
  Proof.
    intros [H1 H2]. unfold glob0, lexists, stat. destruct s as [|c s]; [congruence|]. rewrite (resolve_join w w_ok d _ H1 H2).
    destruct (dwalk w d) as [loc|]; [|reflexivity]. destruct (enter w loc (c :: s)) as [loc'|] eqn:E; [|reflexivity].
    destruct (enter_exists w w_ok _ _ _ E) as [n ->]. reflexivity.
  Qed.
  Lemma in_dir_extend rec c r : comp_ok rec c -> good w r ->
    option_map (map (pjoin (path_of r))) (in_dir rec (path_of r) (comp_text c)) = Some (map path_of (extend w c r)).
  Proof.
    intros Hc [Hd Hx]. destruct r as [[d xs] l]. unfold path_of, names_of, loc_of in Hd, Hx. cbn [fst snd] in Hd, Hx.
    unfold path_of at 1 2. cbn [fst snd]. pose proof (comp_name rec c Hc) as Hn. destruct Hc as (_ & _ & Hc). unfold in_dir.
    destruct c as [s|g|]; cbn [comp_text extend] in *.
    - rewrite Hc, (glob0_spec s d Hn), Hd. destruct l as [loc|]; [|reflexivity]. destruct (enter w loc s); reflexivity.
    - destruct Hc as (Hg & Hm & Hr). rewrite Hm.
      assert (rec && isrecursive (show g) = false) as ->.
      { destruct rec; [|reflexivity]. cbn. unfold isrecursive. destruct (str_eqb (show g) str_deep) eqn:E; [|reflexivity].
        apply str_eqb_true in E. destruct (Hr eq_refl E). }
      rewrite (glob1_spec g d Hg), Hd. cbn [option_map]. rewrite !map_map. reflexivity.
    - rewrite Hc. change (has_magic str_deep) with true. change (isrecursive str_deep) with true. cbn [andb].
      unfold glob2. cbn [option_map map]. rewrite (rlistdir_spec w w_ok), Hd. fold (top w). do 2 f_equal.
      destruct (node_of w l) as [n|] eqn:En; [|reflexivity]. rewrite !map_map. apply map_ext_in. intros ys Hy.
      assert (tree_ok n) as Ht by (destruct l as [loc|]; [exact (tree_ok_at _ _ _ root_ok En)|discriminate]).
      unfold path_of. cbn [fst]. apply pjoin_put; [exact (descents_nonnil _ _ _ Hy)|exact (descents_names _ _ _ Ht Hy)].
  Qed.
  Lemma gather_map rec c rs : comp_ok rec c -> Forall (good w) rs ->
    gather (fun d => option_map (map (pjoin d)) (in_dir rec d (comp_text c))) (map path_of rs) =
    Some (map path_of (flat_map (extend w c) rs)).
  Proof.
    intros Hc H. induction rs as [|r rs IH]; [reflexivity|]. apply Forall_cons_iff in H. destruct H as [Hr H].
    cbn [map gather flat_map]. rewrite (in_dir_extend rec c r Hc Hr), (IH H). cbn [option_map]. rewrite map_app. reflexivity.
  Qed.
  Lemma iglob_results rec b rcs : forall fuel,
    base_ok b -> Forall (comp_ok rec) rcs -> starts_magic rcs -> (length (text_of b rcs) < fuel)%nat ->
    iglob_ fuel w rec (text_of b rcs) = Some (map path_of (results w b rcs)).
  Proof.
    induction rcs as [|c rcs IH]; intros fuel Hb H Hs Hf.
    { destruct Hs as (c & rcs' & E & _). destruct rcs'; discriminate E. }
    pose proof (text_of_magic rec b _ H Hs) as Hm. apply Forall_cons_iff in H. destruct H as [Hc H].
    pose proof (comp_name rec c Hc) as Hn. pose proof (text_of_dir rec b rcs Hb H) as Hd.
    destruct fuel as [|fuel]; [lia|]. cbn [iglob_]. rewrite text_of_cons in *.
    rewrite (psplit_join _ _ Hn Hd), Hm. cbn [negb]. set (D := text_of b rcs) in *.
    pose proof (results_good w w_ok rec b rcs H) as Hg.
    assert (gather (fun d => option_map (map (pjoin d)) (in_dir rec d (comp_text c))) (map path_of (results w b rcs)) =
      Some (map path_of (results w b (c :: rcs)))) as Hgm by (apply gather_map; assumption).
    destruct D as [|x D'] eqn:ED; subst D.
    - (* no directory part *)
      assert (rcs = [] /\ b = []) as [-> ->].
      { destruct rcs as [|c' rcs].
        - unfold text_of in ED. cbn in ED. split; [reflexivity|exact ED].
        - exfalso. rewrite text_of_cons in ED. apply Forall_cons_iff in H. destruct (comp_name rec c' (proj1 H)) as [Hne _].
          exact (pjoin_nonnil _ _ Hne ED). }
      cbn [results map gather] in Hgm. unfold path_of at 1 2 in Hgm. cbn [fst] in Hgm.
      assert (is_magic c) as Hmc by (destruct Hs as (c' & rcs' & E & Hmc); destruct rcs' as [|? [|]]; [injection E as <-; exact Hmc|discriminate E|discriminate E]).
      unfold in_dir in Hgm. rewrite (magic_text rec c Hc Hmc) in Hgm.
      assert (forall o : option (list str), option_map (map (pjoin [])) o = o) as Ho.
      { intros [l|]; [|reflexivity]. cbn. f_equal. rewrite <- (map_id l) at 2. apply map_ext. apply pjoin_nil. }
      rewrite Ho in Hgm. cbn [results map]. destruct (rec && isrecursive (comp_text c)).
      + cbn [option_map] in Hgm. rewrite app_nil_r in Hgm. exact Hgm.
      + destruct (glob1 w [] (comp_text c)) as [l|]; [|discriminate Hgm]. cbn in Hgm. rewrite app_nil_r in Hgm. exact Hgm.
    - cbv iota. rewrite <- ED in *. clear ED D' x.
      assert (str_eqb (text_of b rcs) (pjoin (text_of b rcs) (comp_text c)) = false) as ->.
      { destruct (str_eqb _ _) eqn:E; [|reflexivity]. apply str_eqb_true in E. pose proof (pjoin_longer (text_of b rcs) _ Hn) as Hl.
        rewrite <- E in Hl. lia. }
      cbn [negb andb]. destruct rcs as [|c' rcs].
      + unfold text_of in *. cbn [rev map put fold_left] in *. rewrite (proj1 Hb). exact Hgm.
      + assert (starts_magic (c' :: rcs)) as Hs'.
        { destruct Hs as (c0 & rcs0 & E & Hm0). destruct rcs0 as [|c1 rcs0]; [discriminate E|]. injection E as _ E. exists c0, rcs0. split; [exact E|exact Hm0]. }
        rewrite (text_of_magic rec b _ H Hs'). rewrite (IH fuel Hb H Hs'); [exact Hgm|].
        pose proof (pjoin_longer (text_of b (c' :: rcs)) _ Hn). lia.
  Qed.

  (** * Meaning of the results *)
  Lemma reaches_app cs : forall cs' loc xs loc2, reaches w (cs ++ cs') loc xs loc2 <->
    exists xs1 loc1 xs2, reaches w cs loc xs1 loc1 /\ reaches w cs' loc1 xs2 loc2 /\ xs = xs1 ++ xs2.
  Proof.
    induction cs as [|c cs IH]; intros cs' loc xs loc2.
    - cbn [app]. split; [intros H; exists [], loc, xs; split; [constructor|split; [exact H|reflexivity]]|].
      intros (xs1 & loc1 & xs2 & H1 & H2 & ->). inversion H1; subst. exact H2.
    - cbn [app]. split.
      + intros H. inversion H as [|s cs0 l0 l1 ys l2 He Hr|g cs0 l0 x ys l2 Hc Hl Hh Hr|cs0 l0 ys zs l2 Hd Hds Hr]; subst;
          apply IH in Hr; destruct Hr as (xs1 & loc1 & xs2 & H1 & H2 & ->).
        * exists (s :: xs1), loc1, xs2. split; [eapply reaches_name; eassumption|]. split; [exact H2|reflexivity].
        * exists (x :: xs1), loc1, xs2. split; [eapply reaches_glob; eassumption|]. split; [exact H2|reflexivity].
        * exists (ys ++ xs1), loc1, xs2. split; [eapply reaches_deep; eassumption|]. split; [exact H2|apply app_assoc].
      + intros (xs1 & loc1 & xs2 & H1 & H2 & ->).
        inversion H1 as [|s cs0 l0 l1 ys l2 He Hr|g cs0 l0 x ys l2 Hc Hl Hh Hr|cs0 l0 ys zs l2 Hd Hds Hr]; subst.
        * cbn [app]. eapply reaches_name; [exact He|]. apply IH. exists ys, loc1, xs2. auto.
        * cbn [app]. eapply reaches_glob; try eassumption. apply IH. exists ys, loc1, xs2. auto.
        * rewrite <- app_assoc. eapply reaches_deep; try eassumption. apply IH. exists zs, loc1, xs2. auto.
  Qed.
  Lemma keeps_spec g x : pattern_ok g -> ~ In c_nl x -> (keeps g x = true <-> lang anything g x /\ (hidden x -> hidden (show g))).
  Proof.
    intros Hg Hn. unfold keeps. destruct (fnmatch_lang g x Hg Hn) as (b & -> & Hb). rewrite andb_true_iff, Hb.
    rewrite orb_true_iff, negb_true_iff. split.
    - intros [H1 H2]. split; [exact H2|]. intros Hx. apply ishidden_iff in Hx. destruct H1 as [H1|H1]; [apply ishidden_iff; exact H1|congruence].
    - intros [H2 H1]. split; [|exact H2]. destruct (ishidden x) eqn:E; [left; apply ishidden_iff; apply H1; apply ishidden_iff; exact E|right; reflexivity].
  Qed.
  Lemma descents_top loc n ys : node_at (w_root w) loc = Some n ->
    (In ys (descents (top w) n) <-> ys <> [] /\ descends w loc ys).
  Proof.
    intros En. rewrite (descents_spec (top w) n ys (tree_ok_at _ _ _ root_ok En)).
    2: { pose proof (height_at _ _ _ En). unfold top. lia. }
    rewrite (descends_spec w w_ok). rewrite node_at_app, En. split.
    - intros (H1 & [n' H2] & H3). split; [exact H1|]. right. exists n'. split; assumption.
    - intros (H1 & [H2|(n' & H2 & H3)]); [contradiction|]. split; [exact H1|]. split; [exists n'; exact H2|exact H3].
  Qed.
  Lemma extend_spec rec c d xs loc zs loc' : comp_ok rec c ->
    ((exists d', In (d', zs, Some loc') (extend w c (d, xs, Some loc))) <->
     exists ys, zs = xs ++ ys /\ reaches w [c] loc ys loc').
  Proof.
    intros Hc. pose proof (comp_name rec c Hc) as [Hn Hsep]. destruct Hc as (_ & _ & Hc).
    destruct c as [s|g|]; cbn [comp_text] in *.
    - cbn [extend]. split.
      + intros [d' H]. destruct (enter w loc s) as [l1|] eqn:E; [|destruct H]. destruct H as [H|[]]. injection H as _ <- <-.
        exists [s]. split; [reflexivity|]. apply (enter_name w w_ok _ _ _ Hn) in E. eapply reaches_name; [exact E|constructor].
      + intros (ys & -> & H). inversion H as [|s0 cs0 l0 l1 ys0 l2 He Hr| |]; subst. inversion Hr; subst.
        apply (enter_name w w_ok _ _ _ Hn) in He. rewrite He. exists (pjoin d s). left. reflexivity.
    - cbn [extend option_map]. destruct Hc as (Hg & _). split.
      + intros [d' H]. apply in_map_iff in H. destruct H as (x & H & Hi). injection H as _ <- <-. apply filter_In in Hi. destruct Hi as [Hi Hk].
        apply in_map_iff in Hi. destruct Hi as ([x' m] & E & Hi). cbn in E. subst x'. cbn [node_of] in Hi.
        destruct (node_at (w_root w) loc) as [[|es]|] eqn:En; [destruct Hi| |destruct Hi]. cbn [entries_of] in Hi.
        assert (child w loc x) as Hch by (apply (child_at w w_ok); exists es, m; split; assumption).
        destruct (child_name w w_ok _ _ Hch) as (_ & _ & Hnl & _). apply (keeps_spec g x Hg Hnl) in Hk. destruct Hk as [Hl Hh].
        exists [x]. split; [reflexivity|]. eapply reaches_glob; try eassumption. constructor.
      + intros (ys & -> & H). inversion H as [| |g0 cs0 l0 x ys0 l2 Hch Hl Hh Hr|]; subst. inversion Hr; subst.
        destruct (child_name w w_ok _ _ Hch) as (_ & _ & Hnl & _). apply (child_at w w_ok) in Hch. destruct Hch as (es & m & En & Hi).
        exists (pjoin d x). apply in_map_iff. exists x. split; [reflexivity|]. apply filter_In. split.
        * cbn [node_of]. rewrite En. apply (in_map fst) in Hi. exact Hi.
        * apply (keeps_spec g x Hg Hnl). split; assumption.
    - cbn [extend option_map dir_only]. split.
      + intros [d' [H|H]].
        * injection H as _ <- H. apply (enter_empty w w_ok) in H. destruct H as [Hd ->]. exists []. split; [symmetry; apply app_nil_r|].
          apply (reaches_deep w [] loc [] [] loc Hd); [constructor|rewrite app_nil_r; constructor].
        * apply in_map_iff in H. destruct H as (ys & H & Hi). injection H as _ <- <-. cbn [node_of] in Hi.
          destruct (node_at (w_root w) loc) as [n|] eqn:En; [|destruct Hi].
          pose proof Hi as Hi2. apply (descents_top loc n ys En) in Hi2. destruct Hi2 as [Hy Hd].
          exists ys. split; [reflexivity|]. rewrite <- (app_nil_r ys) at 1. apply reaches_deep; [|exact Hd|constructor].
          apply (is_dir_at w w_ok). destruct n as [|es]; [destruct Hi|]. exists es. exact En.
      + intros (ys & -> & H). inversion H as [| | |cs0 l0 ys0 zs0 l2 Hd Hds Hr]; subst. inversion Hr; subst. rewrite !app_nil_r.
        destruct ys0 as [|y ys0].
        * rewrite !app_nil_r. exists (pjoin d []). left. f_equal. apply (enter_empty w w_ok). split; [exact Hd|reflexivity].
        * exists (put d (y :: ys0)). right. apply in_map_iff. exists (y :: ys0). split; [reflexivity|]. cbn [node_of].
          apply (is_dir_at w w_ok) in Hd. destruct Hd as [es En]. rewrite En. apply (descents_top loc _ _ En). split; [discriminate|exact Hds].
  Qed.
  Lemma extend_none c d xs r : In r (extend w c (d, xs, None)) -> c = CDeep /\ r = (pjoin d [], xs, None).
  Proof.
    destruct c as [s|g|]; cbn; [intros []|intros []|]. intros [<-|[]]. split; reflexivity.
  Qed.
  Lemma results_reach rec b rcs loc0 : Forall (comp_ok rec) rcs -> dwalk w b = Some loc0 -> forall xs loc,
    ((exists d, In (d, xs, Some loc) (results w b rcs)) <-> reaches w (rev rcs) loc0 xs loc).
  Proof.
    intros H Hb. induction rcs as [|c rcs IH]; intros xs loc.
    - cbn [results rev]. split.
      + intros [d [E|[]]]. injection E as _ <- E. rewrite Hb in E. injection E as <-. constructor.
      + intros Hr. inversion Hr; subst. exists b. left. rewrite Hb. reflexivity.
    - apply Forall_cons_iff in H. destruct H as [Hc H]. specialize (IH H). cbn [results rev]. rewrite reaches_app. split.
      + intros [d Hi]. apply in_flat_map in Hi. destruct Hi as ([[d1 xs1] [l1|]] & H1 & Hi).
        2: { apply extend_none in Hi. destruct Hi as [_ Hi]. discriminate Hi. }
        destruct (proj1 (extend_spec rec c d1 xs1 l1 xs loc Hc) (ex_intro _ d Hi)) as (ys & -> & Hr).
        exists xs1, l1, ys. split; [apply IH; exists d1; exact H1|]. split; [exact Hr|reflexivity].
      + intros (xs1 & loc1 & xs2 & H1 & H2 & ->). apply IH in H1. destruct H1 as [d1 H1].
        destruct (proj2 (extend_spec rec c d1 xs1 loc1 (xs1 ++ xs2) loc Hc) (ex_intro _ xs2 (conj eq_refl H2))) as [d Hd].
        exists d. apply in_flat_map. exists (d1, xs1, Some loc1). split; assumption.
  Qed.
  Lemma results_none b rcs r : dwalk w b = None -> In r (results w b rcs) -> loc_of r = None.
  Proof.
    intros Hb. revert r. induction rcs as [|c rcs IH]; intros r Hr.
    - destruct Hr as [<-|[]]. exact Hb.
    - cbn in Hr. apply in_flat_map in Hr. destruct Hr as ([[d xs] l] & H1 & Hr). specialize (IH _ H1). cbn in IH. subst l.
      apply extend_none in Hr. destruct Hr as [_ ->]. reflexivity.
  Qed.
  Lemma results_some b c rcs r : c <> CDeep -> In r (results w b (c :: rcs)) -> exists loc, loc_of r = Some loc.
  Proof.
    intros Hc Hr. cbn in Hr. apply in_flat_map in Hr. destruct Hr as ([[d xs] [l|]] & H1 & Hr).
    - destruct c as [s|g|]; [| |congruence]; cbn in Hr.
      + destruct (enter w l s) as [l'|]; [|destruct Hr]. destruct Hr as [<-|[]]. exists l'. reflexivity.
      + apply in_map_iff in Hr. destruct Hr as (x & <- & _). eexists. reflexivity.
    - apply extend_none in Hr. destruct Hr as [Hr _]. contradiction.
  Qed.

  (** The path of a result. *)
  Lemma put_slash d ys : ys <> [] -> Forall name_ok ys -> put (pjoin d []) ys = put d ys.
  Proof.
    intros Hy H. destruct ys as [|y ys]; [congruence|]. apply Forall_cons_iff in H. destruct H as [Hn _].
    unfold put. cbn [fold_left]. rewrite (pjoin_slash_name d y Hn). reflexivity.
  Qed.
  Lemma slash_slash d : pjoin (pjoin d []) [] = pjoin d [].
  Proof.
    unfold pjoin at 2 3. cbn [isabs]. destruct d as [|c d]; [reflexivity|]. destruct (ends_sep (c :: d)) eqn:E.
    - rewrite app_nil_r. unfold pjoin. cbn [isabs]. rewrite E. apply app_nil_r.
    - assert (forall a, a <> [] -> ends_sep a = true -> pjoin a [] = a ++ []) as Hj.
      { intros a Ha Ea. unfold pjoin. cbn [isabs]. rewrite Ea. destruct a; [congruence|reflexivity]. }
      rewrite Hj; [apply app_nil_r|discriminate|rewrite ends_sep_snoc; reflexivity].
  Qed.
  Lemma results_path rec b rcs r : Forall (comp_ok rec) rcs -> In r (results w b rcs) ->
    path_of r = put b (names_of r) \/ ((exists rcs', rcs = CDeep :: rcs') /\ path_of r = pjoin (put b (names_of r)) []).
  Proof.
    intros H. revert r. induction rcs as [|c rcs IH]; intros r Hr.
    - destruct Hr as [<-|[]]. left. reflexivity.
    - apply Forall_cons_iff in H. destruct H as [Hc H]. cbn [results] in Hr. apply in_flat_map in Hr. destruct Hr as ([[d xs] l] & H1 & Hr).
      specialize (IH H _ H1). unfold path_of, names_of in IH. cbn [fst snd] in IH.
      assert (forall x, name_ok x -> pjoin d x = put b (xs ++ [x])) as Hj.
      { intros x Hx. rewrite put_snoc. destruct IH as [->|[_ ->]]; [reflexivity|apply pjoin_slash_name; exact Hx]. }
      pose proof (extend_good w w_ok rec c _ Hc (proj1 (Forall_forall _ _) (results_good w w_ok rec b rcs H) _ H1)) as Hg.
      pose proof (proj1 (Forall_forall _ _) Hg r Hr) as [_ Hnames].
      destruct c as [s|g|]; cbn [extend] in Hr.
      + left. destruct l as [loc|]; [|destruct Hr]. destruct (enter w loc s); [|destruct Hr]. destruct Hr as [<-|[]].
        apply Hj. exact (comp_name rec _ Hc).
      + left. apply in_map_iff in Hr. destruct Hr as (x & <- & Hi). unfold names_of in Hnames. cbn [fst snd] in Hnames.
        apply Forall_app in Hnames. destruct Hnames as [_ Hx]. apply Forall_cons_iff in Hx. apply Hj. exact (proj1 Hx).
      + destruct Hr as [<-|Hr].
        * right. split; [eexists; reflexivity|]. unfold path_of, names_of. cbn [fst snd]. destruct IH as [->|[_ ->]]; [reflexivity|apply slash_slash].
        * left. apply in_map_iff in Hr. destruct Hr as (ys & <- & Hi). unfold path_of, names_of in *. cbn [fst snd] in *.
          apply Forall_app in Hnames. destruct Hnames as [_ Hy].
          assert (ys <> []) as Hne by (destruct (node_of w l); [exact (descents_nonnil _ _ _ Hi)|destruct Hi]).
          rewrite put_app. destruct IH as [->|[_ ->]]; [reflexivity|apply put_slash; assumption].
  Qed.

  (** * No path twice *)
  Definition nonempty (x : str) : bool := match x with [] => false | _ => true end.
  Definition solid (d : str) : list str := filter nonempty (PathSpec.names d).
  Lemma solid_join d x : isabs x = false -> solid (pjoin d x) = solid d ++ solid x.
  Proof.
    intros Hx. unfold pjoin. rewrite Hx. destruct d as [|c d]; [reflexivity|]. unfold solid. destruct (ends_sep (c :: d)) eqn:E.
    - destruct (ends_sep_true _ E) as [d' ->]. rewrite <- app_assoc. cbn [app]. rewrite !names_app, !filter_app. cbn. rewrite app_nil_r. reflexivity.
    - rewrite names_app, filter_app. reflexivity.
  Qed.
  Lemma solid_name x : name_ok x -> solid x = [x].
  Proof. intros [H1 H2]. unfold solid. rewrite (names_nosep x H2). destruct x; [congruence|reflexivity]. Qed.
  Lemma solid_put b xs : Forall name_ok xs -> solid (put b xs) = solid b ++ xs.
  Proof.
    induction xs as [|x xs IH] using rev_ind; intros H; [symmetry; apply app_nil_r|]. apply Forall_app in H. destruct H as [H Hx].
    apply Forall_cons_iff in Hx. destruct Hx as [Hx _]. rewrite put_snoc, (solid_join _ _ (rel_name x (proj1 Hx) (proj2 Hx))), (IH H), (solid_name x Hx).
    symmetry. apply app_assoc.
  Qed.
  Lemma results_solid rec b rcs r : Forall (comp_ok rec) rcs -> In r (results w b rcs) -> solid (path_of r) = solid b ++ names_of r.
  Proof.
    intros H Hr. pose proof (proj1 (Forall_forall _ _) (results_good w w_ok rec b rcs H) _ Hr) as [_ Hn].
    destruct (results_path rec b rcs r H Hr) as [->|[_ ->]]; [apply solid_put; exact Hn|].
    rewrite (solid_join (put b (names_of r)) [] eq_refl), (solid_put _ _ Hn). apply app_nil_r.
  Qed.
  Lemma NoDup_map_flat (A B C : Type) (k : A -> B) (k' : C -> B) (f : A -> list C) l :
    NoDup (map k l) -> (forall a, In a l -> NoDup (map k' (f a))) ->
    (forall a a' c c', In a l -> In a' l -> In c (f a) -> In c' (f a') -> k' c = k' c' -> k a = k a') ->
    NoDup (map k' (flat_map f l)).
  Proof.
    induction l as [|a l IH]; intros Hn H1 H2; [constructor|]. cbn [map flat_map] in *. apply NoDup_cons_iff in Hn. destruct Hn as [Ha Hn].
    rewrite map_app.
    assert (NoDup (map k' (flat_map f l))) as Hl.
    { apply (IH Hn).
      - intros a' Hi. apply H1. right. exact Hi.
      - intros a1 a2 c c' Hi Hi'. apply H2; right; assumption. }
    pose proof (H1 a (or_introl eq_refl)) as Hfa.
    assert (forall x, In x (map k' (f a)) -> ~ In x (map k' (flat_map f l))) as Hd.
    { intros x Hx Hx'. apply in_map_iff in Hx. destruct Hx as (c & <- & Hc). apply in_map_iff in Hx'. destruct Hx' as (c' & E & Hc').
      apply in_flat_map in Hc'. destruct Hc' as (a' & Ha' & Hc'). apply Ha. apply in_map_iff. exists a'. split; [|exact Ha'].
      exact (H2 a' a c' c (or_intror Ha') (or_introl eq_refl) Hc' Hc E). }
    revert Hfa Hd. generalize (map k' (f a)) as m. induction m as [|x m IHm]; intros Hm Hd; [exact Hl|]. cbn [app].
    apply NoDup_cons_iff in Hm. destruct Hm as [Hx Hm]. constructor.
    - rewrite in_app_iff. intros [Hi|Hi]; [exact (Hx Hi)|]. exact (Hd x (or_introl eq_refl) Hi).
    - apply IHm; [exact Hm|]. intros y Hy. apply Hd. right. exact Hy.
  Qed.
  Lemma NoDup_map_inj (A B : Type) (f : A -> B) l : NoDup l -> (forall x y, In x l -> In y l -> f x = f y -> x = y) -> NoDup (map f l).
  Proof.
    induction l as [|a l IH]; intros Hn Hf; [constructor|]. apply NoDup_cons_iff in Hn. destruct Hn as [Ha Hn]. cbn. constructor.
    - intros Hi. apply in_map_iff in Hi. destruct Hi as (a' & E & Hi). apply Ha.
      rewrite (Hf a a' (or_introl eq_refl) (or_intror Hi) (eq_sym E)). exact Hi.
    - apply (IH Hn). intros x y Hx Hy. apply Hf; right; assumption.
  Qed.
  Lemma descents_NoDup fuel n : tree_ok n -> NoDup (descents fuel n).
  Proof.
    revert n. induction fuel as [|fuel IH]; intros n Hn; [constructor|]. destruct n as [|es]; [constructor|]. cbn [descents].
    inversion Hn as [|es' Hd He]; subst.
    match goal with |- NoDup ?l => rewrite <- (map_id l) end.
    apply (NoDup_map_flat _ _ _ (fun e => [fst e]) (fun x => x)).
    - rewrite <- (map_map fst (fun x => [x])). apply NoDup_map_inj; [exact Hd|]. intros x y _ _ E. injection E as ->. reflexivity.
    - intros [x m] Hi. cbn [fst snd]. destruct (ishidden x); [constructor|]. rewrite map_id. destruct (He x m Hi) as (_ & _ & _ & _ & _ & Hm).
      constructor.
      + intros Hi2. apply in_map_iff in Hi2. destruct Hi2 as (ys & E & Hy). injection E as ->. exact (descents_nonnil _ _ _ Hy eq_refl).
      + apply NoDup_map_inj; [exact (IH m Hm)|]. intros a b _ _ E. injection E as ->. reflexivity.
    - intros [x m] [y m'] c c' _ _ Hc Hc' ->. cbn [fst snd] in *.
      assert (forall z mz, In c' (if ishidden z then [] else [z] :: map (cons z) (descents fuel mz)) -> exists t, c' = z :: t) as Hz.
      { intros z mz Hi. destruct (ishidden z); [destruct Hi|]. destruct Hi as [<-|Hi]; [exists []; reflexivity|].
        apply in_map_iff in Hi. destruct Hi as (t & <- & _). exists t. reflexivity. }
      destruct (Hz x m Hc) as [t Et]. destruct (Hz y m' Hc') as [t' Et']. rewrite Et in Et'. injection Et' as -> _. reflexivity.
  Qed.
  Definition deeps (rcs : list comp) : nat := length (filter (fun c => match c with CDeep => true | _ => false end) rcs).
  Lemma results_length rec b rcs r : Forall (comp_ok rec) rcs -> deeps rcs = O -> In r (results w b rcs) -> length (names_of r) = length rcs.
  Proof.
    intros H. revert r. induction rcs as [|c rcs IH]; intros r Hd Hr; [destruct Hr as [<-|[]]; reflexivity|].
    apply Forall_cons_iff in H. destruct H as [Hc H]. cbn [results] in Hr. apply in_flat_map in Hr. destruct Hr as ([[d xs] l] & H1 & Hr).
    destruct c as [s|g|]; [| |discriminate Hd]; specialize (IH H _ Hd H1); unfold names_of in *; cbn [fst snd extend length] in *.
    - destruct l as [loc|]; [|destruct Hr]. destruct (enter w loc s); [|destruct Hr]. destruct Hr as [<-|[]]. cbn. rewrite app_length, IH. cbn. lia.
    - apply in_map_iff in Hr. destruct Hr as (x & <- & _). cbn. rewrite app_length, IH. cbn. lia.
  Qed.
  Lemma NoDup_filter (A : Type) (f : A -> bool) l : NoDup l -> NoDup (filter f l).
  Proof.
    induction l as [|a l IH]; intros H; [constructor|]. apply NoDup_cons_iff in H. destruct H as [Ha H]. cbn. destruct (f a); [|exact (IH H)].
    constructor; [|exact (IH H)]. intros Hi. apply filter_In in Hi. exact (Ha (proj1 Hi)).
  Qed.
  Lemma node_of_ok l n : node_of w l = Some n -> tree_ok n.
  Proof. destruct l as [loc|]; [|discriminate]. intros E. exact (tree_ok_at _ _ _ root_ok E). Qed.
  Lemma extend_NoDup c r : NoDup (map names_of (extend w c r)).
  Proof.
    destruct r as [[d xs] l]. destruct c as [s|g|]; cbn [extend].
    - destruct l as [loc|]; [|constructor]. destruct (enter w loc s); repeat constructor. intros [].
    - rewrite map_map. unfold names_of. cbn [fst snd]. apply NoDup_map_inj.
      + apply NoDup_filter. destruct (node_of w l) as [[|es]|] eqn:E; [constructor| |constructor]. pose proof (node_of_ok l _ E) as Ht.
        inversion Ht; subst. assumption.
      + intros x y _ _ E. apply app_inj_tail in E. exact (proj2 E).
    - cbn [map]. rewrite map_map. unfold names_of. cbn [fst snd]. constructor.
      + intros Hi. apply in_map_iff in Hi. destruct Hi as (ys & E & Hy). destruct (node_of w l) as [n|]; [|destruct Hy].
        apply (descents_nonnil _ _ _ Hy). apply (app_inv_head xs). rewrite app_nil_r. exact E.
      + apply NoDup_map_inj; [destruct (node_of w l) as [n|] eqn:E; [exact (descents_NoDup _ _ (node_of_ok l n E))|constructor]|].
        intros x y _ _ E. exact (app_inv_head _ _ _ E).
  Qed.
  Lemma app_same_length (A : Type) (a a' b b' : list A) : length a = length a' -> a ++ b = a' ++ b' -> a = a'.
  Proof.
    revert a'. induction a as [|x a IH]; intros [|y a'] L E; try discriminate L; [reflexivity|]. injection E as -> E. injection L as L.
    rewrite (IH a' L E). reflexivity.
  Qed.
  Lemma results_NoDup rec b rcs : Forall (comp_ok rec) rcs -> (deeps rcs <= 1)%nat -> NoDup (map names_of (results w b rcs)).
  Proof.
    induction rcs as [|c rcs IH]; intros H Hd; [repeat constructor; intros []|]. apply Forall_cons_iff in H. destruct H as [Hc H]. cbn [results].
    apply (NoDup_map_flat _ _ _ names_of names_of).
    - apply (IH H). unfold deeps in *. cbn [filter] in Hd. destruct c; cbn [length] in Hd; lia.
    - intros r _. apply extend_NoDup.
    - intros r r' e e' Hr Hr' He He' E.
      destruct c as [s|g|].
      + destruct r as [[d xs] [loc|]]; [|destruct He]. destruct r' as [[d' xs'] [loc'|]]; [|destruct He']. cbn [extend] in He, He'.
        destruct (enter w loc s); [|destruct He]. destruct He as [<-|[]]. destruct (enter w loc' s); [|destruct He']. destruct He' as [<-|[]].
        unfold names_of in *. cbn [fst snd] in *. apply app_inj_tail in E. exact (proj1 E).
      + destruct r as [[d xs] l], r' as [[d' xs'] l']. cbn [extend] in He, He'. apply in_map_iff in He. destruct He as (x & <- & _).
        apply in_map_iff in He'. destruct He' as (x' & <- & _). unfold names_of in *. cbn [fst snd] in *. apply app_inj_tail in E. exact (proj1 E).
      + assert (deeps rcs = O) as H0 by (unfold deeps in *; cbn [filter length] in Hd; lia).
        pose proof (results_length rec b rcs r H H0 Hr) as L. pose proof (results_length rec b rcs r' H H0 Hr') as L'.
        assert (forall r e, In e (extend w CDeep r) -> exists ys, names_of e = names_of r ++ ys) as Hx.
        { intros [[d xs] l] e1 Hi. cbn [extend] in Hi. destruct Hi as [<-|Hi]; [exists []; symmetry; apply app_nil_r|].
          apply in_map_iff in Hi. destruct Hi as (ys & <- & _). exists ys. reflexivity. }
        destruct (Hx r e He) as [ys Ey]. destruct (Hx r' e' He') as [ys' Ey']. rewrite Ey, Ey' in E.
        apply (app_same_length _ _ _ _ _ (eq_trans L (eq_sym L')) E).
  Qed.
  Lemma paths_NoDup rec b rcs : Forall (comp_ok rec) rcs -> (deeps rcs <= 1)%nat -> NoDup (map path_of (results w b rcs)).
  Proof.
    intros H Hd. pose proof (results_NoDup rec b rcs H Hd) as Hn.
    assert (forall r, In r (results w b rcs) -> solid (path_of r) = solid b ++ names_of r) as Hs by (intros r; apply (results_solid rec); exact H).
    revert Hn Hs. generalize (results w b rcs) as l. induction l as [|r l IH]; intros Hn Hs; [constructor|]. cbn [map] in *.
    apply NoDup_cons_iff in Hn. destruct Hn as [Hr Hn]. constructor.
    - intros Hi. apply in_map_iff in Hi. destruct Hi as (r' & E & Hi). apply Hr. apply in_map_iff. exists r'. split; [|exact Hi].
      pose proof (Hs r (or_introl eq_refl)) as S1. pose proof (Hs r' (or_intror Hi)) as S2. rewrite E, S1 in S2.
      symmetry. exact (app_inv_head _ _ _ S2).
    - apply IH; [exact Hn|]. intros r' Hi. apply Hs. right. exact Hi.
  Qed.

  (** * glob *)
  Lemma glob_results rec b rcs : base_ok b -> Forall (comp_ok rec) rcs -> starts_magic rcs ->
    glob_files w rec (text_of b rcs) =
    Some (let l := map path_of (results w b rcs) in if rec && isrecursive (text_of b rcs) then tl l else l).
  Proof. intros Hb H Hs. unfold glob_files. rewrite (iglob_results rec b rcs _ Hb H Hs); [reflexivity|lia]. Qed.
  Lemma text_deep rec b c rcs : base_ok b -> Forall (comp_ok rec) (c :: rcs) -> text_of b (c :: rcs) = str_deep ->
    comp_text c = str_deep /\ b = [] /\ rcs = [].
  Proof.
    intros Hb H E. apply Forall_cons_iff in H. destruct H as [Hc H]. pose proof (comp_name rec c Hc) as Hn.
    pose proof (psplit_join _ _ Hn (text_of_dir rec b rcs Hb H)) as Hp. rewrite text_of_cons in E. rewrite E in Hp.
    change (psplit str_deep) with (@nil N, str_deep) in Hp.
    pose proof (f_equal fst Hp) as H1. pose proof (f_equal snd Hp) as H2. cbn [fst snd] in H1, H2. split; [symmetry; exact H2|]. destruct rcs as [|c' rcs].
    - unfold text_of in H1. cbn in H1. split; [symmetry; exact H1|reflexivity].
    - exfalso. rewrite text_of_cons in H1. apply Forall_cons_iff in H. destruct (comp_name rec c' (proj1 H)) as [Hne _].
      exact (pjoin_nonnil _ _ Hne (eq_sym H1)).
  Qed.
  Lemma not_deep_text rec b c rcs : base_ok b -> Forall (comp_ok rec) (c :: rcs) -> c <> CDeep ->
    rec && isrecursive (text_of b (c :: rcs)) = false.
  Proof.
    intros Hb H Hc. destruct rec; [|reflexivity]. cbn [andb]. unfold isrecursive. destruct (str_eqb _ _) eqn:E; [|reflexivity].
    apply str_eqb_true in E. destruct (text_deep true b c rcs Hb H E) as (Et & _). apply Forall_cons_iff in H. destruct H as [(_ & _ & H) _].
    destruct c as [s|g|]; [|destruct H as (_ & _ & H); destruct (H eq_refl Et)|congruence]. cbn in Et. subst s. discriminate H.
  Qed.
  Lemma glob_exact rec b c rcs : base_ok b -> Forall (comp_ok rec) (c :: rcs) -> starts_magic (c :: rcs) -> c <> CDeep ->
    exists l, glob_files w rec (text_of b (c :: rcs)) = Some l /\
      forall q, In q l <-> exists loc0 xs loc, starts w b loc0 /\ reaches w (rev (c :: rcs)) loc0 xs loc /\ q = put b xs.
  Proof.
    intros Hb H Hs Hc. eexists. split; [rewrite (glob_results rec b _ Hb H Hs), (not_deep_text rec b c rcs Hb H Hc); reflexivity|].
    intros q. cbv zeta. rewrite in_map_iff. split.
    - intros (r & <- & Hr). destruct (results_some b c rcs r Hc Hr) as [loc Hl].
      destruct (dwalk w b) as [loc0|] eqn:Eb.
      2: { rewrite (results_none b _ r Eb Hr) in Hl. discriminate. }
      exists loc0, (names_of r), loc. split; [apply (starts_dwalk w w_ok); exact Eb|]. split.
      + apply (results_reach rec b (c :: rcs) loc0 H Eb). exists (path_of r). destruct r as [[d xs] l]. cbn in Hl. subst l. exact Hr.
      + destruct (results_path rec b _ r H Hr) as [E|[[rcs' E] _]]; [exact E|]. injection E as E _. contradiction.
    - intros (loc0 & xs & loc & H0 & Hr & ->). apply (starts_dwalk w w_ok) in H0. apply (results_reach rec b (c :: rcs) loc0 H H0) in Hr.
      destruct Hr as [d Hd]. exists (d, xs, Some loc). split; [|exact Hd].
      destruct (results_path rec b _ _ H Hd) as [E|[[rcs' E] _]]; [exact E|]. injection E as E _. contradiction.
  Qed.
  Lemma glob_exists rec b c rcs l q : base_ok b -> Forall (comp_ok rec) (c :: rcs) -> starts_magic (c :: rcs) -> c <> CDeep ->
    glob_files w rec (text_of b (c :: rcs)) = Some l -> In q l -> lexists w q = true.
  Proof.
    intros Hb H Hs Hc Hl Hq. rewrite (glob_results rec b _ Hb H Hs), (not_deep_text rec b c rcs Hb H Hc) in Hl. injection Hl as <-.
    apply in_map_iff in Hq. destruct Hq as (r & <- & Hr). destruct (results_some b c rcs r Hc Hr) as [loc Hl].
    pose proof (proj1 (Forall_forall _ _) (results_good w w_ok rec b _ H) _ Hr) as [Hd Hn].
    pose proof (results_solid rec b _ r H Hr) as Hsol.
    (* the last name was entered *)
    cbn [results] in Hr. apply in_flat_map in Hr. destruct Hr as ([[d xs] l] & H1 & Hr).
    pose proof (proj1 (Forall_forall _ _) (results_good w w_ok rec b rcs (Forall_inv_tail H)) _ H1) as [Hd1 _].
    unfold path_of, loc_of in Hd1. cbn [fst snd] in Hd1.
    assert (exists x l1, path_of r = pjoin d x /\ name_ok x /\ l = Some l1) as (x & l1 & Ep & Hx & El).
    { destruct c as [s|g|]; [| |congruence]; cbn [extend] in Hr.
      - destruct l as [l1|]; [|destruct Hr]. destruct (enter w l1 s); [|destruct Hr]. destruct Hr as [<-|[]].
        exists s, l1. split; [reflexivity|]. split; [exact (comp_name rec _ (Forall_inv H))|reflexivity].
      - apply in_map_iff in Hr. destruct Hr as (x & <- & Hi). apply filter_In in Hi. destruct l as [l1|]; [|destruct (proj1 Hi)].
        exists x, l1. split; [reflexivity|]. split; [|reflexivity]. unfold names_of in Hn. cbn [fst snd] in Hn. apply Forall_app in Hn.
        exact (Forall_inv (proj2 Hn)). }
    rewrite El in *. unfold lexists, stat. rewrite Ep. rewrite (resolve_join w w_ok d x (proj1 Hx) (proj2 Hx)), Hd1.
    rewrite Ep, (dwalk_join w w_ok d x (proj1 Hx) (proj2 Hx)), Hd1, Hl in Hd. rewrite Hd.
    destruct (enter_exists w w_ok _ _ _ Hd) as [n ->]. reflexivity.
  Qed.
  Lemma glob_NoDup rec b rcs l : base_ok b -> Forall (comp_ok rec) rcs -> starts_magic rcs -> (deeps rcs <= 1)%nat ->
    glob_files w rec (text_of b rcs) = Some l -> NoDup l.
  Proof.
    intros Hb H Hs Hd Hl. rewrite (glob_results rec b _ Hb H Hs) in Hl. injection Hl as <-. pose proof (paths_NoDup rec b rcs H Hd) as Hn.
    destruct (rec && isrecursive (text_of b rcs)); [|exact Hn]. destruct (map path_of (results w b rcs)) as [|q l]; [constructor|].
    apply NoDup_cons_iff in Hn. exact (proj2 Hn).
  Qed.

  (** Patterns ending in a slash *)
  Lemma psplit_slash d : d <> [] -> ends_sep d = false -> psplit (pjoin d []) = (d, []).
  Proof.
    intros Hd E. unfold psplit, pjoin. cbn [isabs]. destruct d as [|x d]; [congruence|]. rewrite E.
    rewrite (cut_sep (x :: d) [] (fun H => H)). destruct (ends_sep_false_snoc (x :: d) Hd E) as (d' & y & Ed & Ey).
    rewrite Ed. rewrite !forallb_app. cbn [forallb]. rewrite Ey. cbn. rewrite !andb_false_r. cbn. rewrite (rstrip_snoc d' y Ey). reflexivity.
  Qed.
  Lemma gather_glob0 ds : gather (fun d => option_map (map (pjoin d)) (in_dir false d [])) ds =
    Some (map (fun d => pjoin d []) (filter (isdir w) ds)).
  Proof.
    induction ds as [|d ds IH]; [reflexivity|]. cbn [gather filter]. rewrite IH. unfold in_dir, has_magic. cbn [existsb]. unfold glob0.
    destruct (isdir w d); reflexivity.
  Qed.
  Lemma isdir_reach rec b c rcs loc0 xs loc : Forall (comp_ok rec) (c :: rcs) -> c <> CDeep ->
    starts w b loc0 -> reaches w (rev (c :: rcs)) loc0 xs loc -> isdir w (put b xs) = true <-> is_dir w loc.
  Proof.
    intros H Hc H0 Hr. apply (starts_dwalk w w_ok) in H0. apply (results_reach rec b (c :: rcs) loc0 H H0) in Hr. destruct Hr as [d Hd].
    assert (d = put b xs) as ->.
    { destruct (results_path rec b _ _ H Hd) as [E|[[rcs' E] _]]; [exact E|]. injection E as E _. contradiction. }
    pose proof (proj1 (Forall_forall _ _) (results_good w w_ok rec b _ H) _ Hd) as [Hw _]. unfold path_of, loc_of in Hw. cbn [fst snd] in Hw.
    assert (put b xs <> []) as Hne.
    { cbn [results] in Hd. apply in_flat_map in Hd. destruct Hd as ([[d0 xs0] l0] & H1 & Hr).
      pose proof (proj1 (Forall_forall _ _) (extend_good w w_ok rec c _ (Forall_inv H) (proj1 (Forall_forall _ _) (results_good w w_ok rec b rcs (Forall_inv_tail H)) _ H1)) _ Hr) as [_ Hn].
      unfold names_of in Hn. cbn [fst snd] in Hn. destruct c as [s|g|]; [| |congruence]; cbn [extend] in Hr.
      - destruct l0 as [l1|]; [|destruct Hr]. destruct (enter w l1 s); [|destruct Hr]. destruct Hr as [Hr|[]]. injection Hr as <- _ _.
        exact (pjoin_nonnil _ _ (proj1 (comp_name rec _ (Forall_inv H)))).
      - apply in_map_iff in Hr. destruct Hr as (x & Ex & Hi). injection Ex as E1 E2 _. rewrite <- E1. apply pjoin_nonnil.
        rewrite <- E2 in Hn. apply Forall_app in Hn. exact (proj1 (Forall_inv (proj2 Hn))). }
    unfold isdir. pose proof (stat_or_dot w w_ok (put b xs)) as Es. unfold or_dot in Es. destruct (put b xs) as [|y d']; [congruence|].
    rewrite Es, Hw. cbn [node_of]. rewrite (is_dir_at w w_ok loc). destruct (node_at (w_root w) loc) as [[|es]|].
    - split; [discriminate|]. intros [es E]. discriminate E.
    - split; [intros _; exists es; reflexivity|reflexivity].
    - split; [discriminate|]. intros [es E]. discriminate E.
  Qed.
  Lemma glob_slash rec b c rcs : base_ok b -> Forall (comp_ok rec) (c :: rcs) -> starts_magic (c :: rcs) -> c <> CDeep ->
    exists l, glob_files w rec (pjoin (text_of b (c :: rcs)) []) = Some l /\
      forall q, In q l <-> exists loc0 xs loc, starts w b loc0 /\ reaches w (rev (c :: rcs)) loc0 xs loc /\ is_dir w loc /\ q = pjoin (put b xs) [].
  Proof.
    intros Hb H Hs Hc. destruct (glob_exact rec b c rcs Hb H Hs Hc) as (l & Hl & Hq).
    pose proof (comp_name rec c (Forall_inv H)) as Hn.
    assert (text_of b (c :: rcs) <> []) as Hne by (rewrite text_of_cons; exact (pjoin_nonnil _ _ (proj1 Hn))).
    assert (ends_sep (text_of b (c :: rcs)) = false) as He by (rewrite text_of_cons; exact (ends_sep_join _ _ Hn)).
    pose proof (text_of_magic rec b _ H Hs) as Hm.
    assert (glob_files w rec (pjoin (text_of b (c :: rcs)) []) = Some (map (fun d => pjoin d []) (filter (isdir w) l))) as E.
    { rewrite (glob_results rec b _ Hb H Hs), (not_deep_text rec b c rcs Hb H Hc) in Hl. cbv zeta in Hl. injection Hl as Hl.
      unfold glob_files. set (D := text_of b (c :: rcs)) in *.
      assert (pjoin D [] = D ++ [c_sep]) as Ej by (unfold pjoin; cbn [isabs]; rewrite He; destruct D; [congruence|reflexivity]).
      assert (has_magic (pjoin D []) = true) as Hmj by (rewrite Ej, has_magic_app, Hm; reflexivity).
      assert (isrecursive (pjoin D []) = false) as Hr.
      { unfold isrecursive. destruct (str_eqb _ _) eqn:Er; [|reflexivity]. apply str_eqb_true in Er. rewrite Ej in Er.
        apply (f_equal ends_sep) in Er. rewrite ends_sep_snoc in Er. discriminate Er. }
      assert (str_eqb D (pjoin D []) = false) as Hd.
      { destruct (str_eqb _ _) eqn:Er; [|reflexivity]. apply str_eqb_true in Er. rewrite Ej in Er.
        apply (f_equal (@length N)) in Er. rewrite app_length in Er. rewrite Nat.add_1_r in Er. destruct (Nat.neq_succ_diag_r _ Er). }
      rewrite Hr, andb_false_r. cbn [iglob_]. rewrite (psplit_slash D Hne He), Hmj. cbn [negb].
      assert (iglob_ (length (pjoin D [])) w rec D = Some l) as Hi.
      { rewrite <- Hl. apply iglob_results; try assumption. rewrite Ej, app_length, Nat.add_1_r. apply Nat.lt_succ_diag_r. }
      rewrite Hd, Hm, Hi. cbn [negb andb]. rewrite <- gather_glob0. destruct D; [congruence|]. cbn [option_map].
      match goal with |- option_map _ ?x = ?y => change y with x; destruct x; reflexivity end. }
    eexists. split; [exact E|]. intros q. rewrite in_map_iff. split.
    - intros (d & <- & Hd). apply filter_In in Hd. destruct Hd as [Hd Hi]. pose proof Hd as Hd0. apply Hq in Hd. destruct Hd as (loc0 & xs & loc & H0 & Hr & ->).
      exists loc0, xs, loc. split; [exact H0|]. split; [exact Hr|]. split; [|reflexivity].
      apply (isdir_reach rec b c rcs loc0 xs loc); assumption.
    - intros (loc0 & xs & loc & H0 & Hr & Hi & ->). exists (put b xs). split; [reflexivity|]. apply filter_In. split.
      + apply Hq. exists loc0, xs, loc. repeat split; assumption.
      + apply (isdir_reach rec b c rcs loc0 xs loc); assumption.
  Qed.

  (** Patterns ending in ** *)
  Lemma pjoin_slash_nil d : pjoin d [] = [] -> d = [].
  Proof. unfold pjoin. cbn [isabs]. destruct d as [|c d]; [reflexivity|]. destruct (ends_sep (c :: d)); discriminate. Qed.
  Lemma glob_base_deep b : base_ok b ->
    exists l, glob_files w true (text_of b [CDeep]) = Some l /\
      forall q, In q l <-> (b <> [] /\ q = pjoin b []) \/
                           exists loc0 ys, starts w b loc0 /\ ys <> [] /\ descends w loc0 ys /\ q = put b ys.
  Proof.
    intros Hb. assert (Forall (comp_ok true) [CDeep]) as H.
    { repeat constructor; [discriminate|]. intros [E|[E|[]]]; discriminate E. }
    assert (starts_magic [CDeep]) as Hs by (exists CDeep, []; split; [reflexivity|exact I]).
    eexists. split; [rewrite (glob_results true b _ Hb H Hs); reflexivity|]. cbv zeta. intros q.
    assert (forall q, In q (map path_of (map (fun ys => (put b ys, [] ++ ys, option_map (fun loc => loc ++ ys) (dwalk w b)))
        match node_of w (dwalk w b) with Some n => descents (top w) n | None => [] end)) <->
      exists loc0 ys, starts w b loc0 /\ ys <> [] /\ descends w loc0 ys /\ q = put b ys) as Hq.
    { intros p. rewrite map_map. unfold path_of. cbn [fst]. rewrite in_map_iff. split.
      - intros (ys & <- & Hi). destruct (dwalk w b) as [loc0|] eqn:Eb; [|destruct Hi]. cbn [node_of] in Hi.
        destruct (node_at (w_root w) loc0) as [n|] eqn:En; [|destruct Hi]. apply (descents_top loc0 n ys En) in Hi.
        exists loc0, ys. split; [apply (starts_dwalk w w_ok); exact Eb|]. split; [exact (proj1 Hi)|]. split; [exact (proj2 Hi)|reflexivity].
      - intros (loc0 & ys & H0 & Hy & Hd & ->). exists ys. split; [reflexivity|]. apply (starts_dwalk w w_ok) in H0. rewrite H0. cbn [node_of].
        destruct (node_at (w_root w) loc0) as [n|] eqn:En; [apply (descents_top loc0 n ys En); split; assumption|].
        apply (descends_spec w w_ok) in Hd. destruct Hd as [Hd|(n' & Hd & _)]; [contradiction|]. rewrite node_at_app, En in Hd. discriminate. }
    cbn [results flat_map extend map]. rewrite app_nil_r. cbn [map]. unfold path_of at 1 3. cbn [fst].
    destruct (true && isrecursive (text_of b [CDeep])) eqn:E.
    - cbn [tl]. rewrite Hq. apply str_eqb_true in E. destruct (text_deep true b CDeep [] Hb H E) as (_ & -> & _).
      split; [intros Hr; right; exact Hr|]. intros [[Hr _]|Hr]; [congruence|exact Hr].
    - cbn [In]. rewrite Hq. split.
      + intros [<-|Hr]; [|right; exact Hr]. left. split; [|reflexivity]. intros ->. discriminate E.
      + intros [[_ ->]|Hr]; [left; reflexivity|right; exact Hr].
  Qed.
  Lemma glob_deep b c rcs : base_ok b -> Forall (comp_ok true) (c :: rcs) -> starts_magic (c :: rcs) -> c <> CDeep ->
    exists l, glob_files w true (text_of b (CDeep :: c :: rcs)) = Some l /\
      forall q, In q l <-> exists loc0 xs loc, starts w b loc0 /\ reaches w (rev (c :: rcs)) loc0 xs loc /\
        (q = pjoin (put b xs) [] \/ exists ys, ys <> [] /\ descends w loc ys /\ q = put b (xs ++ ys)).
  Proof.
    intros Hb H Hs Hc. assert (Forall (comp_ok true) (CDeep :: c :: rcs)) as H'.
    { constructor; [|exact H]. split; [discriminate|]. split; [|reflexivity]. intros [E|[E|[]]]; discriminate E. }
    assert (starts_magic (CDeep :: c :: rcs)) as Hs'.
    { destruct Hs as (c0 & rcs0 & E & Hm). exists c0, (CDeep :: rcs0). split; [rewrite E; reflexivity|exact Hm]. }
    eexists. split.
    { rewrite (glob_results true b _ Hb H' Hs'). assert (isrecursive (text_of b (CDeep :: c :: rcs)) = false) as ->; [|reflexivity].
      unfold isrecursive. destruct (str_eqb _ _) eqn:E; [|reflexivity]. apply str_eqb_true in E.
      destruct (text_deep true b CDeep (c :: rcs) Hb H' E) as (_ & _ & E'). discriminate E'. }
    cbv zeta. cbn [andb]. intros q. rewrite in_map_iff.
    change (results w b (CDeep :: c :: rcs)) with (flat_map (extend w CDeep) (results w b (c :: rcs))). split.
    - intros (r & <- & Hr). apply in_flat_map in Hr. destruct Hr as ([[d xs] l] & H1 & Hr).
      destruct (results_some b c rcs _ Hc H1) as [loc Hl]. cbn in Hl. subst l.
      destruct (dwalk w b) as [loc0|] eqn:Eb.
      2: { pose proof (results_none b _ _ Eb H1) as Hl. discriminate Hl. }
      exists loc0, xs, loc. split; [apply (starts_dwalk w w_ok); exact Eb|].
      split; [apply (results_reach true b (c :: rcs) loc0 H Eb); exists d; exact H1|].
      assert (d = put b xs) as ->.
      { destruct (results_path true b _ _ H H1) as [E|[[rcs' E] _]]; [exact E|]. injection E as E _. contradiction. }
      cbn [extend] in Hr. destruct Hr as [<-|Hr]; [left; reflexivity|]. right. apply in_map_iff in Hr. destruct Hr as (ys & <- & Hi).
      cbn [node_of] in Hi. destruct (node_at (w_root w) loc) as [n|] eqn:En; [|destruct Hi]. apply (descents_top loc n ys En) in Hi.
      exists ys. split; [exact (proj1 Hi)|]. split; [exact (proj2 Hi)|]. unfold path_of. cbn [fst]. symmetry. apply put_app.
    - intros (loc0 & xs & loc & H0 & Hr & Hq). apply (starts_dwalk w w_ok) in H0. apply (results_reach true b (c :: rcs) loc0 H H0) in Hr.
      destruct Hr as [d Hd]. assert (d = put b xs) as ->.
      { destruct (results_path true b _ _ H Hd) as [E|[[rcs' E] _]]; [exact E|]. injection E as E _. contradiction. }
      destruct Hq as [->|(ys & Hy & Hds & ->)].
      + exists (pjoin (put b xs) [], xs, dir_only w (Some loc)). split; [reflexivity|]. apply in_flat_map.
        exists (put b xs, xs, Some loc). split; [exact Hd|]. left. reflexivity.
      + exists (put (put b xs) ys, xs ++ ys, Some (loc ++ ys)). split; [unfold path_of; cbn [fst]; symmetry; apply put_app|]. apply in_flat_map.
        exists (put b xs, xs, Some loc). split; [exact Hd|]. right. apply in_map_iff. exists ys. split; [reflexivity|]. cbn [node_of].
        destruct (node_at (w_root w) loc) as [n|] eqn:En; [apply (descents_top loc n ys En); split; assumption|].
        apply (descends_spec w w_ok) in Hds. destruct Hds as [Hds|(n' & Hds & _)]; [contradiction|]. rewrite node_at_app, En in Hds. discriminate.
  Qed.
End World.

(** * Excluding *)
Definition hit (q : str) (g : glob) : bool := match fnmatch q (show g) with Some b => b | None => false end.
Definition clear (gs : list glob) (q : str) : bool := forallb (fun g => negb (hit q g)) gs.
Lemma excluded_spec q gs : Forall pattern_ok gs -> excluded q (map show gs) = Some (negb (clear gs q)).
Proof.
  unfold clear. induction gs as [|g gs IH]; intros H; [reflexivity|]. apply Forall_cons_iff in H. destruct H as [Hg H]. cbn [map excluded forallb].
  rewrite (IH H). destruct (fnmatch_exact g q Hg) as (b & E & _). assert (hit q g = b) as Eh by (unfold hit; rewrite E; reflexivity).
  rewrite E, Eh. destruct b; reflexivity.
Qed.
Lemma path_glob_spec w gs p : Forall pattern_ok gs ->
  path_glob w (map show gs) p = option_map (filter (clear gs)) (glob_files w true p).
Proof.
  intros H. unfold path_glob. destruct (glob_files w true p) as [l|]; [|reflexivity]. cbn [option_map].
  induction l as [|q l IH]; [reflexivity|]. cbn [gather filter]. rewrite (excluded_spec q gs H), IH. destruct (clear gs q); reflexivity.
Qed.
Lemma clear_iff gs q : Forall pattern_ok gs -> ~ In c_nl q -> (clear gs q = true <-> Forall (fun g => ~ lang anything g q) gs).
Proof.
  intros H Hq. unfold clear. rewrite forallb_forall, Forall_forall. split; intros Ha g Hg; specialize (Ha g Hg);
    pose proof (proj1 (Forall_forall _ _) H g Hg) as Hok; destruct (fnmatch_lang g q Hok Hq) as (b & E & Hb); unfold hit in *; rewrite E in *.
  - intros Hl. apply Hb in Hl. subst b. discriminate.
  - destruct b; [destruct (Ha (proj1 Hb eq_refl))|reflexivity].
Qed.
Lemma globall_texts w ex ss : globall w ex (map PText ss) = gather (path_glob w ex) ss.
Proof. induction ss as [|s ss IH]; [reflexivity|]. cbn [map globall gather globall1]. rewrite IH. reflexivity. Qed.
Lemma gather_app f a b :
  gather f (a ++ b) = match gather f a with None => None | Some l => option_map (app l) (gather f b) end.
Proof.
  induction a as [|x a IH]; cbn [app gather].
  - destruct (gather f b); reflexivity.
  - destruct (f x) as [l|]; [|reflexivity]. rewrite IH. destruct (gather f a) as [m|]; [|reflexivity]. cbn [option_map].
    destruct (gather f b); cbn; [rewrite app_assoc; reflexivity|reflexivity].
Qed.
Fixpoint size (p : pats) : nat := match p with PText _ => 1%nat | PList ps => S (fold_right (fun p n => (size p + n)%nat) O ps) end.
Lemma globall1_nil w : forall n p, (size p <= n)%nat -> globall1 w [] p = gather (path_glob w []) (texts p).
Proof.
  induction n as [|n IH]; intros p Hp; [destruct p; cbn in Hp; lia|]. destruct p as [s|ps].
  - cbn [globall1 texts gather]. destruct (path_glob w [] s) as [l|]; [|reflexivity]. cbn. rewrite app_nil_r. reflexivity.
  - cbn [size] in Hp. cbn [globall1 texts]. induction ps as [|p ps IHp]; [reflexivity|]. cbn [fold_right] in Hp. cbn [flat_map].
    rewrite gather_app, (IH p ltac:(lia)), IHp by lia. reflexivity.
Qed.
Lemma globall1_list w ex ps : globall1 w ex (PList ps) = gather (path_glob w []) (flat_map texts ps).
Proof. exact (globall1_nil w _ (PList ps) (le_n _)). Qed.
