(** Proofs about Ocamldep.source_dependencies. *)
From Coq Require Import List NArith Bool Arith Lia.
From Verif Require Import FnModel FnSpec FnFacts PathModel PathSpec PathFacts GlobModel GlobSpec GlobFacts GlobPaths.
From Verif Require Import OcamlModel OcamlSpec.
Import ListNotations.
Open Scope N_scope.

Lemma mem_in x l : mem x l = true <-> In x l.
Proof.
  unfold mem. rewrite existsb_exists. split.
  - intros (y & Hy & E). apply str_eqb_true in E. subst y. exact Hy.
  - intros H. exists x. split; [exact H|apply str_eqb_refl].
Qed.

Lemma entry_some_in es x : (exists n, entry es x = Some n) <-> In x (map fst es).
Proof.
  unfold entry. induction es as [|[y n] es IH]; [split; [intros [n H]; discriminate|intros []]|].
  cbn [find fst map In]. destruct (str_eqb y x) eqn:E.
  - apply str_eqb_true in E. subst y. split; [left; reflexivity|]. intros _. exists n. reflexivity.
  - rewrite IH. split; [intros H; right; exact H|]. intros [H|H]; [|exact H]. subst y. rewrite str_eqb_refl in E. discriminate.
Qed.

Section World.
  Variable w : world.
  Hypothesis w_ok : world_ok w.

  (** What is listed is what the system finds. *)
  Lemma listed d ns n : listdir w (or_dot d) = Some ns -> n <> [] -> ~ In c_sep n -> n <> str_dot -> n <> str_dotdot ->
    (In n ns <-> present w (pjoin d n)).
  Proof.
    intros Hl H1 H2 H3 H4. unfold listdir in Hl. rewrite (stat_or_dot w w_ok) in Hl.
    unfold present, lexists, stat. rewrite (resolve_join w w_ok d n H1 H2).
    destruct (dwalk w d) as [loc|]; [|discriminate]. cbn [node_of] in Hl.
    destruct (node_at (w_root w) loc) as [[|es]|] eqn:E; try discriminate. injection Hl as <-.
    rewrite <- entry_some_in. unfold enter. rewrite E.
    destruct (str_eqb n []) eqn:E1; [apply str_eqb_true in E1; contradiction|].
    destruct (str_eqb n str_dot) eqn:E2; [apply str_eqb_true in E2; contradiction|].
    destruct (str_eqb n str_dotdot) eqn:E3; [apply str_eqb_true in E3; contradiction|]. cbn [orb].
    destruct (entry es n) as [m|] eqn:Em.
    - split; [|intros _; exists m; reflexivity]. intros _. rewrite node_at_app, E. cbn. rewrite Em. reflexivity.
    - split; [intros [m H]; discriminate|discriminate].
  Qed.

  Lemma first_lower_small m : m <> [] -> first_lower m = Some (small m).
  Proof. destruct m; [congruence|reflexivity]. Qed.
  Lemma first_upper_capital m : m <> [] -> first_upper m = Some (capital m).
  Proof. destruct m; [congruence|reflexivity]. Qed.

  Lemma to_lower_sep c : c <> c_sep -> to_lower c <> c_sep.
  Proof.
    intros H. unfold to_lower. destruct ((65 <=? c) && (c <=? 90)) eqn:E; [|exact H].
    apply andb_true_iff in E. destruct E as [E1 E2]. apply N.leb_le in E1, E2. unfold c_sep. lia.
  Qed.
  Lemma to_upper_sep c : c <> c_sep -> to_upper c <> c_sep.
  Proof.
    intros H. unfold to_upper. destruct ((97 <=? c) && (c <=? 122)) eqn:E; [|exact H].
    apply andb_true_iff in E. destruct E as [E1 E2]. apply N.leb_le in E1, E2. unfold c_sep. lia.
  Qed.

  Lemma module_nonnil m : module_ok m -> m <> [].
  Proof. intros (_ & c & H & _) ->. destruct H. Qed.

  Definition a_suffix (s : str) : Prop := s = s_mli \/ s = s_ml.
  Lemma suffix_name s' n : a_suffix s' -> n <> [] -> ~ In c_sep n ->
    let x := n ++ s' in x <> [] /\ ~ In c_sep x /\ x <> str_dot /\ x <> str_dotdot.
  Proof.
    intros Hs Hn Hc x. assert (3 <= length s')%nat as Hl by (destruct Hs as [->| ->]; cbn; lia).
    assert (4 <= length x)%nat as Hx.
    { unfold x. rewrite app_length. destruct n; [congruence|cbn; lia]. }
    split; [intros E; rewrite E in Hx; cbn in Hx; lia|]. split.
    { unfold x. rewrite in_app_iff. intros [H|H]; [exact (Hc H)|].
      destruct Hs as [->| ->]; cbn in H; unfold c_sep in H; repeat (destruct H as [H|H]; [discriminate|]); exact H. }
    split; intros E; rewrite E in Hx; cbn in Hx; lia.
  Qed.
  Lemma small_ok m : module_ok m -> small m <> [] /\ ~ In c_sep (small m).
  Proof.
    intros Hm. pose proof (module_nonnil m Hm) as H1. destruct Hm as [H2 _].
    destruct m as [|c m]; [congruence|]. split; [discriminate|]. cbn [small]. intros [H|H].
    - apply (to_lower_sep c); [intros E; apply H2; left; exact E|exact H].
    - apply H2. right. exact H.
  Qed.
  Lemma capital_ok m : module_ok m -> capital m <> [] /\ ~ In c_sep (capital m).
  Proof.
    intros Hm. pose proof (module_nonnil m Hm) as H1. destruct Hm as [H2 _].
    destruct m as [|c m]; [congruence|]. split; [discriminate|]. cbn [capital]. intros [H|H].
    - apply (to_upper_sep c); [intros E; apply H2; left; exact E|exact H].
    - apply H2. right. exact H.
  Qed.

  Lemma find_suffix_ok d ns m s' : listdir w (or_dot d) = Some ns -> module_ok m -> a_suffix s' ->
    exists l, find_suffix ns m s' = Some l /\
      forall p, In p (map (pjoin d) l) <->
        present w p /\ (p = pjoin d (small m ++ s') \/ p = pjoin d (capital m ++ s') /\ ~ present w (pjoin d (small m ++ s'))).
  Proof.
    intros Hl Hm Hs. unfold find_suffix.
    rewrite (first_lower_small m (module_nonnil m Hm)), (first_upper_capital m (module_nonnil m Hm)).
    destruct (small_ok m Hm) as [S1 S2]. destruct (capital_ok m Hm) as [C1 C2].
    destruct (suffix_name s' _ Hs S1 S2) as (S3 & S4 & S5 & S6). destruct (suffix_name s' _ Hs C1 C2) as (C3 & C4 & C5 & C6).
    pose proof (listed d ns _ Hl S3 S4 S5 S6) as LS. pose proof (listed d ns _ Hl C3 C4 C5 C6) as LC.
    destruct (mem (small m ++ s') ns) eqn:E1.
    - apply mem_in in E1. apply LS in E1. eexists; split; [reflexivity|]. intros p. cbn [map In]. split.
      + intros [<-|[]]. split; [exact E1|left; reflexivity].
      + intros [_ [->|[_ H]]]; [left; reflexivity|contradiction].
    - assert (~ present w (pjoin d (small m ++ s'))) as N1.
      { intros H. apply LS in H. apply mem_in in H. congruence. }
      destruct (mem (capital m ++ s') ns) eqn:E2.
      + apply mem_in in E2. apply LC in E2. eexists; split; [reflexivity|]. intros p. cbn [map In]. split.
        * intros [<-|[]]. split; [exact E2|right; split; [reflexivity|exact N1]].
        * intros [Hp [->|[-> _]]]; [contradiction|left; reflexivity].
      + eexists; split; [reflexivity|]. intros p. cbn [map In]. split; [intros []|].
        intros [Hp [->|[-> _]]]; [contradiction|]. apply LC in Hp. apply mem_in in Hp. congruence.
  Qed.

  Lemma dot_listed : exists ns, listdir w str_dot = Some ns.
  Proof.
    unfold listdir. change str_dot with (or_dot []). rewrite (stat_or_dot w w_ok). cbn [dwalk node_of].
    destruct (proj1 (is_dir_at w w_ok (w_cwd w)) (proj2 w_ok)) as [es E]. rewrite E. eexists. reflexivity.
  Qed.

  Lemma map_one (f : str -> str) l : map (fun p => f p) l = map f l.
  Proof. reflexivity. Qed.

  Lemma find_cwd_ok m : module_ok m -> exists l, find_module w m None = Some l /\
    forall p, In p l <-> is_file_of w [] m p.
  Proof.
    intros Hm. unfold find_module. destruct dot_listed as [ns Hn]. rewrite Hn.
    destruct (find_suffix_ok [] ns m s_mli Hn Hm (or_introl eq_refl)) as (a & -> & Ha).
    destruct (find_suffix_ok [] ns m s_ml Hn Hm (or_intror eq_refl)) as (b & -> & Hb).
    eexists. split; [reflexivity|]. intros p. rewrite map_id.
    assert (forall l, map (pjoin []) l = l) as Hid.
    { intros l. induction l as [|x l IH]; [reflexivity|]. cbn [map]. rewrite pjoin_nil, IH. reflexivity. }
    rewrite Hid in Ha, Hb. rewrite in_app_iff, Ha, Hb. unfold is_file_of. split.
    - intros [[H1 H2]|[H1 H2]]; [exists s_mli|exists s_ml]; (split; [auto|split; [exact H1|exact H2]]).
    - intros (s' & [->| ->] & H1 & H2); [left|right]; (split; [exact H1|exact H2]).
  Qed.

  Lemma find_include_ok m i : module_ok m -> include_ok w i -> exists l, find_module w m (Some i) = Some l /\
    forall p, In p l <-> present w i /\ is_file_of w i m p.
  Proof.
    intros Hm Hi. unfold find_module. destruct (lexists w i) eqn:Ei; cbn [negb].
    2:{ eexists. split; [reflexivity|]. intros p. split; [intros []|]. intros [H _]. unfold present in H. congruence. }
    specialize (Hi Ei). assert (i <> []) as Hne by (intros ->; discriminate Ei).
    assert (exists ns, listdir w i = Some ns) as [ns Hn].
    { unfold isdir in Hi. unfold listdir. destruct (stat w i) as [[|es]|]; try discriminate. eexists. reflexivity. }
    rewrite Hn. assert (or_dot i = i) as Eo by (destruct i; [congruence|reflexivity]). pose proof Hn as Hn'. rewrite <- Eo in Hn'.
    destruct (find_suffix_ok i ns m s_mli Hn' Hm (or_introl eq_refl)) as (a & -> & Ha).
    destruct (find_suffix_ok i ns m s_ml Hn' Hm (or_intror eq_refl)) as (b & -> & Hb).
    eexists. split; [reflexivity|]. intros p.
    rewrite (map_ext _ (pjoin i) (fun x => path_new_two i x)), map_app, in_app_iff, Ha, Hb. unfold is_file_of. split.
    - intros [[H1 H2]|[H1 H2]]; (split; [exact Ei|]); [exists s_mli|exists s_ml]; (split; [auto|split; [exact H1|exact H2]]).
    - intros (_ & s' & [->| ->] & H1 & H2); [left|right]; (split; [exact H1|exact H2]).
  Qed.

  Lemma find_in_ok m is : module_ok m -> Forall (include_ok w) is -> exists l, find_in w m is = Some l /\
    forall p, In p l <-> exists i, In i is /\ present w i /\ is_file_of w i m p.
  Proof.
    intros Hm Hi. induction Hi as [|i is H1 _ IH].
    { exists []. split; [reflexivity|]. intros p. split; [intros []|intros (i & [] & _)]. }
    cbn [find_in]. destruct (find_include_ok m i Hm H1) as (a & -> & Ha). destruct IH as (b & -> & Hb). cbn [option_map].
    eexists. split; [reflexivity|]. intros p. rewrite in_app_iff, Ha, Hb. split.
    - intros [H|(j & H2 & H3)]; [exists i; split; [left; reflexivity|exact H]|exists j; split; [right; exact H2|exact H3]].
    - intros (j & [<-|H2] & H3); [left; exact H3|right; exists j; split; [exact H2|exact H3]].
  Qed.

  Lemma find_modules_ok is ms : Forall module_ok ms -> Forall (include_ok w) is -> exists l, find_modules w is ms = Some l /\
    forall p, In p l <-> exists m, In m ms /\ names_file w is m p.
  Proof.
    intros Hm Hi. induction Hm as [|m ms H1 _ IH].
    { exists []. split; [reflexivity|]. intros p. split; [intros []|intros (m & [] & _)]. }
    cbn [find_modules]. destruct (find_cwd_ok m H1) as (a & -> & Ha). destruct IH as (c & -> & Hc).
    destruct (find_in_ok m is H1 Hi) as (b & -> & Hb). cbn [option_map].
    assert (exists l, match a with [] => Some (b ++ c) | _ :: _ => Some (a ++ c) end = Some l /\
      forall p, In p l <-> names_file w is m p \/ In p c) as (l & El & Hl).
    { destruct a as [|x a].
      - eexists. split; [reflexivity|]. intros p. rewrite in_app_iff, Hb. unfold names_file. split.
        + intros [H|H]; [left; right; split; [|exact H]|right; exact H]. intros q Hq. apply Ha in Hq. destruct Hq.
        + intros [[H|[_ H]]|H]; [apply Ha in H; destruct H|left; exact H|right; exact H].
      - eexists. split; [reflexivity|]. intros p. rewrite in_app_iff, Ha. unfold names_file. split.
        + intros [H|H]; [left; left; exact H|right; exact H].
        + intros [[H|[H _]]|H]; [left; exact H| |right; exact H]. destruct (H x). apply Ha. left. reflexivity. }
    exists l. split; [destruct a; exact El|]. intros p. rewrite Hl, Hc. split.
    - intros [H|(m' & H2 & H3)]; [exists m; split; [left; reflexivity|exact H]|exists m'; split; [right; exact H2|exact H3]].
    - intros (m' & [<-|H2] & H3); [left; exact H3|right; exists m'; split; [exact H2|exact H3]].
  Qed.

  Lemma startswith_iff p a : startswith p a = true <-> exists b, p = a ++ b.
  Proof. split; [apply startswith_true|]. intros [b ->]. apply startswith_app. Qed.
  Lemma endswith_iff p s' : endswith p s' = true <-> exists b, p = b ++ s'.
  Proof.
    unfold endswith. rewrite startswith_iff. split.
    - intros [b E]. exists (rev b). rewrite <- (rev_involutive p), E, rev_app_distr, rev_involutive. reflexivity.
    - intros [b ->]. exists (rev b). apply rev_app_distr.
  Qed.

  Lemma replace_ml src b : source_ok src -> src = b ++ s_ml -> replaceext src s_mli = b ++ s_mli.
  Proof.
    intros Hs E. unfold replaceext. rewrite path_new_one. destruct (Hs b E) as (n & c & Hn & Hc & Hd).
    assert (splitext src = (b, s_ml)) as ->; [|reflexivity]. apply splitext_ext. split.
    - exact E.
    - unfold s_ml, c_sep. cbn. intros H. repeat (destruct H as [H|H]; [discriminate|]). exact H.
    - intros _. exists [109; 108], n, c. split; [reflexivity|]. split; [|split; [exact Hn|split; [exact Hc|exact Hd]]].
      unfold c_dot. cbn. intros H. repeat (destruct H as [H|H]; [discriminate|]). exact H.
    - discriminate.
  Qed.

  Lemma beside_one src b : src = b ++ s_ml -> forall p, beside src p <-> p = b ++ s_mli.
  Proof.
    intros E p. split.
    - intros (b' & E' & ->). rewrite E in E'. apply app_inv_tail in E'. subst b'. reflexivity.
    - intros ->. exists b. split; [exact E|reflexivity].
  Qed.

  Lemma outside_removeroot root p : forall q, outside root p q <-> q = removeroot p (root ++ [c_sep]).
  Proof.
    intros q. unfold outside, removeroot. destruct (startswith p (root ++ [c_sep])) eqn:E.
    - apply startswith_true in E. destruct E as [r ->]. rewrite path_new_one, skipn_app_len.
      rewrite <- app_assoc. cbn [app]. split.
      + intros [H|[_ H]]; [|destruct (H r); reflexivity]. apply app_inv_head in H. injection H as <-. reflexivity.
      + intros ->. left. reflexivity.
    - rewrite path_new_one. split.
      + intros [->|[-> _]]; [|reflexivity].
        replace (root ++ c_sep :: q) with ((root ++ [c_sep]) ++ q) in E by (rewrite <- app_assoc; reflexivity).
        rewrite startswith_app in E. discriminate.
      + intros ->. right. split; [reflexivity|]. intros r ->.
        replace (root ++ c_sep :: r) with ((root ++ [c_sep]) ++ r) in E by (rewrite <- app_assoc; reflexivity).
        rewrite startswith_app in E. discriminate.
  Qed.

  Lemma find_interface_ok is root src : source_ok src ->
    forall p, In p (find_interface w is root src) <-> has_interface w is root src p.
  Proof.
    intros Hs p. unfold find_interface. destruct (endswith src s_ml) eqn:E.
    2:{ split; [intros []|]. intros [_ H]. exfalso.
        assert (exists b, src = b ++ s_ml) as Hb.
        { destruct H as [(b & Hb & _)|[_ [(q & (b & Hb & _) & _)|[_ (i & is' & _ & q & n & (q' & (b & Hb & _) & _) & _)]]]]; exists b; exact Hb. }
        apply endswith_iff in Hb. congruence. }
    apply endswith_iff in E. destruct E as [b E]. rewrite (replace_ml src b Hs E).
    pose proof (beside_one src b E) as Hb. set (mli := b ++ s_mli) in *.
    assert (forall q, in_sources root src q <-> q = removeroot mli (root ++ [c_sep])) as Hq.
    { intros q. unfold in_sources. split.
      - intros (q' & H1 & H2). apply Hb in H1. subst q'. apply outside_removeroot. exact H2.
      - intros ->. exists mli. split; [apply Hb; reflexivity|apply outside_removeroot; reflexivity]. }
    set (out := removeroot mli (root ++ [c_sep])) in *.
    assert (forall i q, in_directory root src i q <-> q = path_new [i; snd (psplit out)]) as Hd.
    { intros i q. unfold in_directory. rewrite path_new_two, psplit_snd. split.
      - intros (q' & n & H1 & H2 & ->). apply Hq in H1. subst q'. apply last_name_cut in H2. rewrite H2. reflexivity.
      - intros ->. exists out, (snd (cut out)). split; [apply Hq; reflexivity|]. split; [apply last_name_cut; reflexivity|reflexivity]. }
    unfold has_interface. destruct (lexists w mli) eqn:E1.
    { cbn [In]. split.
      - intros [<-|[]]. split; [exact E1|]. left. apply Hb. reflexivity.
      - intros [_ [H|[H _]]]; [apply Hb in H; left; congruence|]. destruct (H mli); [apply Hb; reflexivity|exact E1]. }
    assert (forall q, beside src q -> ~ present w q) as N1.
    { intros q H. apply Hb in H. subst q. unfold present. congruence. }
    destruct (lexists w out) eqn:E2.
    { cbn [In]. split.
      - intros [<-|[]]. split; [exact E2|]. right. split; [exact N1|]. left. apply Hq. reflexivity.
      - intros [Hp [H|[_ [H|[H _]]]]]; [destruct (N1 p H Hp)|apply Hq in H; left; congruence|].
        destruct (H out); [apply Hq; reflexivity|exact E2]. }
    assert (forall q, in_sources root src q -> ~ present w q) as N2.
    { intros q H. apply Hq in H. subst q. unfold present. congruence. }
    destruct is as [|i is].
    { split; [intros []|]. intros [Hp [H|[_ [H|[_ (i & is & H & _)]]]]]; [destruct (N1 p H Hp)|destruct (N2 p H Hp)|discriminate]. }
    destruct (lexists w (path_new [i; snd (psplit out)])) eqn:E3.
    - cbn [In]. split.
      + intros [<-|[]]. split; [exact E3|]. right. split; [exact N1|]. right. split; [exact N2|]. exists i, is. split; [reflexivity|].
        apply Hd. reflexivity.
      + intros [Hp [H|[_ [H|[_ (i' & is' & H & H')]]]]]; [destruct (N1 p H Hp)|destruct (N2 p H Hp)|].
        injection H as <- <-. apply Hd in H'. left. congruence.
    - split; [intros []|].
      intros [Hp [H|[_ [H|[_ (i' & is' & H & H')]]]]]; [destruct (N1 p H Hp)|destruct (N2 p H Hp)|].
      injection H as <- <-. apply Hd in H'. subst p. unfold present in Hp. congruence.
  Qed.

  Lemma source_dependencies_ok is root ms src :
    Forall module_ok ms -> Forall (include_ok w) is -> source_ok src ->
    exists l, source_dependencies w is root ms src = Some l /\
      forall p, In p l <-> (exists m, In m ms /\ names_file w is m p) \/ has_interface w is root src p.
  Proof.
    intros Hm Hi Hs. unfold source_dependencies. destruct (find_modules_ok is ms Hm Hi) as (l & -> & Hl).
    eexists. split; [reflexivity|]. intros p. rewrite in_app_iff, Hl, (find_interface_ok is root src Hs). reflexivity.
  Qed.

  (** The dependencies are sources like the file itself. *)
  Lemma small_dot m : (exists c, In c m /\ c <> c_dot) -> exists c, In c (small m) /\ c <> c_dot.
  Proof.
    intros (c & H & Hc). destruct m as [|x m]; [destruct H|]. destruct H as [->|H]; [|exists c; split; [right; exact H|exact Hc]].
    exists (to_lower c). split; [left; reflexivity|]. unfold to_lower, c_dot in *.
    destruct ((65 <=? c) && (c <=? 90)) eqn:E; [|exact Hc]. apply andb_true_iff in E. destruct E as [E1 E2]. apply N.leb_le in E1, E2. lia.
  Qed.
  Lemma capital_dot m : (exists c, In c m /\ c <> c_dot) -> exists c, In c (capital m) /\ c <> c_dot.
  Proof.
    intros (c & H & Hc). destruct m as [|x m]; [destruct H|]. destruct H as [->|H]; [|exists c; split; [right; exact H|exact Hc]].
    exists (to_upper c). split; [left; reflexivity|]. unfold to_upper, c_dot in *.
    destruct ((97 <=? c) && (c <=? 122)) eqn:E; [|exact Hc]. apply andb_true_iff in E. destruct E as [E1 E2]. apply N.leb_le in E1, E2. lia.
  Qed.
  (** A text that ends with an i. *)
  Definition ends_i (p : str) : Prop := exists y, p = y ++ [105].
  Lemma ends_i_tail q n : ends_i (q ++ n) -> n <> [] -> ends_i n.
  Proof.
    intros [y E] Hn. destruct n as [|a n'] using rev_ind; [congruence|]. rewrite app_assoc in E. apply app_inj_tail in E.
    destruct E as [_ ->]. exists n'. reflexivity.
  Qed.
  Lemma ends_i_app q n : ends_i n -> ends_i (q ++ n).
  Proof. intros [y ->]. exists (q ++ y). apply app_assoc. Qed.
  Lemma ends_i_source p : ends_i p -> source_ok p.
  Proof.
    intros [y ->] b E. exfalso. change [46; 109; 108] with ([46; 109] ++ [108]) in E. rewrite app_assoc in E.
    apply app_inj_tail in E. destruct E as [_ E]. discriminate.
  Qed.
  Lemma ends_i_join d n : ends_i n -> ends_i (pjoin d n).
  Proof.
    intros Hn. unfold pjoin. destruct (isabs n); [exact Hn|]. destruct d as [|c d]; [exact Hn|].
    destruct (ends_sep (c :: d)); [apply ends_i_app; exact Hn|].
    replace ((c :: d) ++ c_sep :: n) with (((c :: d) ++ [c_sep]) ++ n) by (rewrite <- app_assoc; reflexivity).
    apply ends_i_app. exact Hn.
  Qed.
  Lemma mli_ends b : ends_i (b ++ s_mli).
  Proof. exists (b ++ [46; 109; 108]). rewrite <- app_assoc. reflexivity. Qed.
  Lemma ml_source d n : n <> [] -> ~ In c_sep n -> (exists c, In c n /\ c <> c_dot) -> source_ok (pjoin d (n ++ s_ml)).
  Proof.
    intros Hn Hs (c & Hc & Hd) b E.
    assert (exists h, pjoin d (n ++ s_ml) = h ++ n ++ s_ml /\ (h = [] \/ exists h', h = h' ++ [c_sep])) as (h & Eh & Hh).
    { unfold pjoin. assert (isabs (n ++ s_ml) = false) as ->.
      { destruct n as [|x n]; [congruence|]. cbn. apply is_sep_false. intros ->. apply Hs. left. reflexivity. }
      destruct d as [|x d]; [exists []; split; [reflexivity|left; reflexivity]|].
      destruct (ends_sep (x :: d)) eqn:Ee.
      - exists (x :: d). split; [reflexivity|]. right. apply ends_sep_true in Ee. exact Ee.
      - exists ((x :: d) ++ [c_sep]). split; [rewrite <- app_assoc; reflexivity|]. right. exists (x :: d). reflexivity. }
    rewrite Eh, app_assoc in E. apply app_inv_tail in E. subst b. exists n, c. split; [|split; [exact Hc|exact Hd]].
    split; [exact Hs|]. exists h. split; [reflexivity|exact Hh].
  Qed.
  Lemma file_source d m p : module_ok m -> is_file_of w d m p -> source_ok p.
  Proof.
    intros Hm (s' & Hs & _ & Hp). destruct (small_ok m Hm) as [S1 S2]. destruct (capital_ok m Hm) as [C1 C2].
    pose proof (small_dot m (proj2 Hm)) as S3. pose proof (capital_dot m (proj2 Hm)) as C3.
    assert (forall n, n <> [] -> ~ In c_sep n -> (exists c, In c n /\ c <> c_dot) -> source_ok (pjoin d (n ++ s'))) as Hn.
    { intros n N1 N2 N3. destruct Hs as [->| ->]; [|apply (ml_source d n N1 N2 N3)].
      apply ends_i_source, ends_i_join, mli_ends. }
    destruct Hp as [->|[-> _]]; apply Hn; assumption.
  Qed.
  Lemma interface_source is root src p : has_interface w is root src p -> source_ok p.
  Proof.
    assert (forall q, beside src q -> ends_i q) as H1.
    { intros q (b & _ & ->). apply (mli_ends b). }
    assert (forall q, in_sources root src q -> ends_i q) as H2.
    { intros q (q0 & Hb & Ho). pose proof (H1 q0 Hb) as H. destruct Ho as [Ho|[<- _]]; [|exact H].
      destruct q as [|c q].
      - exfalso. rewrite Ho in H. destruct H as [y E]. change (root ++ [c_sep]) with (root ++ [c_sep]) in E.
        apply app_inj_tail in E. destruct E as [_ E]. discriminate.
      - apply (ends_i_tail (root ++ [c_sep])); [|discriminate]. rewrite <- app_assoc. cbn [app]. rewrite <- Ho. exact H. }
    intros [_ [H|[_ [H|[_ (i & is' & _ & H)]]]]]; apply ends_i_source.
    - exact (H1 p H).
    - exact (H2 p H).
    - destruct H as (q & n & Hq & (Hn & h & Eh & Hh) & ->). apply ends_i_join. apply (ends_i_tail h); [rewrite <- Eh; exact (H2 q Hq)|].
      intros ->. rewrite app_nil_r in Eh. subst h. pose proof (H2 q Hq) as [y E].
      destruct Hh as [->|[h' ->]]; [destruct y; discriminate|]. apply app_inj_tail in E. destruct E as [_ E]. discriminate.
  Qed.
  Lemma dependency_source is root ms src p : Forall module_ok ms ->
    (exists m, In m ms /\ names_file w is m p) \/ has_interface w is root src p -> source_ok p.
  Proof.
    intros Hm [(m & Hi & Hf)|H]; [|exact (interface_source is root src p H)].
    pose proof (proj1 (Forall_forall _ _) Hm m Hi) as H1.
    destruct Hf as [Hf|[_ (i & _ & _ & Hf)]]; exact (file_source _ m p H1 Hf).
  Qed.
End World.
