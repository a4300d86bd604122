(** Proofs about path operations. *)
From Coq Require Import List NArith Bool Arith Lia.
From Verif Require Import FnModel PathModel PathSpec.
Import ListNotations.
Open Scope N_scope.

Lemma str_eqb_refl a : str_eqb a a = true.
Proof. unfold str_eqb. destruct (list_eq_dec N.eq_dec a a); congruence. Qed.
Lemma str_eqb_true a b : str_eqb a b = true -> a = b.
Proof. unfold str_eqb. destruct (list_eq_dec N.eq_dec a b); congruence. Qed.
Lemma str_eqb_false a b : str_eqb a b = false -> a <> b.
Proof. intros H ->. rewrite str_eqb_refl in H. discriminate. Qed.

Lemma is_sep_true c : is_sep c = true <-> c = c_sep.
Proof. apply N.eqb_eq. Qed.
Lemma is_sep_false c : is_sep c = false <-> c <> c_sep.
Proof. apply N.eqb_neq. Qed.

(** Empty, or ending in a slash. *)
Definition dirlike (h : str) : Prop := h = [] \/ exists h', h = h' ++ [c_sep].

Lemma dirlike_app a b : dirlike a -> dirlike b -> dirlike (a ++ b).
Proof.
  intros Ha [->|[b' ->]]; [rewrite app_nil_r; exact Ha|]. right. exists (a ++ b').
  rewrite app_assoc. reflexivity.
Qed.

(** *** cut *)
Lemma cut_spec p : forall h t, cut p = (h, t) -> p = h ++ t /\ ~ In c_sep t /\ dirlike h.
Proof.
  induction p as [|c p IH]; intros h t H; simpl in H.
  - injection H as <- <-. split; [reflexivity|]. split; [tauto|left; reflexivity].
  - destruct (cut p) as [h' t'] eqn:E. destruct (IH h' t' eq_refl) as (-> & Ht & Hh).
    destruct h' as [|d h'].
    + destruct (is_sep c) eqn:Ec; injection H as <- <-.
      * apply is_sep_true in Ec. subst c. split; [reflexivity|]. split; [exact Ht|].
        right. exists []. reflexivity.
      * apply is_sep_false in Ec. split; [reflexivity|]. split; [|left; reflexivity].
        intros [H|H]; [congruence|exact (Ht H)].
    + injection H as <- <-. split; [reflexivity|]. split; [exact Ht|].
      destruct Hh as [Hh|[h'' Hh]]; [discriminate|]. right. exists (c :: h''). rewrite Hh. reflexivity.
Qed.

Lemma cut_none t : ~ In c_sep t -> cut t = ([], t).
Proof.
  induction t as [|c t IH]; intros H; [reflexivity|]. simpl. rewrite IH by (intros K; apply H; right; exact K).
  assert (is_sep c = false) as -> by (apply is_sep_false; intros ->; apply H; left; reflexivity). reflexivity.
Qed.

Lemma cut_sep h t : ~ In c_sep t -> cut (h ++ c_sep :: t) = (h ++ [c_sep], t).
Proof.
  intros Ht. induction h as [|c h IH]; simpl.
  - rewrite cut_none by exact Ht. reflexivity.
  - rewrite IH. destruct (h ++ [c_sep]) as [|d l] eqn:E; [|reflexivity].
    apply app_eq_nil in E as [_ E]. discriminate.
Qed.

Lemma cut_app h t : dirlike h -> ~ In c_sep t -> cut (h ++ t) = (h, t).
Proof.
  intros [->|[h' ->]] Ht; [apply cut_none; exact Ht|].
  rewrite <- app_assoc. apply cut_sep. exact Ht.
Qed.

Lemma last_name_cut p n : is_last_name p n <-> snd (cut p) = n.
Proof.
  split.
  - intros (Hn & h & -> & Hh). rewrite (cut_app h n Hh Hn). reflexivity.
  - intros <-. destruct (cut p) as [h t] eqn:E. destruct (cut_spec p h t E) as (-> & Ht & Hh).
    split; [exact Ht|]. exists h. split; [reflexivity|exact Hh].
Qed.

(** *** rstrip *)
Lemma rstrip_spec h :
  exists seps, h = rstrip h ++ seps /\ forallb is_sep seps = true /\
  (rstrip h = [] \/ exists d c, rstrip h = d ++ [c] /\ is_sep c = false).
Proof.
  induction h as [|c h (seps & He & Hs & Hr)]; [exists []; split; [reflexivity|split; [reflexivity|left; reflexivity]]|].
  simpl. destruct (rstrip h) as [|d l] eqn:E.
  - destruct (is_sep c) eqn:Ec.
    + exists (c :: seps). simpl in *. split; [congruence|]. rewrite Ec. split; [exact Hs|left; reflexivity].
    + exists seps. simpl in *. split; [congruence|]. split; [exact Hs|]. right. exists [], c. auto.
  - exists seps. split; [simpl in *; congruence|]. split; [exact Hs|]. right.
    destruct Hr as [Hr|(d' & c' & Hr & Hc')]; [discriminate|]. exists (c :: d'), c'. rewrite Hr. auto.
Qed.

Lemma rstrip_nil h : rstrip h = [] -> forallb is_sep h = true.
Proof.
  intros H. destruct (rstrip_spec h) as (seps & He & Hs & _). rewrite H in He. simpl in He. congruence.
Qed.

(** *** join *)
Lemma pjoin_nil b : pjoin [] b = b.
Proof. unfold pjoin. destruct (isabs b); reflexivity. Qed.

Lemma path_new_one p : path_new [p] = p.
Proof. apply pjoin_nil. Qed.

Lemma path_new_two a b : path_new [a; b] = pjoin a b.
Proof. unfold path_new. simpl. rewrite pjoin_nil. reflexivity. Qed.

Lemma ends_sep_snoc a c : ends_sep (a ++ [c]) = is_sep c.
Proof. unfold ends_sep. rewrite rev_app_distr. reflexivity. Qed.

Lemma ends_sep_true a : ends_sep a = true -> exists a', a = a' ++ [c_sep].
Proof.
  unfold ends_sep. destruct (rev a) as [|c l] eqn:E; [discriminate|]. intros H.
  apply is_sep_true in H. subst c. exists (rev l). rewrite <- (rev_involutive a), E. reflexivity.
Qed.

(** Joining a relative path adds something that ends in a slash. *)
Lemma pjoin_rel a b :
  isabs b = false -> a <> [] ->
  exists s, pjoin a b = s ++ b /\ dirlike s /\ (s = a \/ s = a ++ [c_sep]).
Proof.
  intros Hb Ha. unfold pjoin. rewrite Hb. destruct a as [|c a]; [contradiction|].
  destruct (ends_sep (c :: a)) eqn:E.
  - destruct (ends_sep_true _ E) as [a' Ha']. exists (c :: a). split; [reflexivity|].
    split; [right; exists a'; exact Ha'|left; reflexivity].
  - exists ((c :: a) ++ [c_sep]). split; [rewrite <- app_assoc; reflexivity|].
    split; [right; exists (c :: a); reflexivity|right; reflexivity].
Qed.

Lemma startswith_app a b : startswith (a ++ b) a = true.
Proof. induction a as [|c a IH]; simpl; [reflexivity|]. rewrite N.eqb_refl. exact IH. Qed.

Lemma startswith_true p a : startswith p a = true -> exists b, p = a ++ b.
Proof.
  revert p. induction a as [|c a IH]; intros p H; simpl in H; [exists p; reflexivity|].
  destruct p as [|d p]; [discriminate|]. apply andb_true_iff in H as [H1 H2].
  apply N.eqb_eq in H1. subst d. destruct (IH p H2) as [b ->]. exists b. reflexivity.
Qed.

Lemma isabs_base p : isabs (snd (psplit p)) = false.
Proof.
  unfold psplit. destruct (cut p) as [h t] eqn:E. destruct (cut_spec p h t E) as (_ & Ht & _).
  assert (isabs t = false) as H.
  { destruct t as [|c t]; [reflexivity|]. apply is_sep_false. intros ->. apply Ht. left. reflexivity. }
  destruct (forallb is_sep h); exact H.
Qed.

Lemma psplit_snd p : snd (psplit p) = snd (cut p).
Proof. unfold psplit. destruct (cut p) as [h t]. destruct (forallb is_sep h); reflexivity. Qed.

(** *** addroot *)
Lemma addroot_cases p root :
  (startswith p root = true /\ addroot p root = p) \/
  (startswith p root = false /\ root <> [] /\ exists s q,
    addroot p root = s ++ q /\ dirlike s /\ (s = root \/ s = root ++ [c_sep]) /\
    isabs q = false /\ q = if isabs p then snd (cut p) else p).
Proof.
  unfold addroot. destruct (startswith p root) eqn:E; simpl negb; cbv iota.
  - left. split; [reflexivity|apply path_new_one].
  - right. split; [reflexivity|].
    assert (root <> []) as Hr by (intros ->; discriminate). split; [exact Hr|].
    rewrite path_new_two.
    set (q := if isabs p then snd (psplit p) else p).
    assert (isabs q = false) as Hq.
    { unfold q. destruct (isabs p) eqn:Ep; [apply isabs_base|exact Ep]. }
    destruct (pjoin_rel root q Hq Hr) as (s & Hs & Hd & Hsr).
    exists s, q. split; [exact Hs|]. split; [exact Hd|]. split; [exact Hsr|]. split; [exact Hq|].
    unfold q. rewrite psplit_snd. reflexivity.
Qed.

Lemma addroot_starts p root : startswith (addroot p root) root = true.
Proof.
  destruct (addroot_cases p root) as [[Hs ->]|(_ & _ & s & q & -> & _ & [->| ->] & _)].
  - exact Hs.
  - apply startswith_app.
  - rewrite <- app_assoc. apply startswith_app.
Qed.

Lemma addroot_idem p root : addroot (addroot p root) root = addroot p root.
Proof.
  pose proof (addroot_starts p root) as H. unfold addroot at 1. rewrite H. apply path_new_one.
Qed.

(** *** components *)
Lemma names_nonnil p : names p <> [].
Proof. destruct p as [|c p]; simpl; [discriminate|]. destruct (is_sep c); [discriminate|]. destruct (names p); discriminate. Qed.

Lemma names_app a b : names (a ++ c_sep :: b) = names a ++ names b.
Proof.
  induction a as [|c a IH]; [reflexivity|]. simpl. rewrite IH. destruct (is_sep c); [reflexivity|].
  pose proof (names_nonnil a). destruct (names a); [contradiction|reflexivity].
Qed.

Lemma components_sep a b : components (a ++ c_sep :: b) = components a ++ components b.
Proof. unfold components. rewrite names_app. apply filter_app. Qed.

Lemma components_nil : components [] = [].
Proof. reflexivity. Qed.

Lemma components_dirlike s b : dirlike s -> components (s ++ b) = components s ++ components b.
Proof.
  intros [->|[s' ->]]; [reflexivity|]. rewrite <- app_assoc. simpl. rewrite !components_sep.
  rewrite components_nil, app_nil_r. reflexivity.
Qed.

Lemma components_add_sep s : components (s ++ [c_sep]) = components s.
Proof. rewrite components_sep, components_nil, app_nil_r. reflexivity. Qed.

Lemma isabs_app a b : a <> [] -> isabs (a ++ b) = isabs a.
Proof. destruct a; [contradiction|reflexivity]. Qed.

Lemma names_nosep t : ~ In c_sep t -> names t = [t].
Proof.
  induction t as [|c t IH]; intros H; [reflexivity|]. simpl.
  assert (is_sep c = false) as -> by (apply is_sep_false; intros ->; apply H; left; reflexivity).
  rewrite IH by (intros K; apply H; right; exact K). reflexivity.
Qed.

Lemma stays_one t : ~ In c_sep t -> t <> dotdot -> stays 0 (components t) = true.
Proof.
  intros Ht Hd. unfold components. rewrite names_nosep by exact Ht. simpl.
  destruct (counts t); [|reflexivity]. simpl.
  destruct (str_eqb t dotdot) eqn:E; [|reflexivity]. apply str_eqb_true in E. contradiction.
Qed.

(** When the path placed below the root does not climb out of it. *)
Definition placeable (root p : str) : Prop :=
  root <> [] /\
  (forall q, p = root ++ q ->
     (q = [] \/ isabs q = true \/ ends_sep root = true) /\ stays 0 (components q) = true) /\
  ((forall q, p <> root ++ q) -> isabs p = false -> stays 0 (components p) = true) /\
  ((forall q, p <> root ++ q) -> isabs p = true -> ~ is_last_name p dotdot).

Lemma addroot_below root p : placeable root p -> below root (addroot p root).
Proof.
  intros (Hr & H1 & H2 & H3).
  destruct (addroot_cases p root) as [[Hs ->]|(Hn & _ & s & q & -> & Hd & Hs & Hq & Eq)].
  - destruct (startswith_true _ _ Hs) as [q ->]. destruct (H1 q eq_refl) as [Hb Hst].
    split; [apply isabs_app; exact Hr|]. exists (components q). split; [|exact Hst].
    destruct Hb as [->|[Hb|Hb]].
    + rewrite !app_nil_r. reflexivity.
    + destruct q as [|c q]; [discriminate|]. apply is_sep_true in Hb. subst c.
      rewrite components_sep. change (c_sep :: q) with ([] ++ c_sep :: q) at 1.
      rewrite components_sep. reflexivity.
    + destruct (ends_sep_true _ Hb) as [r' ->]. rewrite components_dirlike; [reflexivity|].
      right. exists r'. reflexivity.
  - assert (forall q', p <> root ++ q') as Hnp.
    { intros q' ->. rewrite startswith_app in Hn. discriminate. }
    split.
    + destruct Hs as [->| ->]; [apply isabs_app; exact Hr|].
      rewrite <- app_assoc. apply isabs_app. exact Hr.
    + exists (components q). split.
      * rewrite components_dirlike by exact Hd. f_equal. destruct Hs as [->| ->]; [reflexivity|].
        apply components_add_sep.
      * destruct (isabs p) eqn:Ep; subst q.
        -- apply stays_one.
           ++ destruct (cut p) as [h t] eqn:E. apply (cut_spec p h t E).
           ++ intros Hx. apply (H3 Hnp eq_refl). apply last_name_cut. exact Hx.
        -- apply H2; [exact Hnp|reflexivity].
Qed.

(** removeroot of root followed by a slash undoes addroot. *)
Lemma skipn_app_len (A : Type) (a b : list A) : skipn (length a) (a ++ b) = b.
Proof. induction a; [reflexivity|assumption]. Qed.

Lemma removeroot_addroot p root :
  isabs p = false -> (forall q, p <> root ++ q) -> ends_sep root = false ->
  removeroot (addroot p root) (root ++ [c_sep]) = p.
Proof.
  intros Hp Hn Hr.
  destruct (addroot_cases p root) as [[Hs _]|(_ & Hne & s & q & -> & Hd & Hs & Hq & Eq)].
  - destruct (startswith_true _ _ Hs) as [q ->]. exfalso. exact (Hn q eq_refl).
  - rewrite Hp in Eq. subst q.
    assert (s = root ++ [c_sep]) as ->.
    { destruct Hs as [->|Hs]; [|exact Hs]. destruct Hd as [->|[s' ->]]; [contradiction|].
      rewrite ends_sep_snoc in Hr. discriminate. }
    unfold removeroot. rewrite startswith_app. rewrite path_new_one. apply skipn_app_len.
Qed.

(** *** splitext *)
Lemma last_dot_spec t a b : last_dot t = Some (a, b) ->
  exists b', b = c_dot :: b' /\ t = a ++ b /\ ~ In c_dot b'.
Proof.
  assert (forall t, last_dot t = None -> ~ In c_dot t) as Hnone.
  { clear. induction t as [|c t IH]; simpl; [tauto|]. destruct (last_dot t) as [[x y]|]; [discriminate|].
    destruct (N.eqb c c_dot) eqn:E; [discriminate|]. intros _ [H|H]; [|exact (IH eq_refl H)].
    apply N.eqb_neq in E. congruence. }
  revert a b. induction t as [|c t IH]; intros a b H; simpl in H; [discriminate|].
  destruct (last_dot t) as [[x y]|] eqn:E.
  - injection H as <- <-. destruct (IH x y eq_refl) as (b' & -> & -> & Hb). exists b'. auto.
  - destruct (N.eqb c c_dot) eqn:Ec; [|discriminate]. injection H as <- <-. apply N.eqb_eq in Ec. subst c.
    exists t. split; [reflexivity|]. split; [reflexivity|]. apply Hnone. exact E.
Qed.

Lemma last_dot_none t : last_dot t = None -> ~ In c_dot t.
Proof.
  induction t as [|c t IH]; simpl; [tauto|]. destruct (last_dot t) as [[x y]|]; [discriminate|].
  destruct (N.eqb c c_dot) eqn:E; [discriminate|]. intros _ [H|H]; [|exact (IH eq_refl H)].
  apply N.eqb_neq in E. congruence.
Qed.

Lemma last_dot_app a b : ~ In c_dot b -> last_dot (a ++ c_dot :: b) = Some (a, c_dot :: b).
Proof.
  intros Hb. assert (last_dot b = None) as Hn.
  { destruct (last_dot b) as [[x y]|] eqn:E; [|reflexivity]. exfalso.
    destruct (last_dot_spec _ _ _ E) as (b' & -> & -> & _). apply Hb. apply in_or_app. right. left. reflexivity. }
  induction a as [|c a IH]; simpl; [rewrite Hn; reflexivity|]. rewrite IH. reflexivity.
Qed.

Lemma forallb_dot_false a : forallb (N.eqb c_dot) a = false <-> exists c, In c a /\ c <> c_dot.
Proof.
  induction a as [|c a IH]; cbn [forallb In andb].
  - split; [discriminate|]. intros (c & [] & _).
  - destruct (N.eqb c_dot c) eqn:E.
    + cbn [forallb In andb]. rewrite IH. apply N.eqb_eq in E. subst c. split.
      * intros (d & Hd & H). exists d. auto.
      * intros (d & [<-|Hd] & H); [contradiction|]. exists d. auto.
    + cbn [forallb In andb]. split; [|reflexivity]. intros _. exists c. apply N.eqb_neq in E. split; [left; reflexivity|congruence].
Qed.

Lemma splitext_ext p r e : splitext p = (r, e) <-> is_ext p r e.
Proof.
  unfold splitext. destruct (cut p) as [h t] eqn:Ec.
  destruct (cut_spec p h t Ec) as (Hp & Ht & Hh).
  assert (forall n, is_last_name p n -> n = t) as Hlast.
  { intros n Hn. apply last_name_cut in Hn. rewrite Ec in Hn. symmetry. exact Hn. }
  split.
  - intros H. destruct (last_dot t) as [[a b]|] eqn:El.
    + destruct (last_dot_spec _ _ _ El) as (b' & -> & Hab & Hb).
      destruct (forallb (N.eqb c_dot) a) eqn:Ef; injection H as <- <-.
      * split.
        -- rewrite app_nil_r. reflexivity.
        -- tauto.
        -- intros H. contradiction.
        -- intros _ n x y c Hn Hxy Hc. apply Hlast in Hn. subst n. rewrite Hab in Hxy.
           destruct (N.eq_dec c c_dot) as [|Hcd]; [assumption|]. exfalso.
           (* x is a prefix of a *)
           assert (In c a) as Hca.
           { clear -Hxy Hb Hc. revert x Hxy Hc. induction a as [|d a IH]; intros x Hxy Hc.
             - destruct x as [|d x]; [destruct Hc|]. simpl in Hxy. injection Hxy as _ ->.
               exfalso. apply Hb. apply in_or_app. right. left. reflexivity.
             - destruct x as [|d' x]; [destruct Hc|]. simpl in Hxy. injection Hxy as -> Hxy.
               destruct Hc as [->|Hc]; [left; reflexivity|right]. exact (IH x Hxy Hc). }
           assert (forallb (N.eqb c_dot) a = false) as Hf by (apply forallb_dot_false; exists c; auto).
           congruence.
      * split.
        -- rewrite Hp, Hab. rewrite app_assoc. reflexivity.
        -- intros H. apply Ht. rewrite Hab. apply in_or_app. right. exact H.
        -- intros _. apply forallb_dot_false in Ef as (c & Hc & Hcd).
           exists b', a, c. split; [reflexivity|]. split; [exact Hb|]. split; [|auto].
           split; [|exists h; split; [reflexivity|exact Hh]].
           intros H. apply Ht. rewrite Hab. apply in_or_app. left. exact H.
        -- discriminate.
    + injection H as <- <-. split.
      * rewrite app_nil_r. reflexivity.
      * tauto.
      * intros H. contradiction.
      * intros _ n x y c Hn Hxy Hc. apply Hlast in Hn. subst n. exfalso.
        apply (last_dot_none _ El). rewrite Hxy. apply in_or_app. right. left. reflexivity.
  - intros [H1 H2 H3 H4]. destruct e as [|e0 e].
    + rewrite app_nil_r in H1. subst r. specialize (H4 eq_refl).
      destruct (last_dot t) as [[a b]|] eqn:El; [|reflexivity].
      destruct (last_dot_spec _ _ _ El) as (b' & -> & Hab & Hb).
      destruct (forallb (N.eqb c_dot) a) eqn:Ef; [reflexivity|]. exfalso.
      apply forallb_dot_false in Ef as (c & Hc & Hcd). apply Hcd.
      apply (H4 t a b' c); [|exact Hab|exact Hc].
      split; [exact Ht|]. exists h. split; [exact Hp|exact Hh].
    + destruct (H3 ltac:(discriminate)) as (e' & n & c & He & Hne & Hln & Hc & Hcd).
      rewrite He in *. destruct Hln as (Hns & h' & -> & Hh').
      assert (cut p = (h', n ++ c_dot :: e')) as Hcut.
      { rewrite H1. rewrite <- app_assoc. apply cut_app; [exact Hh'|].
        intros K. apply in_app_or in K as [K|K]; [exact (Hns K)|exact (H2 K)]. }
      rewrite Ec in Hcut. injection Hcut as -> ->.
      rewrite last_dot_app by exact Hne.
      assert (forallb (N.eqb c_dot) n = false) as -> by (apply forallb_dot_false; exists c; auto).
      reflexivity.
Qed.

Lemma splitext_dir s p r e : dirlike s -> splitext p = (r, e) -> splitext (s ++ p) = (s ++ r, e).
Proof.
  unfold splitext. intros Hs H. destruct (cut p) as [h t] eqn:Ec.
  destruct (cut_spec p h t Ec) as (-> & Ht & Hh).
  rewrite app_assoc. rewrite (cut_app (s ++ h) t) by (try apply dirlike_app; assumption).
  destruct (last_dot t) as [[a b]|].
  - destruct (forallb (N.eqb c_dot) a); injection H as <- <-; rewrite !app_assoc; reflexivity.
  - injection H as <- <-. rewrite !app_assoc. reflexivity.
Qed.

(** replaceext changes the last name only. *)
Lemma replaceext_last p ext n :
  ~ In c_sep ext -> is_last_name p n ->
  fst (psplit (replaceext p ext)) = fst (psplit p) /\
  exists h r e, p = h ++ n /\ n = r ++ e /\ replaceext p ext = h ++ r ++ ext /\
    snd (splitext p) = e /\ is_last_name (replaceext p ext) (r ++ ext).
Proof.
  intros He Hn. pose proof Hn as Hcn. apply last_name_cut in Hcn.
  unfold replaceext. rewrite path_new_one. unfold splitext.
  destruct (cut p) as [h t] eqn:Ec. simpl in Hcn. subst t.
  destruct (cut_spec p h n Ec) as (Hp & Ht & Hh).
  assert (forall r e, n = r ++ e ->
    fst (psplit ((h ++ r) ++ ext)) = fst (psplit p) /\
    exists h0 r0 e0, p = h0 ++ n /\ n = r0 ++ e0 /\ (h ++ r) ++ ext = h0 ++ r0 ++ ext /\
      e = e0 /\ is_last_name ((h ++ r) ++ ext) (r0 ++ ext)) as Hgo.
  { intros r e Hre.
    assert (~ In c_sep (r ++ ext)) as Hnr.
    { intros K. apply in_app_or in K as [K|K]; [|exact (He K)].
      apply Ht. rewrite Hre. apply in_or_app. left. exact K. }
    assert (cut ((h ++ r) ++ ext) = (h, r ++ ext)) as Hcut.
    { rewrite <- app_assoc. apply cut_app; assumption. }
    split.
    - unfold psplit. rewrite Hcut, Ec. destruct (forallb is_sep h); reflexivity.
    - exists h, r, e. split; [exact Hp|]. split; [exact Hre|]. split; [rewrite app_assoc; reflexivity|].
      split; [reflexivity|]. apply last_name_cut. rewrite Hcut. reflexivity. }
  destruct (last_dot n) as [[a b]|] eqn:El.
  - destruct (last_dot_spec _ _ _ El) as (b' & _ & Hab & _).
    destruct (forallb (N.eqb c_dot) a); cbn [fst snd].
    + pose proof (Hgo n [] (eq_sym (app_nil_r n))) as H. rewrite <- Hp in H. exact H.
    + apply Hgo. exact Hab.
  - cbn [fst snd]. pose proof (Hgo n [] (eq_sym (app_nil_r n))) as H. rewrite <- Hp in H. exact H.
Qed.

(** *** splitall *)
Lemma psplit_shorter p : fst (psplit p) = p \/ (length (fst (psplit p)) < length p)%nat.
Proof.
  unfold psplit. destruct (cut p) as [h t] eqn:Ec. destruct (cut_spec p h t Ec) as (-> & _ & _).
  destruct (forallb is_sep h); cbn [fst].
  - destruct t as [|c t]; [left; rewrite app_nil_r; reflexivity|]. right. rewrite app_length. simpl. lia.
  - destruct (rstrip_spec h) as (seps & Hh & _ & _).
    destruct (seps ++ t) as [|c l] eqn:E.
    + left. apply app_eq_nil in E as [-> ->]. rewrite app_nil_r in Hh |- *. symmetry. exact Hh.
    + right. rewrite Hh at 2. rewrite <- app_assoc, E. rewrite app_length. simpl. lia.
Qed.

Lemma squeeze__nosep b t : ~ In c_sep t -> squeeze_ b t = t.
Proof.
  revert b. induction t as [|c t IH]; intros b H; [reflexivity|]. simpl.
  assert (is_sep c = false) as -> by (apply is_sep_false; intros ->; apply H; left; reflexivity).
  f_equal. apply IH. intros K. apply H. right. exact K.
Qed.

Lemma squeeze_nosep t : ~ In c_sep t -> squeeze t = t.
Proof.
  intros H. destruct t as [|c t]; [reflexivity|]. simpl.
  assert (is_sep c = false) as -> by (apply is_sep_false; intros ->; apply H; left; reflexivity).
  f_equal. apply squeeze__nosep. intros K. apply H. right. exact K.
Qed.

Lemma squeeze_seps h t : forallb is_sep h = true -> ~ In c_sep t -> squeeze (h ++ t) = h ++ t.
Proof.
  intros Hh Ht. induction h as [|c h IH]; [apply squeeze_nosep; exact Ht|]. simpl in *.
  apply andb_true_iff in Hh as [-> Hh]. f_equal. exact (IH Hh).
Qed.

Lemma squeeze__seps seps t : forallb is_sep seps = true -> ~ In c_sep t -> squeeze_ true (seps ++ t) = t.
Proof.
  intros Hs Ht. induction seps as [|c seps IH]; [apply squeeze__nosep; exact Ht|]. simpl in *.
  apply andb_true_iff in Hs as [-> Hs]. exact (IH Hs).
Qed.

Lemma squeeze__snoc d c x b : is_sep c = false ->
  exists y, squeeze_ b (d ++ [c]) = y ++ [c] /\
    squeeze_ b (d ++ c :: x) = squeeze_ b (d ++ [c]) ++ squeeze_ false x.
Proof.
  intros Hc. revert b. induction d as [|e d IH]; intros b; simpl.
  - rewrite Hc. exists []. auto.
  - destruct (is_sep e).
    + destruct b.
      * apply IH.
      * destruct (IH true) as (y & H1 & H2). exists (e :: y). rewrite H1 in *. rewrite H2. auto.
    + destruct (IH false) as (y & H1 & H2). exists (e :: y). rewrite H1 in *. rewrite H2. auto.
Qed.

Lemma squeeze_snoc d c x : is_sep c = false ->
  exists y, squeeze (d ++ [c]) = y ++ [c] /\
    squeeze (d ++ c :: x) = squeeze (d ++ [c]) ++ squeeze_ false x.
Proof.
  intros Hc. induction d as [|e d IH]; simpl.
  - rewrite Hc. exists []. auto.
  - destruct (is_sep e).
    + destruct IH as (y & H1 & H2). exists (e :: y). rewrite H1 in *. rewrite H2. auto.
    + destruct (squeeze__snoc d c x false Hc) as (y & H1 & H2). exists (e :: y). rewrite H1 in *.
      rewrite H2. auto.
Qed.

(** One step of the loop, read backwards. *)
Lemma squeeze_split p : fst (psplit p) <> p -> pjoin (squeeze (fst (psplit p))) (snd (psplit p)) = squeeze p.
Proof.
  unfold psplit. destruct (cut p) as [h t] eqn:Ec. destruct (cut_spec p h t Ec) as (-> & Ht & Hh).
  assert (isabs t = false) as Hta.
  { destruct t as [|c t]; [reflexivity|]. apply is_sep_false. intros ->. apply Ht. left. reflexivity. }
  destruct (forallb is_sep h) eqn:Ef; cbn [fst snd]; intros Hne.
  - rewrite squeeze_seps by assumption.
    rewrite <- (app_nil_r h) at 1. rewrite squeeze_seps by (try assumption; intros []). rewrite app_nil_r.
    unfold pjoin. rewrite Hta. destruct h as [|c h]; [reflexivity|].
    destruct Hh as [Hh|[h' Hh]]; [discriminate|]. rewrite Hh, ends_sep_snoc. reflexivity.
  - destruct (rstrip_spec h) as (seps & Hhe & Hs & [Hr|(d & c & Hr & Hc)]).
    + apply rstrip_nil in Hr. congruence.
    + rewrite Hr in *. rewrite Hhe. rewrite <- !app_assoc. cbn [app].
      destruct (squeeze_snoc d c (seps ++ t) Hc) as (y & Hy & ->). rewrite Hy.
      unfold pjoin. rewrite Hta. rewrite ends_sep_snoc, Hc.
      assert (squeeze_ false (seps ++ t) = c_sep :: t) as ->.
      { destruct seps as [|s seps].
        - exfalso. rewrite app_nil_r in Hhe. destruct Hh as [->|[h' Hh]].
          + destruct d; discriminate.
          + rewrite Hh in Hhe. apply app_inj_tail in Hhe as [_ <-]. discriminate.
        - cbn [app forallb squeeze_] in *. apply andb_true_iff in Hs as [Hs1 Hs2]. rewrite Hs1.
          apply is_sep_true in Hs1. subst s. f_equal. apply squeeze__seps; assumption. }
      destruct (y ++ [c]) as [|z l] eqn:E; [|reflexivity]. destruct y; discriminate.
Qed.

Lemma psplit_fix p : fst (psplit p) = p -> squeeze p = p.
Proof.
  unfold psplit. destruct (cut p) as [h t] eqn:Ec. destruct (cut_spec p h t Ec) as (-> & Ht & Hh).
  destruct (forallb is_sep h) eqn:Ef; cbn [fst].
  - intros _. apply squeeze_seps; assumption.
  - intros H. destruct (rstrip_spec h) as (seps & Hhe & Hs & _).
    rewrite Hhe in H at 2. rewrite <- app_assoc in H.
    rewrite <- (app_nil_r (rstrip h)) in H at 1. apply app_inv_head in H. symmetry in H.
    apply app_eq_nil in H as [-> ->]. rewrite app_nil_r in Hhe.
    destruct (rstrip_spec h) as (_ & _ & _ & [Hr|(d & c & Hr & Hc)]).
    + apply rstrip_nil in Hr. congruence.
    + rewrite Hr in Hhe. destruct Hh as [->|[h' Hh]]; [destruct d; discriminate|].
      rewrite Hh in Hhe. apply app_inj_tail in Hhe as [_ <-]. discriminate.
Qed.

Lemma splitall_loop_spec fuel : forall p acc, (fuel > length p)%nat ->
  exists l, splitall_loop fuel p acc = Some (l ++ acc) /\ path_new l = squeeze p /\
    (forall n, In n l -> (~ In c_sep n \/ (n <> [] /\ forall c, In c n -> c = c_sep))).
Proof.
  induction fuel as [|fuel IH]; intros p acc Hf; [lia|].
  cbn [splitall_loop]. pose proof (psplit_shorter p) as Hsh. pose proof (squeeze_split p) as Hsq.
  pose proof (psplit_fix p) as Hfix.
  assert (~ In c_sep (snd (psplit p))) as Hb.
  { rewrite psplit_snd. destruct (cut p) as [h t] eqn:Ec. apply (cut_spec p h t Ec). }
  assert (fst (psplit p) = p -> forall c, In c p -> c = c_sep) as Hall.
  { unfold psplit. destruct (cut p) as [h t] eqn:Ec. destruct (cut_spec p h t Ec) as (-> & Ht & Hh).
    destruct (forallb is_sep h) eqn:Ef; cbn [fst].
    - intros H c Hc. rewrite <- (app_nil_r h) in H at 1. apply app_inv_head in H. subst t.
      rewrite app_nil_r in Hc. rewrite forallb_forall in Ef. apply is_sep_true. apply Ef. exact Hc.
    - intros H. exfalso. destruct (rstrip_spec h) as (seps & Hhe & Hs & [Hr|(d & c & Hr & Hc)]).
      + apply rstrip_nil in Hr. congruence.
      + rewrite Hhe in H at 2. rewrite <- app_assoc in H.
        rewrite <- (app_nil_r (rstrip h)) in H at 1. apply app_inv_head in H. symmetry in H.
        apply app_eq_nil in H as [-> ->]. rewrite app_nil_r in Hhe. rewrite Hr in Hhe.
        destruct Hh as [->|[h' Hh]]; [destruct d; discriminate|].
        rewrite Hh in Hhe. apply app_inj_tail in Hhe as [_ <-]. discriminate. }
  destruct (psplit p) as [d b]. cbn [fst snd] in *.
  destruct (str_eqb d p) eqn:E.
  - apply str_eqb_true in E. subst d. rewrite (Hfix eq_refl). destruct p as [|c p].
    + exists []. split; [reflexivity|]. split; [reflexivity|]. intros n [].
    + exists [c :: p]. split; [reflexivity|]. split; [apply path_new_one|].
      intros n [<-|[]]. right. split; [discriminate|]. apply Hall. reflexivity.
  - apply str_eqb_false in E. destruct Hsh as [Hsh|Hsh]; [contradiction|].
    destruct (IH d (b :: acc) ltac:(lia)) as (l & -> & Hl & Hn).
    exists (l ++ [b]). rewrite <- app_assoc. split; [reflexivity|]. split.
    + unfold path_new in *. rewrite fold_left_app. cbn [fold_left]. rewrite Hl. apply Hsq. exact E.
    + intros n Hin. apply in_app_or in Hin as [Hin|[<-|[]]]; [apply Hn; exact Hin|]. left. exact Hb.
Qed.

Lemma splitall_ok p fuel : (fuel > length p)%nat ->
  exists l, splitall fuel p = Some l /\ path_new l = squeeze p /\
    (forall n, In n l -> (~ In c_sep n \/ (n <> [] /\ forall c, In c n -> c = c_sep))).
Proof.
  intros Hf. destruct (splitall_loop_spec fuel p [] Hf) as (l & Hl & H1 & H2).
  exists l. rewrite app_nil_r in Hl. auto.
Qed.

(** *** Distinct results *)
Lemma addroot_rel p root :
  isabs p = false -> (forall q, p <> root ++ q) ->
  exists s, addroot p root = s ++ p /\ dirlike s /\
    s = match root with [] => [] | _ => if ends_sep root then root else root ++ [c_sep] end.
Proof.
  intros Hp Hn. destruct (addroot_cases p root) as [[Hs _]|(_ & Hne & s & q & H & Hd & Hs & Hq & Eq)].
  - destruct (startswith_true _ _ Hs) as [q ->]. exfalso. exact (Hn q eq_refl).
  - rewrite Hp in Eq. subst q. exists s. split; [exact H|]. split; [exact Hd|].
    unfold addroot in H. destruct (startswith p root) eqn:E.
    { destruct (startswith_true _ _ E) as [q ->]. exfalso. exact (Hn q eq_refl). }
    simpl negb in H. cbv iota in H. rewrite Hp in H. rewrite path_new_two in H. unfold pjoin in H.
    rewrite Hp in H. destruct root as [|c root]; [contradiction|].
    destruct (ends_sep (c :: root)).
    + apply app_inv_tail in H. symmetry. exact H.
    + change (c_sep :: p) with ([c_sep] ++ p) in H. rewrite app_assoc in H.
      apply app_inv_tail in H. symmetry. exact H.
Qed.

Lemma addroot_inj root p q :
  isabs p = false -> isabs q = false ->
  (forall r, p <> root ++ r) -> (forall r, q <> root ++ r) ->
  addroot p root = addroot q root -> p = q.
Proof.
  intros Hp Hq Hnp Hnq. destruct (addroot_rel p root Hp Hnp) as (s & -> & _ & Hs).
  destruct (addroot_rel q root Hq Hnq) as (s' & -> & _ & Hs'). subst s s'. apply app_inv_head.
Qed.

Lemma product_inj root ext p q :
  isabs p = false -> isabs q = false ->
  (forall r, p <> root ++ r) -> (forall r, q <> root ++ r) ->
  snd (splitext p) = snd (splitext q) ->
  replaceext (addroot p root) ext = replaceext (addroot q root) ext -> p = q.
Proof.
  intros Hp Hq Hnp Hnq He. destruct (addroot_rel p root Hp Hnp) as (s & -> & Hd & Hs).
  destruct (addroot_rel q root Hq Hnq) as (s' & -> & _ & Hs'). rewrite <- Hs in Hs'. subst s'.
  unfold replaceext. rewrite !path_new_one.
  destruct (splitext p) as [rp ep] eqn:Ep. destruct (splitext q) as [rq eq] eqn:Eq. simpl in He. subst eq.
  rewrite (splitext_dir s p rp ep Hd Ep), (splitext_dir s q rq ep Hd Eq). cbn [fst].
  intros H. apply app_inv_tail in H. apply app_inv_head in H. subst rq.
  apply splitext_ext in Ep, Eq. rewrite (ie_split _ _ _ Ep), (ie_split _ _ _ Eq). reflexivity.
Qed.

(** *** addprefix *)
Lemma rstrip_snoc d c : is_sep c = false -> rstrip ((d ++ [c]) ++ [c_sep]) = d ++ [c].
Proof.
  intros Hc. induction d as [|x d IH].
  - simpl. rewrite Hc. destruct (is_sep c_sep) eqn:E; [reflexivity|discriminate].
  - cbn [app rstrip]. cbn [app] in IH. rewrite IH. destruct (d ++ [c]) eqn:E; [|reflexivity].
    apply app_eq_nil in E as [_ E]. discriminate.
Qed.

Lemma addprefix_last p pre n :
  ~ In c_sep pre -> is_last_name p n ->
  fst (psplit (addprefix p pre)) = fst (psplit p) /\ is_last_name (addprefix p pre) (pre ++ n).
Proof.
  intros Hpre Hn. assert (~ In c_sep (pre ++ n)) as Hpn.
  { destruct Hn as [Hn _]. intros K. apply in_app_or in K as [K|K]; contradiction. }
  assert (isabs (pre ++ n) = false) as Habs.
  { destruct (pre ++ n) as [|c l]; [reflexivity|]. apply is_sep_false. intros ->. apply Hpn. left. reflexivity. }
  apply last_name_cut in Hn. unfold addprefix, psplit. destruct (cut p) as [h t] eqn:E. simpl in Hn. subst t.
  destruct (cut_spec p h n E) as (_ & _ & Hh). destruct (forallb is_sep h) eqn:Es.
  - assert (path_new [h; pre ++ n] = h ++ pre ++ n) as ->.
    { rewrite path_new_two. unfold pjoin. rewrite Habs. destruct h as [|c h']; [reflexivity|].
      destruct Hh as [Hh|[h0 Hh]]; [discriminate|]. rewrite Hh, ends_sep_snoc. reflexivity. }
    rewrite (cut_app h _ Hh Hpn), Es. split; [reflexivity|].
    split; [exact Hpn|]. exists h. split; [reflexivity|exact Hh].
  - destruct (rstrip_spec h) as (seps & He & Hs & [Hr|(d & c & Hr & Hc)]).
    { rewrite Hr in He. simpl in He. congruence. }
    assert (path_new [rstrip h; pre ++ n] = ((d ++ [c]) ++ [c_sep]) ++ pre ++ n) as ->.
    { rewrite path_new_two, Hr. unfold pjoin. rewrite Habs, ends_sep_snoc, Hc.
      destruct (d ++ [c]) eqn:E2; [apply app_eq_nil in E2 as [_ E2]; discriminate|].
      rewrite <- !app_assoc. reflexivity. }
    rewrite cut_app; [|right; eexists; reflexivity|exact Hpn].
    assert (forallb is_sep ((d ++ [c]) ++ [c_sep]) = false) as ->.
    { rewrite !forallb_app. simpl. rewrite Hc, andb_false_r. reflexivity. }
    rewrite rstrip_snoc by exact Hc. split; [symmetry; exact Hr|].
    split; [exact Hpn|]. eexists. split; [reflexivity|right; eexists; reflexivity].
Qed.
