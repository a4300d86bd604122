(** Invariants of tries. *)
From Coq Require Import List NArith Bool Arith Lia.
From Verif Require Import FnModel PathModel PathSpec PathFacts GccModel TryModel TrySpec TryFacts TryPlaces.
Import ListNotations.
Open Scope N_scope.

Definition text_of (k : try) : str := dedent (k_code k) ++ [c_nl].
Definition name_of (t : th) : option str :=
  match t with
  | Idle => None
  | ToCompile x | Compiling x _ | ToLink x | Linking x _ | ToRun x | Running x _ | Done x _ => Some x
  end.

Lemma loc_eqb_refl l : loc_eqb l l = true.
Proof. unfold loc_eqb. destruct (list_eq_dec (list_eq_dec N.eq_dec) l l); congruence. Qed.
Lemma loc_eqb_ne a b : a <> b -> loc_eqb a b = false.
Proof. unfold loc_eqb. destruct (list_eq_dec (list_eq_dec N.eq_dec) a b); congruence. Qed.
Lemma put_same f l c : put f l c l = c.
Proof. unfold put. rewrite loc_eqb_refl. reflexivity. Qed.
Lemma put_other f l c l' : l <> l' -> put f l c l' = f l'.
Proof. intros H. unfold put. rewrite loc_eqb_ne by exact H. reflexivity. Qed.
Lemma nth_set l i t j : nth_error (set_th l i t) j = if Nat.eqb i j then match nth_error l i with Some _ => Some t | None => None end else nth_error l j.
Proof.
  revert i j. induction l as [|a l IH]; intros i j.
  - destruct i; cbn; destruct j; cbn; try reflexivity. destruct (Nat.eqb i j); reflexivity.
  - destruct i as [|i], j as [|j]; cbn; try reflexivity. apply IH.
Qed.
Lemma starts_app p q : starts (p ++ q) p = true.
Proof. induction p as [|x p IH]; [destruct q; reflexivity|]. cbn. rewrite str_eqb_refl. exact IH. Qed.
Lemma temp_name_good x : temp_name x = true -> good_name x.
Proof.
  unfold temp_name. rewrite !andb_true_iff, !negb_true_iff. intros [[[H1 H2] H3] H4].
  apply str_eqb_false in H2, H3, H4. repeat split; try assumption. intros K.
  assert (existsb is_sep x = true); [|congruence]. apply existsb_exists. exists c_sep. split; [exact K|reflexivity].
Qed.

Section Inv.
  Context (cwd root : str) (Hcwd : isabs cwd = true) (ks : list try).
  Notation place := (place cwd).
  Notation in_dir := (in_dir cwd root).
  Notation in_root := (in_root cwd root).

  Lemma dirs_apart x y l : in_dir x l -> in_dir y l -> x = y.
  Proof. intros (n & _ & ->) (m & _ & H). apply app_inv_head in H. congruence. Qed.
  Lemma root_apart x l : in_dir x l -> in_root l -> False.
  Proof.
    intros (n & _ & ->) (m & _ & H). rewrite (tmp_place cwd root Hcwd) in H. apply (f_equal (@length _)) in H.
    rewrite !app_length in H. cbn in H. lia.
  Qed.
  Lemma src_in k x : plain k -> good_name x -> in_dir x (place (src_of cwd root k x)).
  Proof.
    intros Hk Hx. exists (s_temp ++ k_src_suffix k). split; [apply (temp_good [] _); [intros []|apply Hk]|].
    apply src_place; assumption.
  Qed.

  (** [P]: nobody else touches the products. *)
  Definition thread_ok (P : Prop) (k : try) (f : loc -> option str) (t : th) : Prop :=
    match t with
    | Idle => True
    | ToCompile x => good_name x /\ f (place (src_of cwd root k x)) = Some (text_of k)
    | Compiling x r => good_name x /\ r = k_cc k (Some (text_of k))
    | ToLink x => good_name x /\ k_kind k <> KCompile /\
        exists o, k_cc k (Some (text_of k)) = Ok o /\ (P -> f (place (obj_of cwd root k x)) = Some o)
    | Linking x r => good_name x /\ k_kind k <> KCompile /\
        exists o, k_cc k (Some (text_of k)) = Ok o /\ (P -> r = k_ld k (Some o))
    | ToRun x => good_name x /\ k_kind k = KRun /\
        exists o, k_cc k (Some (text_of k)) = Ok o /\
          (P -> exists e, k_ld k (Some o) = Ok e /\ f (place (exe_of cwd root k x)) = Some e)
    | Running x r => good_name x /\ k_kind k = KRun /\
        exists o, k_cc k (Some (text_of k)) = Ok o /\
          (P -> exists e, k_ld k (Some o) = Ok e /\ r = k_exec k (Some e))
    | Done x r => good_name x /\
        (P \/ k_kind k = KCompile \/ (exists e l, k_cc k (Some (text_of k)) = Failed e l) -> r = expected k (text_of k))
    end.

  Definition writes (k : try) (x : str) (l : loc) : Prop :=
    l = place (obj_of cwd root k x) \/ l = place (exe_of cwd root k x).

  Lemma advance_self P k f t f' t' : thread_ok P k f t -> advance cwd root k f t = Some (f', t') ->
    thread_ok P k f' t' /\ name_of t' = name_of t /\
    exists x, name_of t = Some x /\ good_name x /\ forall l, ~ writes k x l -> f' l = f l.
  Proof.
    intros H E. destruct t as [|x|x r|x|x r|x|x r|x r]; cbn [advance] in E; try discriminate; injection E as <- <-; cbn [thread_ok] in H.
    - destruct H as [Hx Hf]. rewrite Hf. split; [split; [exact Hx|reflexivity]|]. split; [reflexivity|]. exists x. auto.
    - destruct H as [Hx Hr]. subst r.
      assert (forall l, ~ writes k x l -> put f (place (obj_of cwd root k x)) (after (k_cc k (Some (text_of k)))) l = f l) as Hfr.
      { intros l Hl. apply put_other. intros <-. apply Hl. left. reflexivity. }
      split; [|split; [|exists x; split; [reflexivity|split; [exact Hx|exact Hfr]]]].
      + destruct (k_cc k (Some (text_of k))) as [c|e rest] eqn:E.
        * destruct (k_kind k) eqn:Ek; cbn [thread_ok].
          -- split; [exact Hx|]. intros _. unfold expected. rewrite E, Ek. reflexivity.
          -- split; [exact Hx|]. split; [congruence|]. exists c. split; [exact E|]. intros _. apply put_same.
          -- split; [exact Hx|]. split; [congruence|]. exists c. split; [exact E|]. intros _. apply put_same.
        * cbn [thread_ok]. split; [exact Hx|]. intros _. unfold expected. rewrite E. reflexivity.
      + destruct (k_cc k (Some (text_of k))); [destruct (k_kind k)|]; reflexivity.
    - destruct H as (Hx & Hk & o & Eo & Hf). split; [|split; [reflexivity|exists x; auto]].
      cbn [thread_ok]. split; [exact Hx|]. split; [exact Hk|]. exists o. split; [exact Eo|]. intros HP. rewrite (Hf HP). reflexivity.
    - destruct H as (Hx & Hk & o & Eo & Hf).
      assert (forall l, ~ writes k x l -> put f (place (exe_of cwd root k x)) (after r) l = f l) as Hfr.
      { intros l Hl. apply put_other. intros <-. apply Hl. right. reflexivity. }
      split; [|split; [|exists x; split; [reflexivity|split; [exact Hx|exact Hfr]]]].
      + destruct r as [c|e rest].
        * destruct (k_kind k) eqn:Ek; cbn [thread_ok]; [congruence| |].
          -- split; [exact Hx|]. intros [HP|[K|(e & l & K)]]; [|congruence|congruence].
             unfold expected. rewrite Eo, Ek, <- (Hf HP). reflexivity.
          -- split; [exact Hx|]. split; [exact Ek|]. exists o. split; [exact Eo|]. intros HP. exists c.
             split; [symmetry; exact (Hf HP)|apply put_same].
        * cbn [thread_ok]. split; [exact Hx|]. intros [HP|[K|(e' & l & K)]]; [|congruence|congruence].
          unfold expected. rewrite Eo, <- (Hf HP). destruct (k_kind k); [congruence|reflexivity|reflexivity].
      + destruct r; [destruct (k_kind k)|]; reflexivity.
    - destruct H as (Hx & Hk & o & Eo & Hf). split; [|split; [reflexivity|exists x; auto]].
      cbn [thread_ok]. split; [exact Hx|]. split; [exact Hk|]. exists o. split; [exact Eo|]. intros HP.
      destruct (Hf HP) as (e & El & Ee). exists e. rewrite Ee. auto.
    - destruct H as (Hx & Hk & o & Eo & Hf). split; [|split; [reflexivity|exists x; auto]].
      cbn [thread_ok]. split; [exact Hx|]. intros [HP|[K|(e & l & K)]]; [|congruence|congruence].
      destruct (Hf HP) as (e & El & ->). unfold expected. rewrite Eo, Hk, El. reflexivity.
  Qed.

  (** What the others do. *)
  Lemma ok_kept (P : Prop) k (f f' : loc -> option str) t : plain k ->
    (forall x, name_of t = Some x -> good_name x -> f' (place (src_of cwd root k x)) = f (place (src_of cwd root k x)) /\
      (P -> f' (place (obj_of cwd root k x)) = f (place (obj_of cwd root k x)) /\ f' (place (exe_of cwd root k x)) = f (place (exe_of cwd root k x)))) ->
    thread_ok P k f t -> thread_ok P k f' t.
  Proof.
    intros Hk Hf H. destruct t as [|x|x r|x|x r|x|x r|x r]; cbn [thread_ok] in *; try exact H.
    - destruct H as [Hx H]. split; [exact Hx|]. rewrite (proj1 (Hf x eq_refl Hx)). exact H.
    - destruct H as (Hx & Hkk & o & Eo & H). split; [exact Hx|]. split; [exact Hkk|]. exists o. split; [exact Eo|]. intros HP.
      rewrite (proj1 (proj2 (Hf x eq_refl Hx) HP)). exact (H HP).
    - destruct H as (Hx & Hkk & o & Eo & H). split; [exact Hx|]. split; [exact Hkk|]. exists o. split; [exact Eo|]. intros HP.
      destruct (H HP) as (e & El & Ee). exists e. split; [exact El|]. rewrite (proj2 (proj2 (Hf x eq_refl Hx) HP)). exact Ee.
  Qed.

  Definition inv (s : state) : Prop :=
    (forall i k t, nth_error ks i = Some k -> nth_error (st_ths s) i = Some t -> thread_ok (owned cwd root) k (st_fs s) t) /\
    (forall i t x, nth_error (st_ths s) i = Some t -> name_of t = Some x -> In x (st_dirs s)) /\
    (forall i j t u x, nth_error (st_ths s) i = Some t -> nth_error (st_ths s) j = Some u ->
      name_of t = Some x -> name_of u = Some x -> i = j).

  Context (Hks : Forall plain ks).
  Lemma ks_plain i k : nth_error ks i = Some k -> plain k.
  Proof. intros H. rewrite Forall_forall in Hks. apply Hks. exact (nth_error_In _ _ H). Qed.

  Lemma files_in k x : plain k -> good_name x ->
    in_dir x (place (src_of cwd root k x)) /\
    (owned cwd root -> in_dir x (place (obj_of cwd root k x)) /\ in_dir x (place (exe_of cwd root k x))).
  Proof.
    intros Hk Hx. split; [apply src_in; assumption|]. intros Ho. split; [apply obj_owned|apply exe_owned]; assumption.
  Qed.
  Lemma writes_in k x l : plain k -> good_name x -> writes k x l -> in_dir x l \/ in_root l.
  Proof.
    intros Hk Hx [->| ->].
    - destruct (obj_place cwd root Hcwd k x Hk Hx) as [[_ H]|[_ H]]; auto.
    - destruct (exe_place cwd root Hcwd k x Hk Hx) as [[_ H]|[_ H]]; auto.
  Qed.
  (** Files in another directory are not changed. *)
  Lemma kept_by_dir k t (f f' : loc -> option str) : plain k ->
    (forall y l, name_of t = Some y -> in_dir y l -> f' l = f l) ->
    thread_ok (owned cwd root) k f t -> thread_ok (owned cwd root) k f' t.
  Proof.
    intros Hk H. apply ok_kept; [exact Hk|]. intros x Ex Hx. destruct (files_in k x Hk Hx) as [H1 H2].
    split; [exact (H x _ Ex H1)|]. intros Ho. destruct (H2 Ho) as [H3 H4]. split; [exact (H x _ Ex H3)|exact (H x _ Ex H4)].
  Qed.

  Lemma step_inv s a s' : inv s -> step cwd root ks s a = Some s' -> inv s'.
  Proof.
    intros (I1 & I2 & I3) E. destruct a as [i x|i|l c]; cbn [step] in E.
    - destruct (nth_error ks i) as [k|] eqn:Ek; [|discriminate]. destruct (nth_error (st_ths s) i) as [[]|] eqn:Et; try discriminate.
      destruct (temp_name x && negb (existsb (str_eqb x) (st_dirs s))) eqn:Eg; [|discriminate]. injection E as <-.
      apply andb_true_iff in Eg as [Hx Hn]. apply temp_name_good in Hx. apply negb_true_iff in Hn.
      assert (~ In x (st_dirs s)) as Hfresh.
      { intros K. assert (existsb (str_eqb x) (st_dirs s) = true); [|congruence]. apply existsb_exists. exists x. split; [exact K|apply str_eqb_refl]. }
      pose proof (ks_plain i k Ek) as Hk. split; [|split]; cbn [st_fs st_dirs st_ths].
      + intros j k' t Ek' Ht. rewrite nth_set, Et in Ht. destruct (Nat.eqb i j) eqn:Ej.
        * apply Nat.eqb_eq in Ej. subst j. injection Ht as <-. rewrite Ek in Ek'. injection Ek' as <-.
          split; [exact Hx|]. apply put_same.
        * apply (kept_by_dir k' t (st_fs s)); [exact (ks_plain j k' Ek')| |exact (I1 j k' t Ek' Ht)].
          intros y l Ey Hl. apply put_other. intros <-. pose proof (dirs_apart _ _ _ (src_in k x Hk Hx) Hl) as K. subst y.
          exact (Hfresh (I2 j t x Ht Ey)).
      + intros j t y Ht Ey. rewrite nth_set, Et in Ht. destruct (Nat.eqb i j); [injection Ht as <-; injection Ey as <-; left; reflexivity|].
        right. exact (I2 j t y Ht Ey).
      + intros j1 j2 t u y H1 H2 E1 E2. rewrite nth_set, Et in H1, H2.
        destruct (Nat.eqb i j1) eqn:Ej1, (Nat.eqb i j2) eqn:Ej2.
        * apply Nat.eqb_eq in Ej1, Ej2. congruence.
        * injection H1 as <-. injection E1 as <-. exfalso. exact (Hfresh (I2 j2 u x H2 E2)).
        * injection H2 as <-. injection E2 as <-. exfalso. exact (Hfresh (I2 j1 t x H1 E1)).
        * exact (I3 j1 j2 t u y H1 H2 E1 E2).
    - destruct (nth_error ks i) as [k|] eqn:Ek; [|discriminate]. destruct (nth_error (st_ths s) i) as [t0|] eqn:Et; [|discriminate].
      destruct (advance cwd root k (st_fs s) t0) as [[f t']|] eqn:Ea; [|discriminate]. injection E as <-.
      destruct (advance_self _ k _ t0 f t' (I1 i k t0 Ek Et) Ea) as (A1 & A2 & x & Ex & Hx & Hfr). pose proof (ks_plain i k Ek) as Hk.
      split; [|split]; cbn [st_fs st_dirs st_ths].
      + intros j k' t Ek' Ht. rewrite nth_set, Et in Ht. destruct (Nat.eqb i j) eqn:Ej.
        * apply Nat.eqb_eq in Ej. subst j. injection Ht as <-. rewrite Ek in Ek'. injection Ek' as <-. exact A1.
        * apply Nat.eqb_neq in Ej. apply (kept_by_dir k' t (st_fs s)); [exact (ks_plain j k' Ek')| |exact (I1 j k' t Ek' Ht)].
          intros y l Ey Hl. apply Hfr. intros W. destruct (writes_in k x l Hk Hx W) as [W'|W'].
          -- pose proof (dirs_apart _ _ _ W' Hl) as K. subst y. exact (Ej (I3 i j t0 t x Et Ht Ex Ey)).
          -- exact (root_apart _ _ Hl W').
      + intros j t y Ht Ey. rewrite nth_set, Et in Ht. destruct (Nat.eqb i j); [|exact (I2 j t y Ht Ey)].
        injection Ht as <-. rewrite A2 in Ey. exact (I2 i t0 y Et Ey).
      + assert (forall j t, nth_error (set_th (st_ths s) i t') j = Some t -> exists u, nth_error (st_ths s) j = Some u /\ name_of u = name_of t) as Hback.
        { intros j t Ht. rewrite nth_set, Et in Ht. destruct (Nat.eqb i j) eqn:Ej; [|exists t; auto].
          apply Nat.eqb_eq in Ej. subst j. injection Ht as <-. exists t0. auto. }
        intros j1 j2 t u y H1 H2 E1 E2. destruct (Hback _ _ H1) as (t1 & K1 & L1). destruct (Hback _ _ H2) as (t2 & K2 & L2).
        apply (I3 j1 j2 t1 t2 y K1 K2); congruence.
    - destruct (starts l (place (tmp cwd root))) eqn:Es; [discriminate|]. injection E as <-. split; [|split; assumption].
      intros i k t Ek Et. cbn [st_fs st_ths] in *. apply (kept_by_dir k t (st_fs s)); [exact (ks_plain i k Ek)| |exact (I1 i k t Ek Et)].
      intros y l' _ (n & _ & ->). apply put_other. intros ->. rewrite starts_app in Es. discriminate.
  Qed.
  Lemma steps_inv ls : forall s s', inv s -> steps cwd root ks s ls = Some s' -> inv s'.
  Proof.
    induction ls as [|a ls IH]; intros s s' I E; cbn in E; [injection E as <-; exact I|].
    destruct (step cwd root ks s a) as [s1|] eqn:E1; [|discriminate]. exact (IH s1 s' (step_inv s a s1 I E1) E).
  Qed.
  Lemma initial_inv f dirs : inv (initial ks f dirs).
  Proof.
    assert (forall i t, nth_error (map (fun _ : try => Idle) ks) i = Some t -> t = Idle) as H.
    { intros i t Ht. apply nth_error_In, in_map_iff in Ht as (? & <- & _). reflexivity. }
    split; [|split]; cbn.
    - intros i k t _ Ht. rewrite (H i t Ht). exact I.
    - intros i t x Ht. rewrite (H i t Ht). discriminate.
    - intros i j t u x Ht _ Ex. rewrite (H i t Ht) in Ex. discriminate.
  Qed.

  (** *** One thread while the others rest *)
  Definition quiet (i : nat) (a : label) : Prop :=
    match a with LStart j _ | LStep j => j = i | LOther l _ => ~ in_root l end.
  Lemma quiet_step i k s a s' t : nth_error ks i = Some k -> nth_error (st_ths s) i = Some t -> thread_ok True k (st_fs s) t ->
    quiet i a -> step cwd root ks s a = Some s' -> exists t', nth_error (st_ths s') i = Some t' /\ thread_ok True k (st_fs s') t'.
  Proof.
    intros Ek Et Ht Hq E. pose proof (ks_plain i k Ek) as Hk. destruct a as [j x|j|l c]; cbn [step] in E; cbn in Hq.
    - subst j. rewrite Ek, Et in E. destruct t; try discriminate.
      destruct (temp_name x && negb (existsb (str_eqb x) (st_dirs s))) eqn:Eg; [|discriminate]. injection E as <-.
      apply andb_true_iff in Eg as [Hx _]. apply temp_name_good in Hx. cbn [st_ths st_fs]. rewrite nth_set, Nat.eqb_refl, Et.
      eexists. split; [reflexivity|]. split; [exact Hx|]. apply put_same.
    - subst j. rewrite Ek, Et in E. destruct (advance cwd root k (st_fs s) t) as [[f t']|] eqn:Ea; [|discriminate]. injection E as <-.
      cbn [st_ths st_fs]. rewrite nth_set, Nat.eqb_refl, Et. exists t'. split; [reflexivity|].
      exact (proj1 (advance_self _ _ _ _ _ _ Ht Ea)).
    - destruct (starts l (place (tmp cwd root))) eqn:Es; [discriminate|]. injection E as <-. cbn [st_ths st_fs]. exists t. split; [exact Et|].
      assert (forall l' y, in_dir y l' \/ in_root l' -> put (st_fs s) l c l' = st_fs s l') as Hput.
      { intros l' y Hl. apply put_other. intros <-. destruct Hl as [(n & _ & ->)|Hl]; [rewrite starts_app in Es; discriminate|exact (Hq Hl)]. }
      apply (ok_kept True k (st_fs s)); [exact Hk| |exact Ht]. intros x _ Hx.
      split; [apply (Hput _ x); left; apply src_in; assumption|]. intros _.
      split; apply (Hput _ x); apply (writes_in k x _ Hk Hx); [left|right]; reflexivity.
  Qed.
  Lemma quiet_steps i k ls : forall s s' t, nth_error ks i = Some k -> nth_error (st_ths s) i = Some t -> thread_ok True k (st_fs s) t ->
    Forall (quiet i) ls -> steps cwd root ks s ls = Some s' -> exists t', nth_error (st_ths s') i = Some t' /\ thread_ok True k (st_fs s') t'.
  Proof.
    induction ls as [|a ls IH]; intros s s' t Ek Et Ht Hq E; cbn in E; [injection E as <-; exists t; auto|].
    destruct (step cwd root ks s a) as [s1|] eqn:E1; [|discriminate]. inversion Hq as [|? ? Hq1 Hq2]; subst.
    destruct (quiet_step i k s a s1 t Ek Et Ht Hq1 E1) as (t1 & Et1 & Ht1). exact (IH s1 s' t1 Ek Et1 Ht1 Hq2 E).
  Qed.

  (** *** Which files change *)
  Lemma step_frame s a s' l : inv s -> step cwd root ks s a = Some s' ->
    match a with LOther _ _ => False | _ => True end ->
    starts l (place (tmp cwd root)) = false -> ~ in_root l -> st_fs s' l = st_fs s l.
  Proof.
    intros (I1 & _) E Ha Hl Hr. assert (forall y, ~ in_dir y l) as Hd.
    { intros y (n & _ & ->). rewrite starts_app in Hl. discriminate. }
    destruct a as [i x|i|]; cbn [step] in E; [| |destruct Ha].
    - destruct (nth_error ks i) as [k|] eqn:Ek; [|discriminate]. destruct (nth_error (st_ths s) i) as [[]|] eqn:Et; try discriminate.
      destruct (temp_name x && negb (existsb (str_eqb x) (st_dirs s))) eqn:Eg; [|discriminate]. injection E as <-.
      apply andb_true_iff in Eg as [Hx _]. apply temp_name_good in Hx. cbn. apply put_other. intros <-.
      exact (Hd x (src_in k x (ks_plain i k Ek) Hx)).
    - destruct (nth_error ks i) as [k|] eqn:Ek; [|discriminate]. destruct (nth_error (st_ths s) i) as [t0|] eqn:Et; [|discriminate].
      destruct (advance cwd root k (st_fs s) t0) as [[f t']|] eqn:Ea; [|discriminate]. injection E as <-.
      destruct (advance_self _ k _ t0 f t' (I1 i k t0 Ek Et) Ea) as (_ & _ & x & _ & Hx & Hfr). cbn. apply Hfr. intros W.
      destruct (writes_in k x l (ks_plain i k Ek) Hx W) as [K|K]; [exact (Hd x K)|exact (Hr K)].
  Qed.

  (** *** A try ends *)
  Definition rank (t : th) : nat :=
    match t with
    | Idle | ToCompile _ => 6 | Compiling _ _ => 5 | ToLink _ => 4 | Linking _ _ => 3 | ToRun _ => 2 | Running _ _ => 1 | Done _ _ => 0
    end.
  Lemma advance_rank k f t : match t with Idle | Done _ _ => True | _ =>
    exists f' t', advance cwd root k f t = Some (f', t') /\ (rank t' < rank t)%nat /\ t' <> Idle end.
  Proof.
    destruct t as [|x|x r|x|x r|x|x r|x r]; cbn [advance]; try exact I; (eexists; eexists; split; [reflexivity|]).
    - cbn. split; [lia|discriminate].
    - destruct r; [destruct (k_kind k)|]; cbn; (split; [lia|discriminate]).
    - cbn. split; [lia|discriminate].
    - destruct r; [destruct (k_kind k)|]; cbn; (split; [lia|discriminate]).
    - cbn. split; [lia|discriminate].
    - cbn. split; [lia|discriminate].
  Qed.
  Lemma ends_from n : forall i k s t, nth_error ks i = Some k -> nth_error (st_ths s) i = Some t -> t <> Idle -> (rank t <= n)%nat ->
    exists m s' x r, (m <= n)%nat /\ steps cwd root ks s (repeat (LStep i) m) = Some s' /\ nth_error (st_ths s') i = Some (Done x r).
  Proof.
    induction n as [|n IH]; intros i k s t Ek Et Hi Hr.
    - destruct t; cbn in Hr; try lia. exists 0%nat, s, x, r. split; [lia|]. split; [reflexivity|exact Et].
    - destruct t as [|x|x r|x|x r|x|x r|x r] eqn:Eqt; [contradiction| | | | | | |exists 0%nat, s, x, r; split; [lia|]; split; [reflexivity|exact Et]];
      (pose proof (advance_rank k (st_fs s) t) as A; rewrite Eqt in A; destruct A as (f' & t' & Ea & Hlt & Hi');
       destruct (IH i k (State f' (st_dirs s) (set_th (st_ths s) i t')) t' Ek) as (m & s' & y & r' & Hm & Hs & Hd);
       [cbn [st_ths]; rewrite nth_set, Nat.eqb_refl, Et; reflexivity|exact Hi'|lia|];
       exists (S m), s', y, r'; split; [lia|]; split; [|exact Hd];
       change (repeat (LStep i) (S m)) with (LStep i :: repeat (LStep i) m);
       cbn [steps step]; rewrite Ek, Et, Ea; exact Hs).
  Qed.
End Inv.
