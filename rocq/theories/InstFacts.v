(** Facts about installing. *)
From stdpp Require Import base list gmap.
From Coq Require Import NArith Lia.
From Verif Require Import FnModel PathModel PathSpec PathFacts InstModel.
Local Open Scope nat_scope.

(** What a target is put together from, below destdir. *)
Definition parts (prefix subdir : str) (rename : option str) (path : str) : list str :=
  let name := match rename with Some (c :: r) => c :: r | _ => snd (psplit path) end in
  match subdir with
  | 47%N :: sub => [sub; name]
  | _ => [match prefix with 47%N :: pre => pre | _ => prefix end; subdir; name]
  end.

Lemma pjoin_components a b :
  a <> [] -> isabs b = false ->
  pjoin a b <> [] /\ isabs (pjoin a b) = isabs a /\ components (pjoin a b) = components a ++ components b.
Proof.
  intros Ha Hb. destruct (pjoin_rel a b Hb Ha) as (s & -> & Hd & Hs).
  assert (s <> []) as Hn by (destruct Hs as [->| ->]; [done|by destruct a]).
  split; [by destruct s|]. split.
  - rewrite isabs_app by done. destruct Hs as [->| ->]; [done|]. by rewrite isabs_app.
  - rewrite components_dirlike by done. f_equal. destruct Hs as [->| ->]; [done|]. apply components_add_sep.
Qed.

Lemma path_new_parts ps a :
  a <> [] -> Forall (fun p => isabs p = false) ps ->
  let t := fold_left pjoin ps a in
  t <> [] /\ isabs t = isabs a /\ components t = components a ++ flat_map components ps.
Proof.
  intros Ha Hps. revert a Ha. induction Hps as [|p ps Hp Hps IH]; intros a Ha t; subst t; cbn [fold_left flat_map].
  - by rewrite app_nil_r.
  - destruct (pjoin_components a p Ha Hp) as (Hn & Hi & Hc).
    destruct (IH (pjoin a p) Hn) as (IH1 & IH2 & IH3). split; [done|]. split; [by rewrite IH2|].
    rewrite IH3, Hc. by rewrite <- app_assoc.
Qed.

Lemma isabs_cons p : isabs p = true -> exists q, p = 47%N :: q.
Proof. destruct p as [|c p]; [done|]. cbn. intros ->%is_sep_true. by exists p. Qed.

Lemma parts_sub sub prefix rename path :
  parts prefix (47%N :: sub) rename path =
  [sub; match rename with Some (c :: r) => c :: r | _ => snd (psplit path) end].
Proof. reflexivity. Qed.

Lemma parts_rel prefix subdir rename path :
  isabs subdir = false ->
  parts prefix subdir rename path =
  [if isabs prefix then tail prefix else prefix; subdir;
   match rename with Some (c :: r) => c :: r | _ => snd (psplit path) end].
Proof.
  intros Hs. unfold parts.
  assert (match prefix with 47%N :: pre => pre | _ => prefix end = if isabs prefix then tail prefix else prefix) as ->.
  { destruct (isabs prefix) eqn:Ep.
    - apply isabs_cons in Ep as [q ->]. done.
    - destruct prefix as [|c p]; [done|]. cbn in Ep. apply N.eqb_neq in Ep. unfold c_sep in Ep.
      destruct c as [|c]; [done|]. repeat (destruct c as [c|c|]; try done). }
  destruct subdir as [|c sub]; [done|]. cbn in Hs. apply N.eqb_neq in Hs. unfold c_sep in Hs.
  destruct c as [|c]; [done|]. repeat (destruct c as [c|c|]; try done).
Qed.

Lemma install_target_parts destdir prefix subdir rename path :
  install_target destdir prefix subdir rename path = fold_left pjoin (parts prefix subdir rename path) destdir.
Proof.
  unfold install_target. destruct (isabs subdir) eqn:Es.
  - apply isabs_cons in Es as [sub ->]. rewrite parts_sub. unfold path_new. cbn [fold_left].
    rewrite !pjoin_nil. done.
  - rewrite parts_rel by done. unfold path_new. cbn [fold_left]. rewrite !pjoin_nil. done.
Qed.

Lemma install_below destdir prefix subdir rename path :
  destdir <> [] ->
  Forall (fun p => isabs p = false) (parts prefix subdir rename path) ->
  below destdir (install_target destdir prefix subdir rename path) <->
  stays 0 (flat_map components (parts prefix subdir rename path)) = true.
Proof.
  intros Hd Hp. rewrite install_target_parts.
  destruct (path_new_parts _ destdir Hd Hp) as (_ & Hi & Hc). unfold below. rewrite Hc. split.
  - intros (_ & cs & He & Hs). by apply app_inv_head in He as ->.
  - intros Hs. split; [done|]. eauto.
Qed.

(** *** Files *)
Lemma follow_file n f p : (forall q, f !! p <> Some (Link q)) -> follow n f p = Some p.
Proof. intros H. destruct n; cbn; destruct (f !! p) as [[| |]|] eqn:E; try done; by destruct (H p0). Qed.

Definition plain (o : option node) : Prop := o = None \/ exists c m, o = Some (File c m).

Lemma copy_plain f src dst c m :
  f !! src = Some (File c m) -> plain (f !! dst) -> src <> dst ->
  copy f src dst = Some (<[dst := File c m]> f).
Proof.
  intros Hs Hd Hne. unfold copy, target_of.
  rewrite (follow_file _ f src) by (intros q; by rewrite Hs).
  assert (forall q, f !! dst <> Some (Link q)) as Hnl by (intros q; destruct Hd as [->|(? & ? & ->)]; done).
  rewrite (follow_file _ f dst Hnl).
  assert (match f !! dst with Some Dir => pjoin dst (snd (psplit src)) | _ => dst end = dst) as ->
    by (destruct Hd as [->|(? & ? & ->)]; done).
  rewrite (follow_file _ f dst Hnl). destruct (decide (src = dst)); [done|]. rewrite Hs.
  by destruct Hd as [->|(? & ? & ->)].
Qed.

Lemma install_plain f src dst c m perms :
  f !! src = Some (File c m) -> plain (f !! dst) -> src <> dst ->
  local_install f src dst perms =
  Some (match perms with
        | Some p => <[src := File c p]> (<[dst := File c m]> f)
        | None => <[dst := File c m]> f
        end).
Proof.
  intros Hs Hd Hne. unfold local_install. rewrite Hs, (copy_plain _ _ _ _ _ Hs Hd Hne).
  destruct perms as [p|]; [|done]. unfold chmod, target_of.
  rewrite follow_file by (intros q; by rewrite lookup_insert_ne, Hs).
  by rewrite lookup_insert_ne, Hs.
Qed.

Lemma follow_end n f p q : follow n f p = Some q -> forall t, f !! q <> Some (Link t).
Proof.
  revert p. induction n as [|n IH]; intros p; cbn; destruct (f !! p) as [[| |]|] eqn:E; try done.
  all: try (intros [= <-] t; by rewrite E).
  apply IH.
Qed.

Lemma copy_changes f src dst f' p :
  copy f src dst = Some f' -> f' !! p <> f !! p ->
  exists dst', target_of f dst' = Some p /\ (dst' = dst \/ dst' = pjoin dst (snd (psplit src))) /\
    target_of f src <> Some p.
Proof.
  unfold copy. set (dst' := match target_of f dst with Some _ => _ | None => _ end).
  assert (dst' = dst \/ dst' = pjoin dst (snd (psplit src))) as Hd.
  { unfold dst'. destruct (target_of f dst) as [q|]; [|by left]. destruct (f !! q) as [[]|]; auto. }
  clearbody dst'. destruct (target_of f src) as [s|]; [|done]. destruct (target_of f dst') as [d|] eqn:Ed; [|done].
  destruct (decide (s = d)) as [|Hne]; [done|]. intros H Hp.
  assert (d = p) as ->.
  { destruct (decide (d = p)); [done|]. destruct (f !! s) as [[]|], (f !! d) as [[]|]; try done;
      injection H as <-; by rewrite lookup_insert_ne in Hp. }
  exists dst'. split; [done|]. split; [done|]. congruence.
Qed.

(** Without permissions to set, the source stays as it is. *)
Lemma install_source f src dst f' : local_install f src dst None = Some f' -> f' !! src = f !! src.
Proof.
  unfold local_install. destruct (f !! src) as [[c m|t|]|] eqn:Es.
  2: { intros H. destruct (decide (src = dst)) as [<-|Hne].
       - destruct (exists_ f src) eqn:Ee.
         + unfold remove in H. rewrite Es in H. unfold symlink in H. rewrite lookup_delete in H.
           injection H as <-. by rewrite lookup_insert.
         + unfold symlink in H. by rewrite Es in H.
       - destruct (if exists_ f dst then remove f dst else Some f) as [f1|] eqn:Er; [|done].
         assert (f1 !! src = f !! src) as H1.
         { destruct (exists_ f dst); [|by injection Er as <-]. unfold remove in Er.
           destruct (f !! dst) as [[]|]; try done; injection Er as <-; by rewrite lookup_delete_ne. }
         unfold symlink in H. destruct (f1 !! dst); [done|]. injection H as <-.
         rewrite lookup_insert_ne by done. by rewrite H1. }
  all: destruct (copy f src dst) as [f1|] eqn:Ec; [|done]; intros [= <-];
    destruct (decide (f1 !! src = f !! src)) as [He|Hn]; [congruence|];
    destruct (copy_changes _ _ _ _ _ Ec Hn) as (d & Hd & _ & Hns);
    exfalso; apply Hns; apply follow_file; intros q; by rewrite Es.
Qed.

(** All installed without permissions: copies, and nothing else changed. *)
Lemma install_all_plain f items :
  (forall s d p, (s, d, p) ∈ items -> p = None) ->
  NoDup ((fun i => snd (fst i)) <$> items) ->
  (forall s d p, (s, d, p) ∈ items -> exists c m, f !! s = Some (File c m)) ->
  (forall s d p, (s, d, p) ∈ items -> plain (f !! d)) ->
  (forall s d p s' d' p', (s, d, p) ∈ items -> (s', d', p') ∈ items -> s <> d') ->
  exists f', install_all f items = Some f' /\
    (forall s d p, (s, d, p) ∈ items -> f' !! d = f !! s) /\
    (forall q, (forall s d p, (s, d, p) ∈ items -> q <> d) -> f' !! q = f !! q).
Proof.
  revert f. induction items as [|[[s d] p] items IH]; intros f Hp Hnd Hs Hd Hne; cbn.
  - exists f. split; [done|]. split; [|done]. intros s d p Hin. by apply elem_of_nil in Hin.
  - assert (p = None) as -> by (apply (Hp s d); by left).
    destruct (Hs s d None) as (c & m & Hsf); [by left|].
    assert (s <> d) as Hsd by (apply (Hne s d None s d None); by left).
    rewrite (install_plain f s d c m None Hsf (Hd s d None ltac:(by left)) Hsd).
    cbn in Hnd. apply NoDup_cons in Hnd as [Hnin Hnd].
    assert (forall s' d' p', (s', d', p') ∈ items -> d' <> d) as Hdd.
    { intros s' d' p' Hin ->. apply Hnin. apply elem_of_list_fmap. by exists (s', d, p'). }
    assert (forall s' d' p', (s', d', p') ∈ items -> <[d := File c m]> f !! s' = f !! s') as Hsrc.
    { intros s' d' p' Hin. rewrite lookup_insert_ne; [done|]. intros <-.
      by apply (Hne d d' p' s d None ltac:(by right) ltac:(by left)). }
    destruct (IH (<[d := File c m]> f)) as (f' & Hf & Hc & Ho).
    + intros s' d' p' Hin. apply (Hp s' d'). by right.
    + done.
    + intros s' d' p' Hin. rewrite (Hsrc s' d' p') by done. apply (Hs s' d' p'). by right.
    + intros s' d' p' Hin. rewrite lookup_insert_ne by (specialize (Hdd _ _ _ Hin); congruence).
      apply (Hd s' d' p'). by right.
    + intros s1 d1 p1 s2 d2 p2 H1 H2. apply (Hne s1 d1 p1 s2 d2 p2); by right.
    + exists f'. split; [done|]. split.
      * intros s' d' p' [[= -> -> ->]|Hin]%elem_of_cons.
        -- rewrite Ho; [by rewrite lookup_insert|]. intros s' d' p' Hin ->. by apply (Hdd s' d' p').
        -- rewrite (Hc s' d' p' Hin). by apply (Hsrc s' d' p').
      * intros q Hq. rewrite Ho by (intros s' d' p' Hin; apply (Hq s' d' p'); by right).
        rewrite lookup_insert_ne; [done|]. intros ->. by apply (Hq s q None ltac:(by left)).
Qed.
