(** Proofs that directories are made and files are copied where nothing is in the way. *)
From stdpp Require Import base list gmap.
From Coq Require Import NArith Lia.
From Verif Require GlobFacts GlobPaths.
From Verif Require Import FnModel PathModel PathSpec PathFacts CopyModel CopySpec CopyFacts.
Local Open Scope nat_scope.

Lemma regular_special x : regular x -> special x = false.
Proof. intros (A & B & C & _). by apply special_false_iff. Qed.
Lemma regular_name x : regular x -> GlobFacts.name_ok x.
Proof. intros (A & _ & _ & D). done. Qed.
Lemma regular_rel x : regular x -> isabs x = false.
Proof. intros (A & _ & _ & D). by apply GlobFacts.rel_name. Qed.

(** An entry of a directory. *)
Lemma walk_last f l xs : walk f l (xs ++ [[]]) = match walk f l xs with Some l' => match tree f !! l' with Some FDir => Some l' | _ => None end | None => None end.
Proof. rewrite walk_app. destruct (walk f l xs) as [l'|]; [|done]. cbn. unfold enter. by destruct (tree f !! l') as [[|]|]. Qed.
Lemma names_join d x : regular x -> exists pre, names (pjoin d x) = pre ++ [x] /\
  (forall f ld, dirat f d = Some ld -> tree f !! ld = Some FDir -> walk f (origin f (pjoin d x)) pre = Some ld).
Proof.
  intros Hx. pose proof (regular_rel x Hx) as Hr. destruct Hx as (Hx0 & _ & _ & Hn). unfold pjoin. rewrite Hr.
  destruct d as [|c d].
  { exists []. split; [by rewrite (names_nosep x Hn)|]. intros f ld [= <-] _. cbn [walk]. unfold origin. by rewrite Hr. }
  cbn [dirat]. destruct (ends_sep (c :: d)) eqn:E.
  - destruct (ends_sep_true _ E) as [d' Ed]. exists (names d'). split.
    + rewrite Ed, <- app_assoc. cbn [app]. by rewrite names_app, (names_nosep x Hn).
    + intros f ld. unfold resolve, origin. rewrite isabs_app by done. intros H Hd. rewrite Ed, names_app in H.
      cbn [names] in H. rewrite walk_last in H. rewrite Ed. destruct (walk f _ (names d')) as [l1|]; [|done].
      by destruct (tree f !! l1) as [[|]|].
  - exists (names (c :: d)). split; [by rewrite names_app, (names_nosep x Hn)|].
    intros f ld. unfold resolve, origin. rewrite isabs_app by done. done.
Qed.
Lemma join_nonempty d x : regular x -> exists c p, pjoin d x = c :: p.
Proof.
  intros Hx. pose proof (regular_rel x Hx) as Hr. destruct Hx as (Hx0 & _). unfold pjoin. rewrite Hr.
  destruct d as [|c d]; [destruct x; [done|eauto]|]. destruct (ends_sep (c :: d)); cbn; eauto.
Qed.
Lemma place_join f d (x : list N) (ld : loc) : regular x -> dirat f d = Some ld -> tree f !! ld = Some FDir -> place f (pjoin d x) = Some (ld ++ [x]).
Proof.
  intros Hx Hr Ht. destruct (names_join d x Hx) as (pre & Hn & Hw). unfold place.
  destruct (join_nonempty d x Hx) as (c & p & E). rewrite E. rewrite <- E, Hn, removelast_last, last_last, (Hw f ld Hr Ht), (regular_special x Hx), Ht.
  done.
Qed.
Lemma resolve_join f d (x : list N) (ld : loc) : regular x -> dirat f d = Some ld -> tree f !! ld = Some FDir ->
  resolve f (pjoin d x) = if tree f !! (ld ++ [x]) then Some (ld ++ [x]) else None.
Proof.
  intros Hx Hr Ht. destruct (names_join d x Hx) as (pre & Hn & Hw). unfold resolve.
  destruct (join_nonempty d x Hx) as (c & p & E). rewrite E. rewrite <- E, Hn, walk_app, (Hw f ld Hr Ht). cbn [walk].
  rewrite (enter_normal f ld x (regular_special x Hx)), Ht. by destruct (tree f !! (ld ++ [x])).
Qed.
Lemma resolve_join_none f d x : regular x -> d <> [] -> isdir f d = false -> resolve f (pjoin d x) = None.
Proof.
  intros Hx Hd. pose proof (regular_rel x Hx) as Hr. pose proof (regular_special x Hx) as Hs. destruct Hx as (Hx0 & _ & _ & Hn).
  unfold pjoin. rewrite Hr. destruct d as [|c d]; [done|]. intros Hf. unfold isdir, stat, resolve, origin in *.
  destruct (ends_sep (c :: d)) eqn:E.
  - change ((c :: d) ++ x) with (c :: d ++ x). cbv iota. change (c :: d ++ x) with ((c :: d) ++ x). rewrite isabs_app by done.
    destruct (ends_sep_true _ E) as [d' Ed]. rewrite Ed in *. rewrite names_app in Hf. cbn [names] in Hf.
    rewrite <- app_assoc. cbn [app]. rewrite names_app, (names_nosep x Hn), walk_app. rewrite walk_last in Hf.
    destruct (walk f _ (names d')) as [l1|]; [|done]. cbn [walk]. rewrite (enter_normal f l1 x Hs).
    destruct (tree f !! l1) as [[|]|] eqn:E1; try done. by rewrite E1 in Hf.
  - change ((c :: d) ++ c_sep :: x) with (c :: d ++ c_sep :: x). cbv iota. change (c :: d ++ c_sep :: x) with ((c :: d) ++ c_sep :: x).
    rewrite isabs_app by done. rewrite names_app, (names_nosep x Hn), walk_app.
    destruct (walk f _ (names (c :: d))) as [l1|]; [|done]. cbn [walk]. rewrite (enter_normal f l1 x Hs).
    destruct (tree f !! l1) as [[|]|]; done.
Qed.

(** From [b] down. *)
Lemma down_snoc b xs x : down b (xs ++ [x]) = pjoin (down b xs) x.
Proof. unfold down. by rewrite fold_left_app. Qed.
Lemma down_dir_text b xs : GlobPaths.dir_text b -> Forall regular xs -> GlobPaths.dir_text (down b xs).
Proof.
  intros Hb. induction xs as [|x xs _] using rev_ind; [done|]. intros H. apply Forall_app in H as [_ H]. apply Forall_cons in H as [H _].
  rewrite down_snoc. right. apply GlobPaths.ends_sep_join. by apply regular_name.
Qed.
Lemma dirs_above f l x : fs_ok f -> is_Some (tree f !! (l ++ [x])) -> tree f !! l = Some FDir.
Proof. intros Hf. apply (ok_up f Hf). Qed.
Lemma dirat_ne f d : d <> [] -> dirat f d = resolve f d.
Proof. by destruct d. Qed.
Lemma dirat_some f d l : resolve f d = Some l -> dirat f d = Some l.
Proof. by destruct d. Qed.
Lemma dirat_extends f f' d l : extends f f' -> dirat f d = Some l -> dirat f' d = Some l.
Proof. intros He. destruct d; [|by apply resolve_extends]. cbn. by rewrite (proj1 He). Qed.
Lemma dirat_stat f d l : d <> [] -> dirat f d = Some l -> stat f d = tree f !! l.
Proof. intros Hd. rewrite (dirat_ne f d Hd). unfold stat. by intros ->. Qed.
Lemma stat_down f b (lb xs : loc) : fs_ok f -> dirat f b = Some lb -> tree f !! lb = Some FDir -> Forall regular xs ->
  (down b xs <> [] -> stat f (down b xs) = tree f !! (lb ++ xs)) /\ (is_Some (tree f !! (lb ++ xs)) -> dirat f (down b xs) = Some (lb ++ xs)).
Proof.
  intros Hf Hr Hd. induction xs as [|x xs IH] using rev_ind.
  - intros _. rewrite app_nil_r. unfold down. cbn [fold_left]. split; [|done]. intros Hb. by apply dirat_stat.
  - intros H. apply Forall_app in H as [H H1]. apply Forall_cons in H1 as [Hx _]. destruct (IH H) as [IH1 IH2]. rewrite down_snoc, app_assoc.
    destruct (decide (tree f !! (lb ++ xs) = Some FDir)) as [E|E].
    + assert (dirat f (down b xs) = Some (lb ++ xs)) as Er by (apply IH2; rewrite E; eauto).
      pose proof (resolve_join f _ x _ Hx Er E) as Hj. destruct (tree f !! ((lb ++ xs) ++ [x])) as [n|] eqn:E2; split; try done.
      * intros _. unfold stat. rewrite Hj. exact E2.
      * intros _. by apply dirat_some.
      * intros _. unfold stat. by rewrite Hj.
      * by intros [? [=]].
    + assert (tree f !! ((lb ++ xs) ++ [x]) = None) as En.
      { destruct (tree f !! ((lb ++ xs) ++ [x])) eqn:E2; [|done]. exfalso. apply E, (ok_up f Hf _ x). rewrite E2. eauto. }
      rewrite En. split; [|by intros [? [=]]]. intros _.
      assert (down b xs <> []) as Hne.
      { intros Hn. apply E. destruct xs as [|y ys] using rev_ind; [by rewrite app_nil_r|]. rewrite down_snoc in Hn.
        apply Forall_app in H as [_ H1]. apply Forall_cons in H1 as [Hy _]. destruct (join_nonempty (down b ys) y Hy) as (c & p & Hc). congruence. }
      unfold stat. rewrite resolve_join_none; [done|done|done|].
      unfold isdir. rewrite (IH1 Hne). by destruct (tree f !! (lb ++ xs)) as [[|]|].
Qed.

(** Making a directory that is there changes nothing. *)
Lemma resolve_prefix f c p q l : resolve f ((c :: p) ++ c_sep :: q) = Some l -> exists l', resolve f (c :: p) = Some l' /\ (exists l'', walk f l' (names q) = Some l'').
Proof.
  unfold resolve, origin. cbn [app]. change (c :: p ++ c_sep :: q) with ((c :: p) ++ c_sep :: q). rewrite isabs_app by done.
  rewrite names_app, walk_app. destruct (walk f _ (names (c :: p))) as [l'|]; [|done]. eauto.
Qed.
Lemma walk_names_dir f l q l' : walk f l (names q) = Some l' -> tree f !! l = Some FDir.
Proof. destruct (names q) as [|x ns] eqn:E; [exfalso; exact (names_nonnil q E)|]. cbn. destruct (enter f l x) eqn:E2; [|done]. intros _. exact (enter_dir _ _ _ _ E2). Qed.
Lemma resolve_root f : fs_ok f -> forall h, h <> [] -> forallb is_sep h = true -> resolve f h = Some [].
Proof.
  intros Hf h Hh Hs. destruct h as [|c h]; [done|]. unfold resolve. assert (origin f (c :: h) = []) as ->.
  { unfold origin. cbn in *. destruct (is_sep c); done. }
  clear Hh. assert (forall h, forallb is_sep h = true -> walk f [] (names h) = Some []) as H; [|by apply H].
  clear c h Hs. assert (forall x : str, x = [] -> enter f [] x = Some []) as He by (intros x ->; unfold enter; by rewrite (ok_root f Hf)).
  induction h as [|c h IH]; cbn [names forallb walk]; [by rewrite (He _ eq_refl)|]. intros [E1 E2]%andb_true_iff. rewrite E1. cbn [walk]. rewrite (He _ eq_refl). by apply IH.
Qed.
Lemma rstrip_ends h c r : rstrip h = c :: r -> exists seps, h = (c :: r) ++ seps /\ forallb is_sep seps = true.
Proof. intros E. destruct (rstrip_spec h) as (seps & H1 & H2 & _). rewrite E in H1. eauto. Qed.
Lemma psplit_exists f p h t : fs_ok f -> psplit p = (h, t) -> h <> [] -> is_Some (resolve f p) -> isdir f h = true.
Proof.
  intros Hf. unfold psplit. destruct (cut p) as [h0 t0] eqn:E. destruct (cut_spec p h0 t0 E) as (Hp & Ht & Hd).
  destruct (forallb is_sep h0) eqn:Es; intros [= <- <-] Hh [l Hl].
  - unfold isdir, stat. rewrite (resolve_root f Hf h0 Hh Es). by rewrite (ok_root f Hf).
  - destruct (rstrip h0) as [|c r] eqn:Er; [done|]. destruct (rstrip_ends h0 c r Er) as (seps & Hs & Hss).
    destruct seps as [|s seps].
    + exfalso. rewrite app_nil_r in Hs. destruct (rstrip_spec h0) as (_ & _ & _ & [H|(d & c' & H & Hc)]); [congruence|].
      destruct Hd as [->|[h' ->]]; [done|]. rewrite Er in H. rewrite <- Hs in H. apply app_inj_tail in H as [_ <-]. done.
    + cbn in Hss. apply andb_true_iff in Hss as [E1 E2]. apply is_sep_true in E1 as ->.
      subst p. rewrite Hs, <- app_assoc in Hl. cbn [app] in Hl. change (c :: r ++ c_sep :: seps ++ t0) with ((c :: r) ++ c_sep :: (seps ++ t0)) in Hl.
      destruct (resolve_prefix f c r _ l Hl) as (l' & Hl' & l'' & Hw). unfold isdir, stat. rewrite Hl'. by rewrite (walk_names_dir _ _ _ _ Hw).
Qed.
Lemma place_resolve f p l l' : fs_ok f -> resolve f p = Some l -> is_Some (tree f !! l) -> place f p = Some l' -> l' = l.
Proof.
  intros Hf Hr Hi Hp. unfold place, resolve in *. destruct p as [|c p]; [done|]. rewrite (names_split (c :: p)), walk_app in Hr.
  destruct (walk f _ (removelast (names (c :: p)))) as [l0|]; [|done]. cbn [walk] in Hr.
  destruct (special (List.last (names (c :: p)) [])) eqn:Es; [rewrite Hp in Hr; congruence|].
  rewrite (enter_normal f l0 _ Es) in Hr. destruct (tree f !! l0) as [[|]|]; try done.
  destruct (tree f !! (l0 ++ _)); congruence.
Qed.
Lemma walk_exists f xs : fs_ok f -> forall l l', is_Some (tree f !! l) -> walk f l xs = Some l' -> is_Some (tree f !! l').
Proof.
  intros Hf. induction xs as [|x xs IH]; intros l l' Hl; cbn [walk]; [by intros [= <-]|].
  destruct (enter f l x) as [m|] eqn:E; [|done]. apply IH. destruct (special x) eqn:Es.
  - rewrite (enter_special f l x m Hf Es E). eauto.
  - rewrite (enter_normal f l x Es) in E. destruct (tree f !! l) as [[|]|]; try done.
    destruct (tree f !! (l ++ [x])) eqn:E2; [|done]. injection E as <-. rewrite E2. eauto.
Qed.
Lemma resolve_exists f p l : fs_ok f -> resolve f p = Some l -> is_Some (tree f !! l).
Proof.
  intros Hf. unfold resolve. destruct p as [|c p]; [done|]. apply walk_exists; [done|]. unfold origin.
  destruct (isabs (c :: p)); [rewrite (ok_root f Hf)|rewrite (ok_cwd f Hf)]; eauto.
Qed.
Lemma mkdir_existing f p f' : fs_ok f -> is_Some (resolve f p) -> mkdir f p = MOk f' \/ mkdir f p = MExists f' -> f' = f.
Proof.
  intros Hf [l Hl]. unfold mkdir.
  assert (exists l', resolve f (match rstrip p with [] => p | c :: r => c :: r end) = Some l') as [l' Hl'].
  { destruct (rstrip p) as [|c r] eqn:E; [eauto|]. destruct (rstrip_ends p c r E) as (seps & Hs & Hss). destruct seps as [|s seps].
    - rewrite app_nil_r in Hs. rewrite <- Hs. eauto.
    - cbn in Hss. apply andb_true_iff in Hss as [E1 E2]. apply is_sep_true in E1 as ->. rewrite Hs in Hl.
      destruct (resolve_prefix f c r seps l Hl) as (l' & H & _). eauto. }
  destruct (place f _) as [l1|] eqn:Ep; [|by intros [?|?]].
  pose proof (place_resolve f _ _ _ Hf Hl' (resolve_exists f _ _ Hf Hl') Ep) as ->.
  destruct (resolve_exists f _ _ Hf Hl') as [x ->]. intros [?|H]; [done|]. by injection H.
Qed.
Lemma os_makedirs_existing fuel f p f' : fs_ok f -> is_Some (resolve f p) ->
  os_makedirs fuel f p = MOk f' \/ os_makedirs fuel f p = MExists f' -> f' = f.
Proof.
  intros Hf Hr. destruct fuel as [|fuel]; [by intros [?|?]|]. cbn [os_makedirs].
  destruct (psplit p) as [h0 t0] eqn:E0. destruct (match t0 with [] => psplit h0 | _ => (h0, t0) end) as [h t] eqn:E1.
  destruct h as [|hc h]; [by apply mkdir_existing|]. destruct t as [|tc t]; [by apply mkdir_existing|].
  assert (isdir f (hc :: h) = true) as Hd.
  { destruct t0 as [|tc0 t0].
    - destruct h0 as [|c h0]; [done|]. pose proof (psplit_exists f p _ _ Hf E0 ltac:(done) Hr) as H.
      apply (psplit_exists f _ _ _ Hf E1); [done|]. unfold isdir, stat in H. destruct (resolve f (c :: h0)); [eauto|done].
    - injection E1 as -> -> ->. by apply (psplit_exists f p _ _ Hf E0). }
  assert (exists_ f (hc :: h) = true) as ->. { unfold isdir, exists_ in *. by destruct (stat f (hc :: h)). }
  by apply mkdir_existing.
Qed.

(** Directories are made from [b] down, and nothing else. *)
Definition makes (lb : loc) (xs : list str) (f f' : fs) : Prop :=
  only_new_dirs f f' /\ fs_ok f' /\ tree f' !! (lb ++ xs) = Some FDir /\
  (forall l, tree f !! l = None -> is_Some (tree f' !! l) -> exists i, l = lb ++ take i xs).
Lemma rstrip_join d x : regular x -> rstrip (pjoin d x) = pjoin d x.
Proof.
  intros Hx. pose proof (GlobPaths.ends_sep_join d x (regular_name x Hx)) as He.
  destruct (rstrip_spec (pjoin d x)) as (seps & H1 & H2 & _). destruct seps as [|s seps _] using rev_ind; [by rewrite app_nil_r in H1|].
  exfalso. rewrite H1, app_assoc, ends_sep_snoc in He. rewrite forallb_app in H2. cbn in H2. rewrite He in H2. by rewrite andb_false_r in H2.
Qed.
Lemma mkdir_down f b (lb xs : loc) (x : list N) : fs_ok f -> dirat f b = Some lb -> tree f !! lb = Some FDir -> Forall regular (xs ++ [x]) ->
  tree f !! (lb ++ xs) = Some FDir ->
  mkdir f (down b (xs ++ [x])) =
    match tree f !! (lb ++ xs ++ [x]) with Some _ => MExists f | None => MOk (set f (lb ++ xs ++ [x]) FDir) end.
Proof.
  intros Hf Hr Hd H Hx. pose proof H as H'. apply Forall_app in H as [H H1]. apply Forall_cons in H1 as [Hx1 _].
  unfold mkdir. rewrite down_snoc, (rstrip_join _ _ Hx1). destruct (join_nonempty (down b xs) x Hx1) as (c & p & E). rewrite E. cbv iota. rewrite <- E.
  assert (dirat f (down b xs) = Some (lb ++ xs)) as Er by (apply (stat_down f b lb xs); try done; rewrite Hx; eauto).
  rewrite (place_join f _ x _ Hx1 Er Hx). by rewrite <- app_assoc.
Qed.
Lemma take_sub {A} i (xs ys : list A) : exists j, take i xs = take j (xs ++ ys).
Proof. exists (i `min` length xs). rewrite take_app_le by lia. by rewrite <- take_take, firstn_all. Qed.
Lemma os_makedirs_down fuel b (lb : loc) : forall (xs : loc) f, fs_ok f -> dirat f b = Some lb -> tree f !! lb = Some FDir ->
  GlobPaths.dir_text b -> xs <> [] -> Forall regular xs -> length xs <= fuel ->
  (forall i, tree f !! (lb ++ take i xs) = None \/ tree f !! (lb ++ take i xs) = Some FDir) ->
  exists f', (os_makedirs fuel f (down b xs) = MOk f' \/ os_makedirs fuel f (down b xs) = MExists f') /\ makes lb xs f f'.
Proof.
  induction fuel as [|fuel IH]; intros xs f Hf Hr Hd Ht Hxs H Hlen Hc; [destruct xs; [done|cbn in Hlen; lia]|].
  destruct xs as [|x xs _] using rev_ind; [done|]. pose proof H as H'. apply Forall_app in H as [H H1]. apply Forall_cons in H1 as [Hx _].
  rewrite app_length in Hlen. cbn in Hlen.
  pose proof (GlobPaths.psplit_join (down b xs) x (regular_name x Hx) (down_dir_text b xs Ht H)) as Hs.
  cbn [os_makedirs]. rewrite <- down_snoc in Hs. rewrite Hs.
  assert (forall g, fs_ok g -> only_new_dirs f g -> tree g !! (lb ++ xs) = Some FDir ->
    (forall l, tree f !! l = None -> is_Some (tree g !! l) -> exists i, l = lb ++ take i xs) ->
    exists f', (mkdir g (down b (xs ++ [x])) = MOk f' \/ mkdir g (down b (xs ++ [x])) = MExists f') /\ makes lb (xs ++ [x]) f f') as Hmk.
  { intros g Hg Hn Hgx Hnew. assert (dirat g b = Some lb) as Hrg by (apply (dirat_extends f); [by apply only_new_extends|done]).
    assert (tree g !! lb = Some FDir) as Hdg by (by apply Hn).
    rewrite (mkdir_down g b lb xs x Hg Hrg Hdg H' Hgx).
    assert (forall l, tree f !! l = None -> is_Some (tree g !! l) -> exists i, l = lb ++ take i (xs ++ [x])) as Hnew'.
    { intros l H1 H2. destruct (Hnew l H1 H2) as [i ->]. destruct (take_sub i xs [x]) as [j ->]. eauto. }
    destruct (tree g !! (lb ++ xs ++ [x])) as [n|] eqn:En.
    - exists g. split; [by right|]. split; [done|]. split; [done|]. split; [|done].
      destruct (Hc (length (xs ++ [x]))) as [E|E]; rewrite firstn_all in E.
      + destruct Hn as (_ & _ & Hn). destruct (Hn _ E) as [E2|E2]; [|done]. pose proof (eq_trans (eq_sym E2) En). done.
      + by apply Hn.
    - exists (set g (lb ++ xs ++ [x]) FDir). split; [by left|]. split; [|split; [|split]].
      + apply (only_new_trans f g); [done|]. split; [done|]. split.
        * intros l y Hl. cbn [set tree]. rewrite lookup_insert_ne; [done|]. intros E. rewrite <- E in Hl. pose proof (eq_trans (eq_sym Hl) En). done.
        * intros l Hl. cbn [set tree]. destruct (decide (l = lb ++ xs ++ [x])) as [->|E]; [right; apply lookup_insert|left; by rewrite lookup_insert_ne].
      + rewrite app_assoc. apply set_ok; [done|done|by apply regular_special|by destruct Hx as (_ & _ & _ & ?)|done].
      + cbn [set tree]. apply lookup_insert.
      + intros l H1 H2. destruct (decide (l = lb ++ xs ++ [x])) as [->|E].
        * exists (length (xs ++ [x])). by rewrite firstn_all.
        * cbn [set tree] in H2. rewrite lookup_insert_ne in H2 by done. by apply Hnew'. }
  destruct (stat_down f b lb xs Hf Hr Hd H) as [Hst Hres].
  assert (tree f !! (lb ++ xs) = Some FDir -> exists f', (mkdir f (down b (xs ++ [x])) = MOk f' \/ mkdir f (down b (xs ++ [x])) = MExists f') /\ makes lb (xs ++ [x]) f f') as Hmk0.
  { intros E. apply Hmk; [done|apply only_new_refl|done|]. intros l H1 [y H2]. pose proof (eq_trans (eq_sym H1) H2). done. }
  destruct x as [|xc x0] eqn:Ex; [by destruct Hx|]. rewrite <- Ex in *. destruct (down b xs) as [|dc d0] eqn:Ed.
  { apply Hmk0. destruct xs as [|y ys] using rev_ind; [by rewrite app_nil_r|]. rewrite down_snoc in Ed.
    apply Forall_app in H as [_ H1]. apply Forall_cons in H1 as [Hy _]. destruct (join_nonempty (down b ys) y Hy) as (c & p & Hcp). congruence. }
  rewrite <- Ed in *. specialize (Hst ltac:(rewrite Ed; done)).
  destruct (Hc (length xs)) as [E|E]; (rewrite take_app_alt in E by done).
  - assert (exists_ f (down b xs) = false) as ->. { unfold exists_. rewrite Hst. by rewrite E. }
    destruct xs as [|y ys] eqn:Exs; [rewrite app_nil_r in E; congruence|]. rewrite <- Exs in *.
    destruct (IH xs f Hf Hr Hd Ht ltac:(rewrite Exs; done) H ltac:(lia)) as (f1 & Hf1 & Hm).
    { intros i. destruct (take_sub i xs [x]) as [j ->]. apply Hc. }
    assert (str_eqb x n_dot = false) as Hdot by (apply special_false; by apply regular_special).
    destruct Hm as (M1 & M2 & M3 & M4). destruct (Hmk f1 M2 M1 M3 M4) as (f' & Hf' & Hm'). exists f'. split; [|done].
    rewrite Hdot. destruct Hf1 as [-> | ->]; done.
  - assert (exists_ f (down b xs) = true) as ->. { unfold exists_. rewrite Hst. by rewrite E. }
    by apply Hmk0.
Qed.
Lemma makedirs_down b (lb : loc) : forall (xs : loc) f, fs_ok f -> down b xs <> [] -> dirat f b = Some lb -> tree f !! lb = Some FDir ->
  GlobPaths.dir_text b -> Forall regular xs ->
  (forall i, tree f !! (lb ++ take i xs) = None \/ tree f !! (lb ++ take i xs) = Some FDir) ->
  exists f', makedirs f (down b xs) = Some f' /\ makes lb xs f f'.
Proof.
  intros xs f Hf Hb Hr Hd Ht H Hc. unfold makedirs. destruct xs as [|y ys] eqn:Ex.
  - cbn [down fold_left] in *. rewrite (dirat_ne f b Hb) in Hr. assert (isdir f b = true) as Hi by (unfold isdir, stat; by rewrite Hr, Hd).
    assert (exists_ f b = true) as He by (unfold exists_, stat; by rewrite Hr, Hd).
    assert (makes lb [] f f) as Hm.
    { split; [apply only_new_refl|]. split; [done|]. rewrite app_nil_r. split; [done|]. intros l H1 [y H2]. pose proof (eq_trans (eq_sym H1) H2). done. }
    exists f. split; [|done]. assert (is_Some (resolve f b)) as Hs by eauto.
    destruct (os_makedirs (S (length b)) f b) as [g|g|] eqn:E.
    + by rewrite (os_makedirs_existing _ f b g Hf Hs (or_introl E)).
    + rewrite (os_makedirs_existing _ f b g Hf Hs (or_intror E)). by rewrite He, Hi.
    + by rewrite He, Hi.
  - rewrite <- Ex in *. destruct (os_makedirs_down (S (length (down b xs))) b lb xs f Hf Hr Hd Ht ltac:(by rewrite Ex) H) as (f' & Ho & Hm); [|done|].
    + rewrite Ex in H. rewrite Ex. clear -H. set (xs := y :: ys) in *. clearbody xs. induction xs as [|x xs IH] using rev_ind; [cbn; lia|]. apply Forall_app in H as [H H1]. apply Forall_cons in H1 as [Hx _].
      specialize (IH H). rewrite down_snoc, app_length. cbn. pose proof (GlobPaths.pjoin_longer (down b xs) x (regular_name x Hx)). lia.
    + exists f'. split; [|done]. destruct Ho as [-> | ->]; [done|].
      destruct Hm as (M1 & M2 & M3 & M4). assert (dirat f' b = Some lb) as Hrg by (apply (dirat_extends f); [by apply only_new_extends|done]).
      assert (tree f' !! lb = Some FDir) as Hdg by (by apply M1).
      destruct (stat_down f' b lb xs M2 Hrg Hdg H) as [Hst _]. unfold exists_, isdir. rewrite (Hst Hb). by rewrite M3.
Qed.

(** Copying to a place that is free, or over another file. *)
Lemma copy_to f src dst ls c ld (x : list N) d : fs_ok f -> resolve f src = Some ls -> tree f !! ls = Some (FFile c) ->
  dst = pjoin d x -> regular x -> dirat f d = Some ld -> tree f !! ld = Some FDir ->
  tree f !! (ld ++ [x]) <> Some FDir -> ld ++ [x] <> ls ->
  sh_copy f src dst = Some (set f (ld ++ [x]) (FFile c)).
Proof.
  intros Hf Hs Hc -> Hx Hr Ht Hn Hne. pose proof (resolve_join f d x ld Hx Hr Ht) as Hj. unfold sh_copy.
  assert (isdir f (pjoin d x) = false) as ->.
  { unfold isdir, stat. rewrite Hj. destruct (tree f !! (ld ++ [x])) as [[|]|] eqn:E; try done. by rewrite E. }
  rewrite Hs, Hc, Hj. rewrite bool_decide_eq_false_2.
  - unfold write. rewrite (place_join f d x ld Hx Hr Ht). destruct (tree f !! (ld ++ [x])) as [[|]|]; done.
  - destruct (tree f !! (ld ++ [x])); [|done]. intros [= E]. done.
Qed.

(** A slash at the end. *)
Lemma psplit_slash d x : regular x -> psplit (pjoin d x ++ [c_sep]) = (pjoin d x, []).
Proof.
  intros Hx. destruct (join_nonempty d x Hx) as (c & p & E). pose proof (GlobPaths.ends_sep_join d x (regular_name x Hx)) as He.
  unfold psplit. rewrite (cut_sep (pjoin d x) []) by (intros []).
  destruct (GlobPaths.ends_sep_false_snoc (pjoin d x)) as (a & z & Ea & Hz); [by rewrite E|done|]. rewrite Ea.
  rewrite !forallb_app. cbn [forallb]. rewrite Hz. cbn [andb]. rewrite andb_false_r. cbn [andb]. by rewrite (rstrip_snoc a z Hz).
Qed.
Lemma names_slash p : names (p ++ [c_sep]) = names p ++ [[]].
Proof. by rewrite names_app. Qed.
Lemma stat_slash f p : p <> [] -> stat f (p ++ [c_sep]) = match stat f p with Some FDir => Some FDir | _ => None end.
Proof.
  intros Hp. unfold stat, resolve, origin. destruct p as [|c p]; [done|]. change ((c :: p) ++ [c_sep]) with (c :: p ++ [c_sep]). cbv iota.
  change (c :: p ++ [c_sep]) with ((c :: p) ++ [c_sep]). rewrite isabs_app by done. rewrite names_slash, walk_last.
  destruct (walk f _ (names (c :: p))) as [l|]; [|done]. destruct (tree f !! l) as [[|]|] eqn:E; try done.
Qed.
Lemma mkdir_slash f d x : regular x -> mkdir f (pjoin d x ++ [c_sep]) = mkdir f (pjoin d x).
Proof.
  intros Hx. unfold mkdir. rewrite (rstrip_join d x Hx). pose proof (GlobPaths.ends_sep_join d x (regular_name x Hx)) as He.
  assert (rstrip (pjoin d x ++ [c_sep]) = pjoin d x) as ->; [|destruct (join_nonempty d x Hx) as (c & p & ->); done].
  destruct (join_nonempty d x Hx) as (c & p & E). destruct (GlobPaths.ends_sep_false_snoc (pjoin d x)) as (a & z & Ea & Hz); [by rewrite E|done|].
  rewrite Ea. by apply rstrip_snoc.
Qed.
Lemma makedirs_slash b (lb : loc) : forall (xs : loc) f, fs_ok f -> xs <> [] -> dirat f b = Some lb -> tree f !! lb = Some FDir ->
  GlobPaths.dir_text b -> Forall regular xs ->
  (forall i, tree f !! (lb ++ take i xs) = None \/ tree f !! (lb ++ take i xs) = Some FDir) ->
  exists f', makedirs f (down b xs ++ [c_sep]) = Some f' /\ makes lb xs f f'.
Proof.
  intros xs f Hf Hxs Hr Hd Ht H Hc. unfold makedirs. rewrite app_length. cbn [length].
  destruct (os_makedirs_down (S (length (down b xs) + 1)) b lb xs f Hf Hr Hd Ht Hxs H) as (f' & Ho & Hm); [|done|].
  { clear -H. induction xs as [|x xs IH] using rev_ind; [cbn; lia|]. apply Forall_app in H as [H H1]. apply Forall_cons in H1 as [Hx _].
    specialize (IH H). rewrite down_snoc, app_length. cbn. pose proof (GlobPaths.pjoin_longer (down b xs) x (regular_name x Hx)). lia. }
  destruct xs as [|x xs _] using rev_ind; [done|]. pose proof H as H'. apply Forall_app in H as [H H1]. apply Forall_cons in H1 as [Hx _].
  pose proof (GlobPaths.psplit_join (down b xs) x (regular_name x Hx) (down_dir_text b xs Ht H)) as Hs.
  assert (os_makedirs (S (length (down b (xs ++ [x])) + 1)) f (down b (xs ++ [x]) ++ [c_sep]) = os_makedirs (S (length (down b (xs ++ [x])) + 1)) f (down b (xs ++ [x]))) as Heq.
  { cbn [os_makedirs]. rewrite !down_snoc, (psplit_slash _ x Hx), Hs. destruct x as [|c x]; [by destruct Hx|].
    destruct (down b xs) as [|c' d]; [apply (mkdir_slash _ _ _ Hx)|]. destruct (exists_ f (c' :: d)); [apply (mkdir_slash _ _ _ Hx)|].
    destruct (os_makedirs _ f (c' :: d)); try done; (destruct (str_eqb (c :: x) n_dot); [done|]); apply (mkdir_slash _ _ _ Hx). }
  rewrite Heq. exists f'. split; [|done]. destruct Ho as [-> | ->]; [done|].
  destruct Hm as (M1 & M2 & M3 & M4). assert (dirat f' b = Some lb) as Hrg by (apply (dirat_extends f); [by apply only_new_extends|done]).
  assert (tree f' !! lb = Some FDir) as Hdg by (by apply M1).
  destruct (stat_down f' b lb _ M2 Hrg Hdg H') as [Hst _]. assert (down b (xs ++ [x]) <> []) as Hne.
  { rewrite down_snoc. destruct (join_nonempty (down b xs) x Hx) as (c & p & ->). done. }
  unfold exists_, isdir. rewrite (stat_slash f' _ Hne), (Hst Hne). by rewrite M3.
Qed.
