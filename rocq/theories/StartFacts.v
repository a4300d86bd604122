(** Proofs about the files of a build. *)
From stdpp Require Import base list gmap.
From Coq Require Import NArith Lia.
From Verif Require Import FnModel PathModel PathSpec PathFacts CopyModel CopySpec CopyFacts CopyMake StartModel StartSpec.
Local Open Scope nat_scope.

(** *** Locations *)
Lemma dirs_over f (l m : loc) : fs_ok f -> is_Some (tree f !! (l ++ m)) -> m <> [] -> tree f !! l = Some FDir.
Proof.
  intros Hf. induction m as [|x m IH] using rev_ind; [done|]. intros H _. rewrite app_assoc in H. apply (ok_up f Hf) in H.
  destruct (decide (m = [])) as [->|Hm]; [by rewrite app_nil_r in H|]. apply IH; [rewrite H; eauto|done].
Qed.
Lemma dir_over f (l m : loc) : fs_ok f -> tree f !! (l ++ m) = Some FDir -> tree f !! l = Some FDir.
Proof. intros Hf H. destruct (decide (m = [])) as [->|Hm]; [by rewrite app_nil_r in H|]. apply (dirs_over f l m Hf); [rewrite H; eauto|done]. Qed.
Lemma prefix_spec a : forall l, is_prefix a l = true <-> inside a l.
Proof.
  induction a as [|x a IH]; intros l; cbn [is_prefix].
  - split; [intros _; by exists l|done].
  - destruct l as [|y l]; [split; [done|intros [m Hm]; done]|]. rewrite andb_true_iff, IH. split.
    + intros [E [m ->]]. apply str_eqb_true in E as ->. by exists m.
    + intros [m [= -> ->]]. split; [apply str_eqb_refl|by exists m].
Qed.
Lemma inside_dec a l : inside a l \/ ~ inside a l.
Proof. destruct (is_prefix a l) eqn:E; [left; by apply prefix_spec|right; intros H%prefix_spec; congruence]. Qed.
Lemma inside_refl a : inside a a.
Proof. exists []. by rewrite app_nil_r. Qed.
Lemma inside_trans a b c : inside a b -> inside b c -> inside a c.
Proof. intros [m ->] [n ->]. exists (m ++ n). by rewrite app_assoc. Qed.

Definition pick (xs : loc) : loc := List.filter counts xs.
Lemma enter_plain f (l : loc) (x : list N) l' : x <> dotdot -> enter f l x = Some l' -> tree f !! l = Some FDir /\ l' = l ++ pick [x].
Proof.
  intros Hx. unfold enter. destruct (tree f !! l) as [[|]|]; try done. unfold pick, counts, n_dot, n_dotdot. cbn [List.filter]. fold dotdot.
  destruct (str_eqb x [] || str_eqb x [c_dot]) eqn:E; cbn [negb].
  - intros [= <-]. by rewrite app_nil_r.
  - destruct (str_eqb x dotdot) eqn:E2; [apply str_eqb_true in E2; done|]. destruct (tree f !! (l ++ [x])); [by intros [= <-]|done].
Qed.
Lemma enter_to f (l : loc) (x : list N) : x <> dotdot -> tree f !! l = Some FDir -> is_Some (tree f !! (l ++ pick [x])) ->
  enter f l x = Some (l ++ pick [x]).
Proof.
  intros Hx Hl. unfold enter. rewrite Hl. unfold pick, counts, n_dot, n_dotdot. cbn [List.filter]. fold dotdot.
  destruct (str_eqb x [] || str_eqb x [c_dot]) eqn:E; cbn [negb]; [by rewrite app_nil_r|]. intros [n Hn].
  destruct (str_eqb x dotdot) eqn:E2; [apply str_eqb_true in E2; done|]. change (tree f !! (l ++ [x]) = Some n) in Hn. rewrite Hn. done.
Qed.
Lemma walk_plain f xs : ~ List.In dotdot xs -> forall l l', walk f l xs = Some l' -> l' = l ++ pick xs.
Proof.
  induction xs as [|x xs IH]; intros Hx l l'; cbn [walk]; [intros [= <-]; by rewrite app_nil_r|].
  destruct (enter f l x) as [m|] eqn:E; [|done]. apply enter_plain in E as [_ ->]; [|intros ->; apply Hx; by left].
  intros H. apply IH in H; [|intros K; apply Hx; by right]. rewrite H, <- app_assoc. f_equal. unfold pick. cbn [List.filter]. by destruct (counts x).
Qed.
Lemma filter_cons_app x xs : pick (x :: xs) = pick [x] ++ pick xs.
Proof. unfold pick. cbn [List.filter]. by destruct (counts x). Qed.
Lemma walk_dir f xs : fs_ok f -> ~ List.In dotdot xs -> forall l, tree f !! (l ++ pick xs) = Some FDir -> walk f l xs = Some (l ++ pick xs).
Proof.
  intros Hf. induction xs as [|x xs IH]; intros Hx l; cbn [walk]; [by rewrite app_nil_r|]. rewrite filter_cons_app, app_assoc. intros H.
  pose proof (dir_over f _ _ Hf H) as H1. rewrite enter_to; [|intros ->; apply Hx; by left|exact (dir_over f _ _ Hf H1)|rewrite H1; eauto].
  apply IH; [intros K; apply Hx; by right|done].
Qed.
(** What is reached in another tree is reached here if it is the same here. *)
Lemma walk_same f g xs : fs_ok f -> fs_ok g -> ~ List.In dotdot xs -> forall l l', walk g l xs = Some l' -> is_Some (tree g !! l') -> tree f !! l' = tree g !! l' ->
  walk f l xs = Some l'.
Proof.
  intros Hf Hg. induction xs as [|x xs IH]; intros Hx l l'; cbn [walk]; [done|]. destruct (enter g l x) as [m|] eqn:E; [|done]. intros Hw Hi Ht.
  assert (x <> dotdot) as Hxd by (intros ->; apply Hx; by left). assert (~ List.In dotdot xs) as Hxs by (intros K; apply Hx; by right).
  pose proof (enter_plain g l x m Hxd E) as [Hl Em].
  pose proof (walk_plain g xs Hxs _ _ Hw) as Ew. assert (enter f l x = Some m) as ->; [|by apply IH].
  rewrite Em. assert (is_Some (tree f !! m)) as Hm.
  { destruct (decide (pick xs = [])) as [E0|E0].
    - rewrite E0, app_nil_r in Ew. subst l'. by rewrite Ht.
    - rewrite (dirs_over f m (pick xs) Hf); [eauto|rewrite <- Ew, Ht; done|done]. }
  assert (tree f !! l = Some FDir) as Hlf.
  { destruct (decide (l' = l)) as [->|Hn]; [by rewrite Ht|]. assert (l' = l ++ (pick [x] ++ pick xs)) as E1 by (rewrite Ew, Em, app_assoc; done).
    apply (dirs_over f l (pick [x] ++ pick xs) Hf); [rewrite <- E1, Ht; done|]. intros E0. rewrite E0, app_nil_r in E1. done. }
  apply enter_to; [done|done|by rewrite <- Em].
Qed.

(** *** Pathnames *)
Lemma plain_names p : plain p -> ~ List.In dotdot (names p).
Proof. intros H K. apply H. unfold components. apply List.filter_In. done. Qed.
Lemma origin_leads f p : origin f p ++ pick (names p) = leads (fs_cwd f) p.
Proof. done. Qed.
Lemma resolve_plain f p l : plain p -> resolve f p = Some l -> l = leads (fs_cwd f) p.
Proof. intros Hp. unfold resolve. destruct p as [|c p]; [done|]. intros H. apply walk_plain in H; [done|by apply plain_names]. Qed.
Lemma resolve_dir f p : fs_ok f -> plain p -> p <> [] -> tree f !! leads (fs_cwd f) p = Some FDir -> resolve f p = Some (leads (fs_cwd f) p).
Proof. intros Hf Hp Hn H. unfold resolve. destruct p as [|c p]; [done|]. apply (walk_dir f (names (c :: p)) Hf); [by apply plain_names|done]. Qed.
Lemma isdir_leads f p : fs_ok f -> plain p -> p <> [] -> (isdir f p = true <-> tree f !! leads (fs_cwd f) p = Some FDir).
Proof.
  intros Hf Hp Hn. unfold isdir, stat. split.
  - destruct (resolve f p) as [l|] eqn:E; [|done]. apply resolve_plain in E as ->; [|done]. by destruct (tree f !! _) as [[]|].
  - intros H. rewrite (resolve_dir f p Hf Hp Hn H), H. done.
Qed.
Lemma components_seps a seps : forallb is_sep seps = true -> components (a ++ seps) = components a.
Proof.
  revert a. induction seps as [|c seps IH]; intros a H; [by rewrite app_nil_r|]. cbn in H. apply andb_true_iff in H as [E H].
  apply is_sep_true in E as ->. change (c_sep :: seps) with ([c_sep] ++ seps). rewrite app_assoc, (IH _ H). apply components_add_sep.
Qed.
Definition trimmed (p : str) : str := match rstrip p with [] => p | c :: q => c :: q end.
Lemma trimmed_spec p : exists seps, p = trimmed p ++ seps /\ forallb is_sep seps = true.
Proof.
  unfold trimmed. destruct (rstrip_spec p) as (seps & H1 & H2 & _). destruct (rstrip p) as [|c q].
  - exists []. by rewrite app_nil_r.
  - eauto.
Qed.
Lemma trimmed_nonnil p : p <> [] -> trimmed p <> [].
Proof. unfold trimmed. by destruct (rstrip p). Qed.
Lemma trimmed_plain p : p <> [] -> (plain p <-> plain (trimmed p)) /\ forall cwd, leads cwd (trimmed p) = leads cwd p.
Proof.
  intros Hn. destruct (trimmed_spec p) as (seps & E & Hs). pose proof (components_seps (trimmed p) seps Hs) as Hc. rewrite <- E in Hc.
  split; [unfold plain; by rewrite Hc|]. intros cwd. unfold leads. rewrite Hc. f_equal. rewrite E at 2. by rewrite isabs_app by (by apply trimmed_nonnil).
Qed.
Lemma rstrip_app_nonsep d c s : is_sep c = false -> forallb is_sep s = true -> rstrip (d ++ c :: s) = d ++ [c].
Proof.
  intros Hc Hs. assert (rstrip s = []) as E.
  { clear -Hs. induction s as [|x s IH]; [done|]. cbn in *. apply andb_true_iff in Hs as [-> Hs]. by rewrite (IH Hs). }
  induction d as [|x d IH]; cbn [rstrip app]; [by rewrite E, Hc|]. rewrite IH. by destruct d.
Qed.
Lemma trimmed_end p : p <> [] -> forallb is_sep p = true \/ exists d c, trimmed p = d ++ [c] /\ is_sep c = false.
Proof.
  intros Hn. unfold trimmed. destruct (rstrip_spec p) as (seps & H1 & H2 & [E|(d & c & E & Hc)]).
  - left. rewrite E in H1. cbn in H1. by subst.
  - right. rewrite E. exists d, c. destruct d; done.
Qed.

(** The parts of a pathname. *)
Definition parts (p h t : str) : Prop :=
  exists s seps, trimmed p = s ++ t /\ dirlike s /\ s = h ++ seps /\ forallb is_sep seps = true /\ ~ List.In c_sep t /\
    (forallb is_sep h = true -> h = s).
Lemma psplit_parts p h t : psplit p = (h, t) -> exists s seps, p = s ++ t /\ dirlike s /\ s = h ++ seps /\ forallb is_sep seps = true /\ ~ List.In c_sep t /\
  (forallb is_sep h = true \/ trimmed h = h) /\ (forallb is_sep h = true -> h = s).
Proof.
  unfold psplit. destruct (cut p) as [s t0] eqn:E. destruct (cut_spec p s t0 E) as (-> & Ht & Hd). destruct (forallb is_sep s) eqn:Es; intros [= <- <-].
  - exists s, []. split_and!; [done|done|by rewrite app_nil_r|done|done|by left|done].
  - destruct (rstrip_spec s) as (seps & H1 & H2 & H3). exists s, seps. split_and!; try done.
    + destruct H3 as [H3|(d & c & H3 & Hc)]; [left; by rewrite H3|]. right. unfold trimmed. rewrite H3.
      rewrite (rstrip_app_nonsep d c [] Hc eq_refl). by destruct d.
    + intros K. destruct H3 as [H3|(d & c & H3 & Hc)].
      * rewrite H3 in H1. cbn in H1. rewrite H1, H2 in Es. done.
      * rewrite H3, forallb_app in K. cbn in K. rewrite Hc in K. by rewrite andb_false_r in K.
Qed.
Lemma makedirs_parts p h0 t0 h t : p <> [] -> psplit p = (h0, t0) -> match t0 with [] => psplit h0 | _ => (h0, t0) end = (h, t) ->
  parts p h t /\ (t = [] -> forallb is_sep p = true) /\ (forallb is_sep h = true \/ trimmed h = h) /\ length h <= length p /\ (t <> [] -> length h < length p).
Proof.
  intros Hn E0 E. destruct (psplit_parts p h0 t0 E0) as (s & seps & Hp & Hd & Hs & Hq & Ht & Hh & Hall).
  destruct t0 as [|c0 t0].
  - rewrite app_nil_r in Hp. destruct (psplit_parts h0 h t E) as (s1 & seps1 & Hp1 & Hd1 & Hs1 & Hq1 & Ht1 & Hh1 & Hall1).
    destruct Hh as [Hh|Hh].
    + (* slashes *)
      assert (h0 = p) as -> by (rewrite Hp; exact (Hall Hh)). clear Hp Hd Hs Hall s. rename p into s.
      assert (t = []) as ->. { destruct t as [|c t]; [done|]. exfalso. apply Ht1. rewrite Hp1, forallb_app, andb_true_iff in Hh. destruct Hh as [_ Hh]. cbn in Hh. apply andb_true_iff in Hh as [Hh _]. apply is_sep_true in Hh as ->. by left. }
      rewrite app_nil_r in Hp1. split_and!; [|done|done| |done].
      * exists s1, seps1. split_and!; try done. rewrite app_nil_r, <- Hp1. unfold trimmed. destruct (trimmed_end s Hn) as [K|(d & c & K & Kc)].
        -- assert (rstrip s = []) as ->; [|done]. clear -Hh. induction s as [|x s IH]; [done|]. cbn in *. apply andb_true_iff in Hh as [-> Hh]. by rewrite (IH Hh).
        -- exfalso. destruct (trimmed_spec s) as (ss & E1 & _). rewrite E1, K, !forallb_app in Hh. cbn in Hh. rewrite Kc in Hh. by rewrite andb_false_r in Hh.
      * rewrite Hp1, Hs1, app_length. lia.
    + assert (trimmed p = h0) as Et.
      { destruct (decide (h0 = [])) as [->|Hn0].
        - exfalso. apply Hn. rewrite Hp. symmetry. exact (Hall eq_refl).
        - destruct (trimmed_end h0 Hn0) as [K|(d & c & K & Kc)].
          + rewrite Hp, <- (Hall K). exact Hh.
          + rewrite Hh in K. rewrite Hp, Hs, K. unfold trimmed. rewrite <- app_assoc. cbn. rewrite (rstrip_app_nonsep d c seps Kc Hq). by destruct d. }
      split_and!.
      * exists s1, seps1. split_and!; try done. by rewrite Et.
      * intros ->. rewrite app_nil_r in Hp1. destruct (decide (h0 = [])) as [->|Hn0].
        -- rewrite Hp, <- (Hall eq_refl). done.
        -- destruct (trimmed_end h0 Hn0) as [K|(d & c & K & Kc)]; [by rewrite Hp, <- (Hall K)|]. exfalso. rewrite Hh in K.
           destruct Hd1 as [Hd1|[x Hd1]]; [by rewrite Hp1 in Hn0|]. rewrite <- Hp1 in Hd1. rewrite K in Hd1. apply app_inj_tail in Hd1 as [_ ->]. done.
      * done.
      * rewrite Hp, Hs, app_length, Hp1, app_length, Hs1, app_length. lia.
      * intros Ht'. rewrite Hp, Hs, app_length. rewrite Hp1, app_length, Hs1, app_length. destruct t; [done|]. cbn [length]. lia.
  - injection E as <- <-. assert (trimmed p = p) as Et.
    { destruct (exists_last (l:=c0 :: t0)) as (d & c & Ed); [done|]. rewrite Hp, Ed, app_assoc. unfold trimmed.
      assert (is_sep c = false) as Hc. { apply is_sep_false. intros ->. apply Ht. rewrite Ed. apply in_or_app. right. by left. }
      rewrite (rstrip_app_nonsep _ c [] Hc eq_refl). by destruct (s ++ d). }
    split_and!; [|done|done| |].
    + exists s, seps. split_and!; try done. by rewrite Et.
    + rewrite Hp, Hs, !app_length. lia.
    + intros _. rewrite Hp, Hs, !app_length. cbn [length]. lia.
Qed.
Lemma parts_components p h t : p <> [] -> parts p h t -> components p = components h ++ components t /\
  pick (removelast (names (trimmed p))) = components h /\ List.last (names (trimmed p)) [] = t /\ (h <> [] -> isabs h = isabs p) /\ (h = [] -> isabs p = false).
Proof.
  intros Hn (s & seps & E & Hd & Hs & Hq & Ht & Hall). destruct (trimmed_spec p) as (e & Ep & He).
  assert (components s = components h) as Hc by (rewrite Hs; by apply components_seps).
  assert (isabs (trimmed p) = isabs p) as Ha by (rewrite Ep at 2; by rewrite isabs_app by (by apply trimmed_nonnil)).
  split_and!.
  - rewrite Ep, (components_seps _ e He), E, (components_dirlike s t Hd), Hc. done.
  - rewrite <- Hc, E. destruct Hd as [->|[s' ->]]; [by rewrite app_nil_l, (names_nosep t Ht)|].
    rewrite <- app_assoc. cbn [app]. rewrite names_app, (names_nosep t Ht), removelast_last. by rewrite components_add_sep.
  - rewrite E. destruct Hd as [->|[s' ->]]; [by rewrite app_nil_l, (names_nosep t Ht)|].
    rewrite <- app_assoc. cbn [app]. by rewrite names_app, (names_nosep t Ht), last_last.
  - intros Hh. rewrite <- Ha, E, Hs, <- app_assoc. by rewrite isabs_app.
  - intros ->. rewrite <- (Hall eq_refl) in E. rewrite <- Ha, E. destruct t as [|c t]; [done|]. cbn. apply is_sep_false. intros ->. apply Ht. by left.
Qed.
Lemma parts_leads p h t cwd : p <> [] -> parts p h t -> leads cwd p = leads cwd h ++ components t.
Proof.
  intros Hn H. destruct (parts_components p h t Hn H) as (H1 & _ & _ & H2 & H3). unfold leads. rewrite H1, app_assoc. f_equal. f_equal.
  destruct (decide (h = [])) as [->|Hh]; [by rewrite (H3 eq_refl)|by rewrite (H2 Hh)].
Qed.
Lemma parts_plain p h t : p <> [] -> parts p h t -> plain p -> plain h /\ t <> dotdot.
Proof.
  intros Hn H. destruct (parts_components p h t Hn H) as (H1 & _ & _ & _ & _). unfold plain. rewrite H1. intros K. split.
  - intros K'. apply K, in_or_app. by left.
  - intros ->. apply K, in_or_app. right. by left.
Qed.
Lemma parts_regular p h t : parts p h t -> components t = if counts t then [t] else [].
Proof. intros (s & seps & _ & _ & _ & _ & Ht & _). unfold components. rewrite (names_nosep t Ht). done. Qed.
Lemma special_counts x : x <> dotdot -> special x = negb (counts x).
Proof.
  intros Hx. unfold special, counts. rewrite negb_involutive. destruct (str_eqb x n_dotdot) eqn:E; [apply str_eqb_true in E; done|]. apply orb_false_r.
Qed.

(** *** Making directories *)
Lemma place_parts f p h t : fs_ok f -> p <> [] -> parts p h t -> plain p ->
  (tree f !! leads (fs_cwd f) h = Some FDir -> (counts t = true \/ is_Some (tree f !! leads (fs_cwd f) p)) -> place f (trimmed p) = Some (leads (fs_cwd f) p)) /\
  (forall l, place f (trimmed p) = Some l -> l = leads (fs_cwd f) p /\ tree f !! leads (fs_cwd f) h = Some FDir).
Proof.
  intros Hf Hn Hp Hpl. destruct (parts_components p h t Hn Hp) as (H1 & H2 & H3 & H4 & H5). destruct (parts_plain p h t Hn Hp Hpl) as [Hh Ht].
  pose proof (parts_leads p h t (fs_cwd f) Hn Hp) as Hl. pose proof (parts_regular p h t Hp) as Hr.
  assert (origin f (trimmed p) = if isabs h then [] else fs_cwd f) as Ho.
  { unfold origin. destruct (trimmed_spec p) as (e & Ep & He). assert (isabs (trimmed p) = isabs p) as -> by (rewrite Ep at 2; by rewrite isabs_app by (by apply trimmed_nonnil)).
    destruct (decide (h = [])) as [->|Hh']; [by rewrite (H5 eq_refl)|by rewrite (H4 Hh')]. }
  assert (~ List.In dotdot (removelast (names (trimmed p)))) as Hrl.
  { intros K. destruct (trimmed_plain p Hn) as [[K1 _] _]. apply (plain_names _ (K1 Hpl)). rewrite (names_split (trimmed p)). apply in_or_app. by left. }
  assert (origin f (trimmed p) ++ pick (removelast (names (trimmed p))) = leads (fs_cwd f) h) as Hw.
  { rewrite Ho, H2. done. }
  unfold place. destruct (trimmed p) as [|c q] eqn:E; [exfalso; exact (trimmed_nonnil p Hn E)|]. rewrite <- E in *. rewrite H3, (special_counts t Ht). split.
  - intros Hd Hc. rewrite (walk_dir f _ Hf Hrl) by (by rewrite Hw). rewrite Hw. destruct (counts t) eqn:Ec; cbn [negb].
    + rewrite Hd, Hl, Hr. done.
    + assert (leads (fs_cwd f) p = leads (fs_cwd f) h) as Elh by (rewrite Hl, Hr; apply app_nil_r). rewrite Elh.
      pose proof (enter_to f (leads (fs_cwd f) h) t Ht Hd) as He. unfold pick in He. cbn [List.filter] in He. rewrite Ec, app_nil_r in He.
      apply He. rewrite Hd. eauto.
  - intros l. destruct (walk f (origin f (trimmed p)) (removelast (names (trimmed p)))) as [l0|] eqn:Ew; [|done].
    apply walk_plain in Ew; [|done]. rewrite Hw in Ew. subst l0. destruct (counts t) eqn:Ec; cbn [negb].
    + destruct (tree f !! leads (fs_cwd f) h) as [[|]|]; try done. intros [= <-]. rewrite Hl, Hr. done.
    + intros He. apply enter_plain in He as [He ->]; [|done]. split; [|done]. rewrite Hl, Hr. unfold pick. cbn [List.filter]. rewrite Ec. done.
Qed.
Lemma parts_of p : p <> [] -> exists h t, parts p h t.
Proof.
  intros Hn. destruct (psplit p) as [h0 t0] eqn:E0. destruct (match t0 with [] => psplit h0 | _ => (h0, t0) end) as [h t] eqn:E.
  exists h, t. by apply (makedirs_parts p h0 t0 h t Hn E0 E).
Qed.
Lemma keeps_refl f : keeps f f.
Proof. done. Qed.
Lemma place_here f p l : fs_ok f -> p <> [] -> plain p -> place f (trimmed p) = Some l -> is_Some (tree f !! l) -> resolve f (trimmed p) = Some l.
Proof.
  intros Hf Hn Hp H Hi. destruct (place_spec f _ l Hf H) as [Hd|(l0 & n & _ & _ & _ & _ & Hr)]; [|by apply Hr].
  destruct (trimmed_plain p Hn) as [[K1 _] K2]. destruct (parts_of p Hn) as (h & t & Hpt).
  destruct (proj2 (place_parts f p h t Hf Hn Hpt Hp) l H) as [-> _]. rewrite <- (K2 (fs_cwd f)) in *. apply resolve_dir; [done|by apply K1|by apply trimmed_nonnil|done].
Qed.
Lemma mkdir_trimmed f p : mkdir f p = match place f (trimmed p) with Some l => match tree f !! l with Some _ => MExists f | None => MOk (set f l FDir) end | None => MErr end.
Proof. done. Qed.
Definition grown (p : str) (f g : fs) : Prop :=
  fs_ok g /\ fs_cwd g = fs_cwd f /\
  forall l, tree g !! l = tree f !! l \/ (inside l (leads (fs_cwd f) p) /\ tree f !! l = None /\ tree g !! l = Some FDir).
Lemma grown_refl p f : fs_ok f -> grown p f f.
Proof. intros Hf. split; [done|]. split; [done|]. intros l. by left. Qed.
Lemma mkdir_grown f p g : fs_ok f -> p <> [] -> plain p -> mkdir f p = MOk g -> grown p f g /\ tree g !! leads (fs_cwd f) p = Some FDir /\ g = set f (leads (fs_cwd f) p) FDir /\
  tree f !! leads (fs_cwd f) p = None.
Proof.
  intros Hf Hn Hp H. pose proof (mkdir_ok f p g Hf (or_introl H)) as [_ Hg]. rewrite mkdir_trimmed in H.
  destruct (place f (trimmed p)) as [l|] eqn:E; [|done]. destruct (tree f !! l) as [|] eqn:El; [done|]. injection H as <-.
  destruct (parts_of p Hn) as (h & t & Hpt). destruct (proj2 (place_parts f p h t Hf Hn Hpt Hp) l E) as [-> Hh].
  split_and!; [|cbn [set tree]; apply lookup_insert|done|done]. split; [done|]. split; [done|]. intros l. cbn [set tree].
  destruct (decide (l = leads (fs_cwd f) p)) as [->|Hl]; [|left; by rewrite lookup_insert_ne]. right. split; [apply inside_refl|]. split; [done|]. apply lookup_insert.
Qed.
Lemma mkdir_exists f p g : fs_ok f -> p <> [] -> plain p -> mkdir f p = MExists g -> g = f /\ is_Some (resolve f (trimmed p)).
Proof.
  intros Hf Hn Hp H. rewrite mkdir_trimmed in H. destruct (place f (trimmed p)) as [l|] eqn:E; [|done]. destruct (tree f !! l) as [|] eqn:El; [|done].
  injection H as <-. split; [done|]. rewrite (place_here f p l Hf Hn Hp E); [eauto|rewrite El; eauto].
Qed.
Lemma leads_app p h t cwd : p <> [] -> parts p h t -> inside (leads cwd h) (leads cwd p).
Proof. intros Hn H. exists (components t). by apply parts_leads. Qed.
Lemma grown_trans p h f g k : inside (leads (fs_cwd f) h) (leads (fs_cwd f) p) -> grown h f g -> grown p g k -> grown p f k.
Proof.
  intros Hi (H1 & H2 & H3) (K1 & K2 & K3). split; [done|]. split; [congruence|]. intros l. rewrite H2 in K3.
  destruct (H3 l) as [E|(E1 & E2 & E3)], (K3 l) as [E'|(E1' & E2' & E3')].
  - left. congruence.
  - right. split; [done|]. split; [congruence|done].
  - right. split; [by apply (inside_trans _ (leads (fs_cwd f) h))|]. split; [done|congruence].
  - congruence.
Qed.
Lemma resolve_back f g p : fs_ok f -> plain p -> grown p f g -> is_Some (resolve g p) -> is_Some (resolve f p) \/ tree g !! leads (fs_cwd f) p = Some FDir.
Proof.
  intros Hf Hp (H1 & H2 & H3) [l Hl]. pose proof (resolve_plain g p l Hp Hl) as El. rewrite H2 in El.
  destruct (H3 l) as [E|(_ & _ & E)]; [|right; by rewrite <- El]. left.
  unfold resolve in *. destruct p as [|c p]; [done|]. unfold origin in *. rewrite H2 in Hl.
  assert (is_Some (tree g !! l)) as Hi. { apply (walk_exists g (names (c :: p)) H1 _ l) in Hl; [done|]. destruct (isabs (c :: p)); [rewrite (ok_root g H1); eauto|rewrite <- H2, (ok_cwd g H1); eauto]. }
  rewrite (walk_same f g _ Hf H1 (plain_names _ Hp) _ _ Hl Hi (eq_sym E)). eauto.
Qed.
Lemma trimmed_id h : forallb is_sep h = true \/ trimmed h = h -> h <> [] -> trimmed h = h.
Proof.
  intros [H|H] Hn; [|done]. unfold trimmed. assert (rstrip h = []) as ->; [|done]. clear -H. induction h as [|x h IH]; [done|]. cbn in *.
  apply andb_true_iff in H as [-> H]. by rewrite (IH H).
Qed.
Lemma os_makedirs_grown fuel : forall f p, fs_ok f -> p <> [] -> plain p ->
  (forall g, os_makedirs fuel f p = MOk g -> grown p f g /\ tree g !! leads (fs_cwd f) p = Some FDir) /\
  (forall g, os_makedirs fuel f p = MExists g -> grown p f g /\ is_Some (resolve g (trimmed p))).
Proof.
  induction fuel as [|fuel IH]; intros f p Hf Hn Hp; [done|]. cbn [os_makedirs].
  destruct (psplit p) as [h0 t0] eqn:E0. destruct (match t0 with [] => psplit h0 | _ => (h0, t0) end) as [h t] eqn:E.
  destruct (makedirs_parts p h0 t0 h t Hn E0 E) as (Hpt & _ & Hh & _ & _).
  assert ((forall g, mkdir f p = MOk g -> grown p f g /\ tree g !! leads (fs_cwd f) p = Some FDir) /\
    (forall g, mkdir f p = MExists g -> grown p f g /\ is_Some (resolve g (trimmed p)))) as Hmk.
  { split; intros g H; [destruct (mkdir_grown f p g Hf Hn Hp H) as (? & ? & _); done|].
    destruct (mkdir_exists f p g Hf Hn Hp H) as [-> ?]. split; [by apply grown_refl|done]. }
  destruct h as [|hc h']; [done|]. destruct t as [|tc t']; [done|]. set (h := hc :: h') in *. set (t := tc :: t') in *.
  destruct (exists_ f h) eqn:Ex; [done|].
  destruct (parts_plain p h t Hn Hpt Hp) as [Hph _]. assert (h <> []) as Hhn by done.
  destruct (IH f h Hf Hhn Hph) as [I1 I2]. pose proof (leads_app p h t (fs_cwd f) Hn Hpt) as Hi.
  assert (forall g, os_makedirs fuel f h = MOk g \/ os_makedirs fuel f h = MExists g -> grown h f g /\ tree g !! leads (fs_cwd f) h = Some FDir) as Hrec.
  { intros g [Hg|Hg]; [by apply I1|]. destruct (I2 g Hg) as [H1 H2]. split; [done|]. rewrite (trimmed_id h Hh Hhn) in H2.
    destruct (resolve_back f g h Hf Hph H1 H2) as [[l Hl]|?]; [|done]. exfalso. unfold exists_, stat in Ex. rewrite Hl in Ex.
    destruct (resolve_exists f h l Hf Hl) as [n Hnn]. by rewrite Hnn in Ex. }
  assert (forall f1, grown h f f1 /\ tree f1 !! leads (fs_cwd f) h = Some FDir ->
    (forall g, (if str_eqb t n_dot then MOk f1 else mkdir f1 p) = MOk g -> grown p f g /\ tree g !! leads (fs_cwd f) p = Some FDir) /\
    (forall g, (if str_eqb t n_dot then MOk f1 else mkdir f1 p) = MExists g -> grown p f g /\ is_Some (resolve g (trimmed p)))) as Hstep.
  { intros f1 [G1 G2]. pose proof G1 as (F1 & F2 & F3). destruct (str_eqb t n_dot) eqn:Et.
    - split; [|done]. intros g [= <-]. apply str_eqb_true in Et. rewrite Et in Hpt. assert (leads (fs_cwd f) p = leads (fs_cwd f) h) as El.
      { rewrite (parts_leads p h n_dot (fs_cwd f) Hn Hpt). apply app_nil_r. }
      split; [|by rewrite El]. split; [done|]. split; [done|]. rewrite El. done.
    - split; intros g Hg.
      + destruct (mkdir_grown f1 p g F1 Hn Hp Hg) as (M1 & M2 & _). rewrite F2 in M2. split; [by apply (grown_trans p h f f1 g)|done].
      + destruct (mkdir_exists f1 p g F1 Hn Hp Hg) as [-> M2]. split; [|done]. apply (grown_trans p h f f1 f1 Hi G1). by apply grown_refl. }
  destruct (os_makedirs fuel f h) as [f1|f1|] eqn:Er; [| |done].
  - apply (Hstep f1), Hrec. by left.
  - apply (Hstep f1), Hrec. by right.
Qed.
Lemma makedirs_grown f p g : fs_ok f -> plain p -> makedirs f p = Some g -> fs_ok g /\ with_dirs (leads (fs_cwd f) p) f g /\ p <> [].
Proof.
  intros Hf Hp H. assert (p <> []) as Hn by (intros ->; by vm_compute in H).
  assert (grown p f g /\ tree g !! leads (fs_cwd f) p = Some FDir) as [(H1 & H2 & H3) H4].
  { unfold makedirs in H. destruct (os_makedirs_grown (S (length p)) f p Hf Hn Hp) as [I1 I2]. destruct (os_makedirs (S (length p)) f p) as [f1|f1|] eqn:E.
    - injection H as <-. by apply I1.
    - destruct (I2 f1 eq_refl) as [G1 _]. destruct (exists_ f1 p && isdir f1 p) eqn:Ed; [|done]. injection H as <-. split; [done|].
      apply andb_true_iff in Ed as [_ Ed]. destruct G1 as (G1 & G2 & _). rewrite <- G2. by apply isdir_leads.
    - destruct (exists_ f p && isdir f p) eqn:Ed; [|done]. injection H as <-. split; [by apply grown_refl|].
      apply andb_true_iff in Ed as [_ Ed]. by apply isdir_leads. }
  assert (forall a, inside a (leads (fs_cwd f) p) -> tree g !! a = Some FDir) as Hd.
  { intros a [m Hm]. rewrite Hm in H4. by apply (dir_over g a m). }
  split; [done|]. split; [|done]. split_and!; [done|done| |].
  - intros a Ha. destruct (H3 a) as [E|(_ & E & _)]; [right; rewrite <- E; by apply Hd|by left].
  - intros a Ha. destruct (H3 a) as [E|(? & _)]; [done|done].
Qed.

(** Directories can be made if nothing else is in the way. *)
Lemma mkdir_makes f p h t : fs_ok f -> p <> [] -> parts p h t -> plain p -> tree f !! leads (fs_cwd f) h = Some FDir ->
  tree f !! leads (fs_cwd f) p = None \/ tree f !! leads (fs_cwd f) p = Some FDir ->
  exists g, (mkdir f p = MOk g \/ mkdir f p = MExists g) /\ tree g !! leads (fs_cwd f) p = Some FDir.
Proof.
  intros Hf Hn Hpt Hp Hh Hc. destruct (place_parts f p h t Hf Hn Hpt Hp) as [H _].
  assert (place f (trimmed p) = Some (leads (fs_cwd f) p)) as E.
  { apply H; [done|]. destruct (counts t) eqn:Ec; [by left|]. right. rewrite (parts_leads p h t (fs_cwd f) Hn Hpt), (parts_regular p h t Hpt), Ec, app_nil_r, Hh. eauto. }
  rewrite mkdir_trimmed, E. destruct Hc as [Hc|Hc]; rewrite Hc.
  - eexists. split; [by left|]. cbn [set tree]. apply lookup_insert.
  - eexists. split; [by right|]. done.
Qed.
Lemma os_makedirs_makes fuel : forall f p, fs_ok f -> p <> [] -> plain p -> length p < fuel ->
  (forall a, inside a (leads (fs_cwd f) p) -> tree f !! a = None \/ tree f !! a = Some FDir) ->
  exists g, (os_makedirs fuel f p = MOk g \/ os_makedirs fuel f p = MExists g) /\ tree g !! leads (fs_cwd f) p = Some FDir.
Proof.
  induction fuel as [|fuel IH]; intros f p Hf Hn Hp Hlen Hc; [lia|]. cbn [os_makedirs].
  destruct (psplit p) as [h0 t0] eqn:E0. destruct (match t0 with [] => psplit h0 | _ => (h0, t0) end) as [h t] eqn:E.
  destruct (makedirs_parts p h0 t0 h t Hn E0 E) as (Hpt & Ht0 & Hh & Hl1 & Hl2). destruct (parts_plain p h t Hn Hpt Hp) as [Hph _].
  pose proof (leads_app p h t (fs_cwd f) Hn Hpt) as Hi. pose proof (Hc _ (inside_refl _)) as Hcp.
  destruct h as [|hc h'].
  { apply (mkdir_makes f p [] t Hf Hn Hpt Hp); [|done]. unfold leads. cbn [isabs]. rewrite components_nil, app_nil_r. apply (ok_cwd f Hf). }
  set (h := hc :: h') in *. assert (h <> []) as Hhn by done. destruct t as [|tc t'].
  { specialize (Ht0 eq_refl). apply (mkdir_makes f p h [] Hf Hn Hpt Hp); [|done]. pose proof (parts_leads p h [] (fs_cwd f) Hn Hpt) as El. rewrite app_nil_r in El. rewrite <- El.
    assert (leads (fs_cwd f) p = []) as ->; [|apply (ok_root f Hf)]. unfold leads. destruct p as [|c p]; [done|]. assert (components (c :: p) = []) as Ec by (exact (components_seps [] (c :: p) Ht0)). rewrite Ec, app_nil_r. cbn in Ht0 |- *.
    apply andb_true_iff in Ht0 as [Ht0 _]. by rewrite Ht0. }
  set (t := tc :: t') in *. destruct (exists_ f h) eqn:Ex.
  - apply (mkdir_makes f p h t Hf Hn Hpt Hp); [|done]. unfold exists_, stat in Ex. destruct (resolve f h) as [l|] eqn:Er; [|done].
    pose proof (resolve_plain f h l Hph Er) as ->. destruct (Hc _ Hi) as [K|K]; [by rewrite K in Ex|done].
  - destruct (IH f h Hf Hhn Hph) as (f1 & Hf1 & Hd); [specialize (Hl2 ltac:(done)); lia|intros a Ha; apply Hc; by apply (inside_trans _ _ _ Ha)|].
    assert (fs_ok f1 /\ grown h f f1) as [F1 G1].
    { destruct (os_makedirs_grown fuel f h Hf Hhn Hph) as [I1 I2]. destruct Hf1 as [K|K]; [destruct (I1 _ K) as [G _]|destruct (I2 _ K) as [G _]]; (split; [apply G|done]). }
    assert (exists g, ((if str_eqb t n_dot then MOk f1 else mkdir f1 p) = MOk g \/ (if str_eqb t n_dot then MOk f1 else mkdir f1 p) = MExists g) /\ tree g !! leads (fs_cwd f) p = Some FDir) as HX.
    { destruct (str_eqb t n_dot) eqn:Et.
      - exists f1. split; [by left|]. apply str_eqb_true in Et. rewrite Et in Hpt. rewrite (parts_leads p h n_dot (fs_cwd f) Hn Hpt). change (components n_dot) with (@nil str). rewrite app_nil_r. done.
      - destruct G1 as (_ & G2 & G3). rewrite <- G2 in *. apply (mkdir_makes f1 p h t F1 Hn Hpt Hp); [done|]. destruct (G3 (leads (fs_cwd f1) p)) as [K|(_ & _ & K)]; [rewrite K; done|by right]. }
    destruct Hf1 as [-> | ->]; exact HX.
Qed.
Lemma makedirs_makes f p : fs_ok f -> p <> [] -> plain p ->
  (forall a, inside a (leads (fs_cwd f) p) -> tree f !! a = None \/ tree f !! a = Some FDir) -> exists g, makedirs f p = Some g.
Proof.
  intros Hf Hn Hp Hc. destruct (os_makedirs_makes (S (length p)) f p Hf Hn Hp (Nat.lt_succ_diag_r _) Hc) as (g & Hg & Hd).
  destruct (os_makedirs_grown (S (length p)) f p Hf Hn Hp) as [_ I2]. unfold makedirs. destruct Hg as [Hg|Hg]; rewrite Hg; [eauto|].
  destruct (I2 g Hg) as [(G1 & G2 & _) _]. rewrite <- G2 in Hd. assert (isdir g p = true) as Ed by (by apply isdir_leads). rewrite Ed.
  assert (exists_ g p = true) as ->; [|cbn; eauto]. unfold isdir, exists_ in *. by destruct (stat g p).
Qed.
