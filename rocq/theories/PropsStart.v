(** C92: what a build does with files before it runs. *)
From Coq Require Import Ascii String.
From stdpp Require Import base list gmap.
From Coq Require Import NArith Lia.
From Verif Require Import FnModel PathModel PathSpec PathFacts CopyModel CopySpec CopyFacts CopyMake StartModel StartSpec StartFacts.
Open Scope string_scope.
Open Scope list_scope.
Local Open Scope nat_scope.
Definition text (s : string) : str := map N_of_ascii (list_ascii_of_string s).

(** *** Where the files are *)
Lemma seen_join d s : d <> [] -> seen_from d s (pjoin d s).
Proof.
  intros Hd. unfold seen_from. destruct (isabs s) eqn:E; [left; unfold pjoin; by rewrite E|]. right. split; [done|]. split; [done|].
  destruct (pjoin_rel d s E Hd) as (x & -> & Hx & Hs). split.
  - destruct Hs as [->| ->]; [by apply isabs_app|rewrite <- app_assoc; by apply isabs_app].
  - rewrite (components_dirlike x s Hx). f_equal. destruct Hs as [->| ->]; [done|apply components_add_sep].
Qed.
Lemma path_two d s : path_new [d; s] = pjoin d s.
Proof. by rewrite path_new_two. Qed.
Lemma root_is o : buildroot o = o_buildroot o.
Proof. apply path_new_one. Qed.
(** The state, the log and the temporary directory are in the build root, unless absolute pathnames are given. *)
Theorem C92_places o : o_buildroot o <> [] -> buildroot o = o_buildroot o /\
  (forall s, o_state o = Some s \/ (o_state o = None /\ s = match o_engine o with Sqlite => text "fbuild-state.sqldb" | _ => text "fbuild-state.db" end) ->
     seen_from (o_buildroot o) s (state_file o)) /\
  seen_from (o_buildroot o) (o_log o) (log_file o) /\ seen_from (o_buildroot o) (text ".tmp") (tmpdir o).
Proof.
  intros Hn. split; [apply root_is|]. split.
  - intros s Hs. unfold state_file. rewrite path_two, root_is. destruct Hs as [-> |[-> ->]]; [by apply seen_join|].
    destruct (o_engine o); apply (seen_join _ _ Hn).
  - unfold log_file, tmpdir. rewrite !path_two, root_is. split; apply (seen_join _ _ Hn).
Qed.
Lemma leads_seen cwd d s p : seen_from d s p -> leads cwd p = if isabs s then components s else leads cwd d ++ components s.
Proof. intros [[E ->]|(E & _ & E1 & E2)]; rewrite E; unfold leads; [by rewrite E|]. by rewrite E1, E2, app_assoc. Qed.
Lemma tmp_leads cwd o : o_buildroot o <> [] -> leads cwd (tmpdir o) = leads cwd (buildroot o) ++ [text ".tmp"].
Proof. intros Hn. rewrite (leads_seen cwd (buildroot o) (text ".tmp")); [done|]. rewrite root_is. by apply C92_places. Qed.

(** *** Names of files *)
Lemma file_parts p : names_file p -> p <> [] /\ trimmed p = p /\ exists n, parts p (dirname p) n /\ counts n = true /\ regular n.
Proof.
  intros (h & n & Hp & Hd & H1 & H2 & H3 & H4). assert (cut p = (h, n)) as Ec by (rewrite Hp; by apply cut_app).
  destruct (exists_last H1) as (d & c & En).
  assert (is_sep c = false) as Hc. { apply is_sep_false. intros ->. apply H4. rewrite En. apply in_or_app. right. by left. }
  assert (trimmed p = p) as Et. { unfold trimmed. rewrite Hp, En, app_assoc, (rstrip_app_nonsep _ c [] Hc eq_refl). by destruct (h ++ d). }
  split; [rewrite Hp; destruct h; [done|done]|]. split; [done|]. exists n. split.
  - destruct (psplit p) as [h' t'] eqn:Es. assert (t' = n) as ->. { assert (snd (psplit p) = n) by (by rewrite psplit_snd, Ec). by rewrite Es in H. }
    destruct (psplit_parts p h' n Es) as (s & seps & K1 & K2 & K3 & K4 & K5 & _ & K6). unfold dirname. rewrite Es. cbn [fst]. exists s, seps. rewrite Et. done.
  - split; [|done]. unfold counts. destruct (str_eqb n []) eqn:E1; [apply str_eqb_true in E1; done|]. destruct (str_eqb n [c_dot]) eqn:E2; [apply str_eqb_true in E2; done|done].
Qed.
Lemma file_leads p cwd : names_file p -> exists n, leads cwd p = leads cwd (dirname p) ++ [n] /\ regular n.
Proof.
  intros H. destruct (file_parts p H) as (Hn & _ & n & Hp & Hc & Hr). exists n. split; [|done]. rewrite (parts_leads p (dirname p) n cwd Hn Hp), (parts_regular p _ n Hp), Hc. done.
Qed.
Lemma file_above p cwd l : names_file p -> (inside l (leads cwd (dirname p)) <-> above l (leads cwd p)).
Proof.
  intros H. destruct (file_leads p cwd H) as (n & E & _). split.
  - intros [m Hm]. rewrite E, Hm. destruct m as [|x m]; [exists n, []; by rewrite app_nil_r|]. exists x, (m ++ [n]). by rewrite <- app_assoc.
  - intros (x & r & Hr). rewrite E in Hr. destruct r as [|y r _] using rev_ind.
    + apply app_inj_tail in Hr as [-> _]. apply inside_refl.
    + change (l ++ x :: r ++ [y]) with (l ++ (x :: r) ++ [y]) in Hr. rewrite app_assoc in Hr. apply app_inj_tail in Hr as [-> _]. by exists (x :: r).
Qed.
Lemma file_plain p : names_file p -> plain p -> plain (dirname p).
Proof. intros H Hp. destruct (file_parts p H) as (Hn & _ & n & Hpt & _). apply (parts_plain p (dirname p) n Hn Hpt Hp). Qed.
Lemma file_join d s : names_file s -> names_file (pjoin d s).
Proof.
  intros (h & n & -> & Hh & Hr). unfold pjoin. destruct (isabs (h ++ n)); [by exists h, n|]. destruct d as [|c d]; [by exists h, n|]. destruct (ends_sep (c :: d)) eqn:E.
  - exists ((c :: d) ++ h), n. rewrite app_assoc. split; [done|]. split; [|done]. apply ends_sep_true in E as (d' & E). rewrite E.
    destruct Hh as [->|[h' ->]]; right; [exists d'; by rewrite app_nil_r|]. exists ((d' ++ [c_sep]) ++ h'). by rewrite <- !app_assoc.
  - exists ((c :: d) ++ c_sep :: h), n. split; [by rewrite <- app_assoc|]. split; [|done]. right. destruct Hh as [->|[h' ->]]; [by exists (c :: d)|].
    exists ((c :: d) ++ c_sep :: h'). by rewrite <- app_assoc.
Qed.
Lemma resolve_file f p : fs_ok f -> names_file p -> plain p -> is_Some (tree f !! leads (fs_cwd f) p) -> resolve f p = Some (leads (fs_cwd f) p).
Proof.
  intros Hf Hn Hp Hi. destruct (file_parts p Hn) as (Hne & Et & n & Hpt & Hc & Hr). rewrite <- Et at 1. apply place_here; [done|done|done| |done].
  apply (place_parts f p (dirname p) n Hf Hne Hpt Hp); [|by left]. destruct (file_leads p (fs_cwd f) Hn) as (x & E & _). rewrite E in Hi. by apply (ok_up f Hf _ x).
Qed.
Lemma stat_file f p : fs_ok f -> names_file p -> plain p -> stat f p = tree f !! leads (fs_cwd f) p.
Proof.
  intros Hf Hn Hp. unfold stat. destruct (tree f !! leads (fs_cwd f) p) as [x|] eqn:E.
  - rewrite resolve_file; [done|done|done|done|rewrite E; eauto].
  - destruct (resolve f p) as [l|] eqn:Er; [|done]. apply resolve_plain in Er as ->; [|done]. done.
Qed.
Lemma write_file f p c g : fs_ok f -> names_file p -> plain p -> write f p c = Some g ->
  fs_ok g /\ g = set f (leads (fs_cwd f) p) (FFile c) /\ tree f !! leads (fs_cwd f) p <> Some FDir.
Proof.
  intros Hf Hn Hp H. destruct (write_ok f p c g Hf H) as (l & Hl & -> & _ & Hd & Hg & _).
  destruct (file_parts p Hn) as (Hne & Et & n & Hpt & Hc & Hr). rewrite <- Et in Hl.
  destruct (proj2 (place_parts f p (dirname p) n Hf Hne Hpt Hp) l Hl) as [-> _]. done.
Qed.

(** *** Removing *)
Lemma rmtree_gone f p g : fs_ok f -> plain p -> rmtree f p = Some g ->
  fs_ok g /\ fs_cwd g = fs_cwd f /\ ~ inside (leads (fs_cwd f) p) (fs_cwd f) /\
  (forall l, inside (leads (fs_cwd f) p) l -> tree g !! l = None) /\ (forall l, ~ inside (leads (fs_cwd f) p) l -> tree g !! l = tree f !! l).
Proof.
  intros Hf Hp. unfold rmtree. destruct (resolve f p) as [l|] eqn:Er; [|done]. apply resolve_plain in Er as ->; [|done]. set (L := leads (fs_cwd f) p).
  destruct (tree f !! L) as [[|]|] eqn:El; try done. destruct (is_prefix L (fs_cwd f)) eqn:Ec; [done|]. destruct (special _); [done|]. intros [= <-]. cbn [fs_cwd tree].
  assert (forall l, inside L l -> (filter (fun x : loc * fnode => is_prefix L (fst x) = false) (tree f)) !! l = None) as H1.
  { intros l Hl. apply map_filter_lookup_None. right. intros x _. cbn. apply prefix_spec in Hl. congruence. }
  assert (forall l, ~ inside L l -> (filter (fun x : loc * fnode => is_prefix L (fst x) = false) (tree f)) !! l = tree f !! l) as H2.
  { intros l Hl. destruct (tree f !! l) as [x|] eqn:E.
    - apply map_filter_lookup_Some. split; [done|]. cbn. destruct (is_prefix L l) eqn:E2; [|done]. apply prefix_spec in E2. done.
    - apply map_filter_lookup_None. by left. }
  assert (L <> []) as HL. { intros E. rewrite E in Ec. done. }
  assert (~ inside L (fs_cwd f)) as Hcwd by (intros K%prefix_spec; congruence).
  split_and!; try done.
  assert (forall (l : loc) (x : list N), is_Some ((filter (fun x : loc * fnode => is_prefix L (fst x) = false) (tree f)) !! (l ++ [x])) ->
    is_Some (tree f !! (l ++ [x])) /\ ~ inside L (l ++ [x])) as H3.
  { intros l x Hi. destruct (inside_dec L (l ++ [x])) as [K|K]; [rewrite (H1 _ K) in Hi; by destruct Hi|]. rewrite (H2 _ K) in Hi. done. }
  split; cbn [tree fs_cwd].
  - rewrite H2; [apply (ok_root f Hf)|]. intros [m Hm]. by destruct L.
  - intros l x Hi. destruct (H3 l x Hi) as [Hi' K]. rewrite H2; [by apply (ok_up f Hf l x)|]. intros [m ->]. apply K. exists (m ++ [x]). by rewrite app_assoc.
  - intros l x Hi. destruct (H3 l x Hi) as [Hi' _]. by apply (ok_name f Hf l x).
  - rewrite (H2 _ Hcwd). apply (ok_cwd f Hf).
Qed.
Lemma tmp_file o : names_file (tmpdir o).
Proof.
  unfold tmpdir. rewrite path_two. apply file_join. exists [], t_tmp. split; [done|]. split; [by left|]. split_and!; try done. vm_compute. intuition discriminate.
Qed.
Lemma tmp_plain o : o_buildroot o <> [] -> plain (buildroot o) -> plain (tmpdir o).
Proof.
  intros Hn Hp. destruct (C92_places o Hn) as (_ & _ & _ & Ht). unfold plain. destruct Ht as [[? _]|(_ & _ & _ & ->)]; [done|]. intros K. apply in_app_or in K as [K|K].
  - apply Hp. by rewrite root_is.
  - vm_compute in K. intuition discriminate.
Qed.
Lemma not_inside_tmp (d : loc) (x : list N) (l : loc) : inside l d -> ~ inside (d ++ [x]) l.
Proof.
  intros [m ->] [n E]. apply (f_equal (@List.length _)) in E. rewrite !app_length in E. change (List.length [x]) with 1 in E. lia.
Qed.

(** After the directories of a build were made the temporary directory is empty, the log is empty, the directories of the build
    root and of the state exist, and nothing else changed. *)
Theorem C92_created f o f' : fs_ok f -> plain (buildroot o) -> names_file (state_file o) -> plain (state_file o) ->
  names_file (log_file o) -> plain (log_file o) -> create_buildroot f o = Some f' ->
  let at_ p := leads (fs_cwd f) p in
  fs_ok f' /\ fs_cwd f' = fs_cwd f /\
  tree f' !! at_ (tmpdir o) = Some FDir /\ (forall l, above (at_ (tmpdir o)) l -> tree f' !! l = None) /\
  (~ inside (at_ (tmpdir o)) (at_ (log_file o)) -> tree f' !! at_ (log_file o) = Some (FFile 0) /\ tree f !! at_ (log_file o) <> Some FDir) /\
  (forall l, ~ inside (at_ (tmpdir o)) l -> l <> at_ (log_file o) ->
     (inside l (at_ (buildroot o)) \/ above l (at_ (state_file o)) -> tree f' !! l = Some FDir /\ (tree f !! l = None \/ tree f !! l = Some FDir)) /\
     (~ inside l (at_ (buildroot o)) -> ~ above l (at_ (state_file o)) -> tree f' !! l = tree f !! l)).
Proof.
  intros Hf Hpd Hns Hps Hnl Hpl H at_. unfold create_buildroot in H.
  destruct (makedirs f (buildroot o)) as [f1|] eqn:E1; [|done]. destruct (makedirs_grown f (buildroot o) f1 Hf Hpd E1) as (F1 & (W1 & W2 & W3 & W4) & Hne).
  assert (o_buildroot o <> []) as Hn by (by rewrite <- root_is).
  destruct (write f1 (log_file o) 0) as [f2|] eqn:E2; [|done]. destruct (write_file f1 (log_file o) 0 f2 F1 Hnl Hpl E2) as (F2 & Ef2 & Hl2). rewrite W1 in Ef2, Hl2.
  fold (at_ (log_file o)) in Ef2, Hl2. fold (at_ (buildroot o)) in W2, W3, W4.
  assert (fs_cwd f2 = fs_cwd f) as C2 by (by rewrite Ef2).
  destruct (makedirs f2 (dirname (state_file o))) as [f3|] eqn:E3; [|done].
  destruct (makedirs_grown f2 (dirname (state_file o)) f3 F2 (file_plain _ Hns Hps) E3) as (F3 & (X1 & X2 & X3 & X4) & _). rewrite C2 in X1, X2, X3, X4.
  assert (forall l, inside l (leads (fs_cwd f) (dirname (state_file o))) <-> above l (at_ (state_file o))) as Hab by (intros l; by apply file_above).
  pose proof (tmp_plain o Hn Hpd) as Hpt. pose proof (tmp_leads (fs_cwd f) o Hn) as Htl. fold (at_ (tmpdir o)) in Htl. fold (at_ (buildroot o)) in Htl.
  destruct (clear_temp_dir f3 o) as [f4|] eqn:E4; [|done]. destruct (mkdir f4 (tmpdir o)) as [f5| |] eqn:E5; [|done|done]. injection H as <-.
  assert (fs_ok f4 /\ fs_cwd f4 = fs_cwd f /\ (forall l, ~ inside (at_ (tmpdir o)) l -> tree f4 !! l = tree f3 !! l) /\ (forall l, above (at_ (tmpdir o)) l -> tree f4 !! l = None)) as (F4 & C4 & G1 & G2).
  { unfold clear_temp_dir in E4. destruct (isdir f3 (tmpdir o)) eqn:Ed.
    - destruct (rmtree_gone f3 (tmpdir o) f4 F3 Hpt E4) as (A1 & A2 & _ & A3 & A4). rewrite X1 in A2, A3, A4. split_and!; [done|done|done|]. intros l (x & r & ->). apply A3. by exists (x :: r).
    - injection E4 as <-. split_and!; [done|done|done|]. intros l (x & r & ->). destruct (tree f3 !! (at_ (tmpdir o) ++ x :: r)) eqn:Et; [|done]. exfalso.
      assert (tree f3 !! at_ (tmpdir o) = Some FDir) as Hd by (apply (dirs_over f3 _ (x :: r) F3); [rewrite Et; eauto|done]).
      assert (isdir f3 (tmpdir o) = true); [|congruence]. apply isdir_leads; [done|done| |by rewrite X1]. by destruct (file_parts _ (tmp_file o)). }
  assert (tmpdir o <> []) as Htn by (by destruct (file_parts _ (tmp_file o))).
  destruct (mkdir_grown f4 (tmpdir o) f5 F4 Htn Hpt E5) as ((F5 & C5 & _) & D5 & Ef5 & N5). rewrite C4 in D5, Ef5, N5. fold (at_ (tmpdir o)) in D5, Ef5, N5.
  assert (forall l, ~ inside (at_ (tmpdir o)) l -> tree f5 !! l = tree f3 !! l) as H5.
  { intros l Hl. rewrite <- (G1 l Hl), Ef5. cbn [set tree]. apply lookup_insert_ne. intros <-. apply Hl, inside_refl. }
  assert (forall l, l <> at_ (log_file o) -> tree f2 !! l = tree f1 !! l) as H2.
  { intros l Hl. rewrite Ef2. cbn [set tree]. by apply lookup_insert_ne. }
  assert (tree f2 !! at_ (log_file o) = Some (FFile 0)) as L2 by (rewrite Ef2; cbn [set tree]; apply lookup_insert).
  split_and!.
  - done.
  - congruence.
  - done.
  - intros l Hl. rewrite Ef5. cbn [set tree]. rewrite lookup_insert_ne; [by apply G2|]. destruct Hl as (x & r & ->). intros K. rewrite <- (app_nil_r (at_ (tmpdir o))) in K at 1. apply app_inv_head in K. done.
  - intros Hl. rewrite (H5 _ Hl). rewrite X4; [split; [done|]|].
    + destruct (inside_dec (at_ (log_file o)) (at_ (buildroot o))) as [K|K]; [rewrite (W2 _ K) in Hl2; done|]. by rewrite <- (W4 _ K).
    + intros K. destruct (X3 _ K) as [K'|K']; congruence.
  - intros l Hl Hnl'. rewrite (H5 l Hl). split.
    + intros Hor. destruct (inside_dec l (leads (fs_cwd f) (dirname (state_file o)))) as [K|K].
      * split; [by apply X2|]. destruct (X3 l K) as [K'|K']; rewrite (H2 l Hnl') in K'.
        -- destruct (inside_dec l (at_ (buildroot o))) as [J|J]; [rewrite (W2 l J) in K'; done|]. left. by rewrite <- (W4 l J).
        -- destruct (inside_dec l (at_ (buildroot o))) as [J|J]; [by apply W3|]. right. by rewrite <- (W4 l J).
      * destruct Hor as [J|J]; [|exfalso; by apply K, Hab]. rewrite (X4 l K), (H2 l Hnl'). split; [by apply W2|by apply W3].
    + intros J1 J2. rewrite X4 by (by rewrite Hab). by rewrite (H2 l Hnl'), (W4 l J1).
Qed.

(** They can be made if nothing is in the way; the directory of the log must be there already or be one of the build root. *)
Theorem C92_succeeds f o : fs_ok f -> o_buildroot o <> [] -> plain (buildroot o) -> names_file (state_file o) -> plain (state_file o) ->
  names_file (log_file o) -> plain (log_file o) ->
  let at_ p := leads (fs_cwd f) p in
  (forall l, inside l (at_ (buildroot o)) \/ above l (at_ (state_file o)) \/ l = at_ (tmpdir o) -> l <> at_ (log_file o) /\ (tree f !! l = None \/ tree f !! l = Some FDir)) ->
  ~ inside (at_ (tmpdir o)) (fs_cwd f) -> tree f !! at_ (log_file o) <> Some FDir ->
  (exists d x, at_ (log_file o) = d ++ [x] /\ (tree f !! d = Some FDir \/ inside d (at_ (buildroot o)))) ->
  exists f', create_buildroot f o = Some f'.
Proof.
  intros Hf Hn Hpd Hns Hps Hnl Hpl at_ Hc Hcwd Hld (d & x & Hd & Hdd). unfold create_buildroot.
  assert (buildroot o <> []) as Hn' by (by rewrite root_is).
  destruct (makedirs_makes f (buildroot o) Hf Hn' Hpd) as [f1 E1]; [intros a Ha; apply Hc; by left|]. rewrite E1.
  destruct (makedirs_grown f (buildroot o) f1 Hf Hpd E1) as (F1 & (W1 & W2 & W3 & W4) & _).
  assert (tree f1 !! at_ (log_file o) <> Some FDir) as Hl1.
  { rewrite W4; [done|]. intros K. destruct (Hc (at_ (log_file o))) as [K' _]; [by left|done]. }
  assert (exists f2, write f1 (log_file o) 0 = Some f2) as [f2 E2].
  { destruct (file_parts _ Hnl) as (Hle & Et & n & Hpt & Hcn & _). unfold write.
    pose proof (proj1 (place_parts f1 (log_file o) (dirname (log_file o)) n F1 Hle Hpt Hpl)) as HP. rewrite Et in HP. rewrite HP.
    - rewrite W1. fold (at_ (log_file o)). destruct (tree f1 !! at_ (log_file o)) as [[|]|]; [eauto|done|eauto].
    - rewrite W1. destruct (file_leads (log_file o) (fs_cwd f) Hnl) as (y & Ey & _). fold (at_ (log_file o)) in Ey. rewrite Hd in Ey. apply app_inj_tail in Ey as [<- _].
      destruct Hdd as [K|K]; [|by apply W2]. destruct (inside_dec d (at_ (buildroot o))) as [J|J]; [by apply W2|by rewrite (W4 d J)].
    - by left. }
  rewrite E2. destruct (write_file f1 (log_file o) 0 f2 F1 Hnl Hpl E2) as (F2 & Ef2 & _). rewrite W1 in Ef2. fold (at_ (log_file o)) in Ef2.
  assert (fs_cwd f2 = fs_cwd f) as C2 by (by rewrite Ef2).
  assert (forall l, l <> at_ (log_file o) -> tree f2 !! l = tree f1 !! l) as H2.
  { intros l Hl. rewrite Ef2. cbn [set tree]. by apply lookup_insert_ne. }
  assert (forall l, inside l (leads (fs_cwd f) (dirname (state_file o))) <-> above l (at_ (state_file o))) as Hab by (intros l; by apply file_above).
  pose proof (file_plain _ Hns Hps) as Hpsd.
  assert (dirname (state_file o) <> []) as Hsn.
  { intros E. destruct (file_parts _ Hns) as (Hse & _ & n & Hpt & _). destruct (parts_components _ _ _ Hse Hpt) as (K1 & _ & _ & _ & K2). specialize (K2 E).
    pose proof Hns as (hh & nn & _). clear hh nn. unfold state_file in *. rewrite path_two in *. unfold dirname in E.
    set (s := match o_state o with Some s => s | None => state_default (o_engine o) end) in *.
    destruct (isabs s) eqn:Ea; [unfold pjoin in K2; rewrite Ea in K2; rewrite Ea in K2; discriminate K2|]. destruct (pjoin_rel (buildroot o) s Ea Hn') as (z & Ez & Hz & Hzs).
    destruct Hpt as (s1 & seps & P1 & P2 & P3 & P4 & P5 & P6). unfold dirname in P3, P6. rewrite E in P3, P6. specialize (P6 eq_refl). cbn in P3. subst s1.
    rewrite <- P6 in P1. rewrite app_nil_l in P1. assert (trimmed (pjoin (buildroot o) s) = pjoin (buildroot o) s) as Et by (exact (proj1 (proj2 (file_parts _ Hns)))).
    rewrite Et in P1. apply P5. rewrite <- P1, Ez. destruct Hz as [->|[z' ->]]; [exfalso; destruct Hzs as [K|K]; [by apply Hn'|by destruct (buildroot o)]|].
    apply in_or_app. left. apply in_or_app. right. by left. }
  destruct (makedirs_makes f2 (dirname (state_file o)) F2 Hsn Hpsd) as [f3 E3].
  { rewrite C2. intros a Ha. apply Hab in Ha. destruct (Hc a) as [K1 K2]; [by right; left|]. rewrite (H2 a K1).
    destruct (inside_dec a (at_ (buildroot o))) as [J|J]; [right; by apply W2|by rewrite (W4 a J)]. }
  rewrite E3. destruct (makedirs_grown f2 (dirname (state_file o)) f3 F2 Hpsd E3) as (F3 & (X1 & X2 & X3 & X4) & _). rewrite C2 in X1, X2, X3, X4.
  pose proof (tmp_plain o Hn Hpd) as Hpt. pose proof (tmp_leads (fs_cwd f) o Hn) as Htl. fold (at_ (tmpdir o)) in Htl. fold (at_ (buildroot o)) in Htl.
  pose proof (tmp_file o) as Htf. assert (tmpdir o <> []) as Htn by (by destruct (file_parts _ Htf)).
  assert (tree f3 !! at_ (buildroot o) = Some FDir) as B3.
  { destruct (inside_dec (at_ (buildroot o)) (leads (fs_cwd f) (dirname (state_file o)))) as [K|K]; [by apply X2|]. rewrite (X4 _ K), H2; [apply W2, inside_refl|].
    intros E. destruct (Hc (at_ (buildroot o))) as [K' _]; [left; apply inside_refl|done]. }
  assert (exists f4, clear_temp_dir f3 o = Some f4 /\ fs_ok f4 /\ fs_cwd f4 = fs_cwd f /\ tree f4 !! at_ (tmpdir o) = None /\ tree f4 !! at_ (buildroot o) = Some FDir) as (f4 & E4 & F4 & C4 & N4 & B4).
  { unfold clear_temp_dir. destruct (isdir f3 (tmpdir o)) eqn:Ed.
    - assert (tree f3 !! at_ (tmpdir o) = Some FDir) as D3 by (apply isdir_leads in Ed; [by rewrite X1 in Ed|done|done|done]).
      assert (exists f4, rmtree f3 (tmpdir o) = Some f4) as [f4 E4].
      { unfold rmtree. rewrite (resolve_dir f3 (tmpdir o) F3 Hpt Htn) by (by rewrite X1). rewrite X1. fold (at_ (tmpdir o)). rewrite D3.
        destruct (is_prefix (at_ (tmpdir o)) (fs_cwd f)) eqn:Ep; [apply prefix_spec in Ep; done|].
        destruct (file_parts _ Htf) as (_ & Et & n & Hpn & Hcn & Hr). destruct (parts_components _ _ _ Htn Hpn) as (_ & _ & Hlast & _). unfold trimmed in Hlast. rewrite Hlast.
        rewrite (regular_special n Hr). eauto. }
      exists f4. split; [done|]. destruct (rmtree_gone f3 (tmpdir o) f4 F3 Hpt E4) as (A1 & A2 & _ & A3 & A4). rewrite X1 in A2, A3, A4. fold (at_ (tmpdir o)) in A3, A4.
      split_and!; [done|done|apply A3, inside_refl|]. rewrite A4; [done|]. rewrite Htl. apply not_inside_tmp, inside_refl.
    - exists f3. split_and!; try done. destruct (tree f3 !! at_ (tmpdir o)) as [z|] eqn:Et; [|done]. exfalso.
      destruct (inside_dec (at_ (tmpdir o)) (leads (fs_cwd f) (dirname (state_file o)))) as [K|K].
      + pose proof (X2 _ K) as D3. assert (isdir f3 (tmpdir o) = true); [|congruence]. apply isdir_leads; [done|done|done|by rewrite X1].
      + destruct (Hc (at_ (tmpdir o))) as [K1 K2]; [by right; right|]. rewrite (X4 _ K), (H2 _ K1) in Et. rewrite W4 in Et.
        2:{ rewrite Htl. intros J. exact (not_inside_tmp (at_ (buildroot o)) _ _ J (inside_refl _)). }
        destruct K2 as [K2|K2]; [congruence|]. assert (isdir f3 (tmpdir o) = true); [|congruence]. apply isdir_leads; [done|done|done|]. rewrite X1. fold (at_ (tmpdir o)).
        rewrite (X4 _ K), (H2 _ K1), W4; [done|]. rewrite Htl. intros J. exact (not_inside_tmp (at_ (buildroot o)) _ _ J (inside_refl _)). }
  rewrite E4. destruct (file_parts _ Htf) as (_ & _ & n & Hpn & Hcn & _).
  assert (leads (fs_cwd f) (dirname (tmpdir o)) = at_ (buildroot o)) as Edt.
  { destruct (file_leads (tmpdir o) (fs_cwd f) Htf) as (y & Ey & _). fold (at_ (tmpdir o)) in Ey. rewrite Htl in Ey. by apply app_inj_tail in Ey as [-> _]. }
  rewrite mkdir_trimmed. rewrite (proj1 (place_parts f4 (tmpdir o) (dirname (tmpdir o)) n F4 Htn Hpn Hpt)).
  - rewrite C4. fold (at_ (tmpdir o)). rewrite N4. eauto.
  - rewrite C4, Edt. done.
  - by left.
Qed.

(** *** The state *)
(** The database is connected to the state file; for --rebuild and --configure this file is removed, and nothing else. *)
Theorem C92_loaded f o : fs_ok f -> names_file (state_file o) -> plain (state_file o) ->
  let s := leads (fs_cwd f) (state_file o) in
  (o_rebuild o = false -> o_configure o = false -> load_configuration f o = Some (f, state_file o)) /\
  (o_rebuild o = true \/ o_configure o = true ->
     (tree f !! s <> Some FDir -> exists g, load_configuration f o = Some (g, state_file o)) /\
     (forall g p, load_configuration f o = Some (g, p) -> p = state_file o /\ fs_ok g /\ fs_cwd g = fs_cwd f /\ tree g !! s = None /\
        forall l, l <> s -> tree g !! l = tree f !! l)).
Proof.
  intros Hf Hn Hp s. unfold load_configuration. pose proof (stat_file f (state_file o) Hf Hn Hp) as Hs. fold s in Hs. split.
  - intros -> ->. done.
  - intros Hr. assert (o_rebuild o || o_configure o = true) as -> by (destruct Hr as [-> | ->]; [done|apply orb_true_r]). cbn [andb].
    unfold exists_. rewrite Hs. unfold remove. destruct (tree f !! s) as [n|] eqn:E.
    + rewrite (resolve_file f (state_file o) Hf Hn Hp) by (fold s; rewrite E; eauto). fold s. rewrite E. destruct n as [c|]; [|done]. cbn [option_map]. split; [eauto|].
      intros g p [= <- <-]. split; [done|]. split; [by apply (remove_ok f s c)|]. cbn [tree fs_cwd]. split; [done|]. split; [apply lookup_delete|]. intros l Hl. by apply lookup_delete_ne.
    + split; [eauto|]. intros g p [= <- <-]. done.
Qed.
(** So the database is as it was saved, or empty if everything is to be rebuilt. *)
Theorem C92_kept f o f' g p : fs_ok f -> plain (buildroot o) -> names_file (state_file o) -> plain (state_file o) ->
  names_file (log_file o) -> plain (log_file o) -> create_buildroot f o = Some f' -> load_configuration f' o = Some (g, p) ->
  ~ inside (leads (fs_cwd f) (tmpdir o)) (leads (fs_cwd f) (state_file o)) -> leads (fs_cwd f) (state_file o) <> leads (fs_cwd f) (log_file o) ->
  ~ inside (leads (fs_cwd f) (state_file o)) (leads (fs_cwd f) (buildroot o)) ->
  p = state_file o /\ stat g p = if o_rebuild o || o_configure o then None else stat f p.
Proof.
  intros Hf Hpd Hns Hps Hnl Hpl Hc Hl H1 H2 H3. destruct (C92_created f o f' Hf Hpd Hns Hps Hnl Hpl Hc) as (F' & C' & _ & _ & _ & Hfr).
  destruct (Hfr _ H1 H2) as [_ Hk]. specialize (Hk H3). assert (~ above (leads (fs_cwd f) (state_file o)) (leads (fs_cwd f) (state_file o))) as Hna.
  { intros (x & r & E). apply (f_equal (@List.length _)) in E. rewrite app_length in E. cbn in E. lia. }
  specialize (Hk Hna). destruct (C92_loaded f' o F' Hns Hps) as [L1 L2].
  destruct (o_rebuild o) eqn:Er; [|destruct (o_configure o) eqn:Ec]; cbn [orb].
  - destruct (proj2 (L2 (or_introl eq_refl)) g p Hl) as (-> & G & C & N & _). split; [done|]. rewrite (stat_file g _ G Hns Hps), C. done.
  - destruct (proj2 (L2 (or_intror eq_refl)) g p Hl) as (-> & G & C & N & _). split; [done|]. rewrite (stat_file g _ G Hns Hps), C. done.
  - rewrite (L1 eq_refl eq_refl) in Hl. injection Hl as <- <-. split; [done|]. rewrite (stat_file f' _ F' Hns Hps), (stat_file f _ Hf Hns Hps), C'. done.
Qed.
(** SQLite and the others do not share a state file. *)
Theorem C92_engines o o' : o_state o = None -> o_state o' = None -> o_buildroot o = o_buildroot o' -> o_engine o = Sqlite -> o_engine o' <> Sqlite ->
  state_file o <> state_file o'.
Proof.
  intros H1 H2 Hb H3 H4. unfold state_file. rewrite H1, H2, H3, !root_is, Hb, !path_two. destruct (o_engine o'); [| |done]; cbn [state_default]; intros E;
    apply (f_equal (@List.length _)) in E; unfold pjoin in E; cbn [isabs] in E; (destruct (o_buildroot o') as [|c b]; [by vm_compute in E|]);
    change (isabs t_sqldb) with false in E; change (isabs t_db) with false in E; cbv iota in E; destruct (ends_sep (c :: b)); rewrite !app_length in E; cbn in E; lia.
Qed.

(** *** Cleaning *)
(** Cleaning removes what is in the build root and nothing else. *)
Theorem C92_cleaned f o : fs_ok f -> plain (buildroot o) -> buildroot o <> [] ->
  let d := leads (fs_cwd f) (buildroot o) in
  (forall g, clean f o = Some g -> fs_ok g /\ fs_cwd g = fs_cwd f /\ (forall l, above d l -> tree g !! l = None) /\ (forall l, ~ inside d l -> tree g !! l = tree f !! l) /\
     (names_file (buildroot o) -> tree g !! d = None)) /\
  (names_file (buildroot o) -> ~ inside d (fs_cwd f) -> tree f !! d = None \/ tree f !! d = Some FDir -> exists g, clean f o = Some g).
Proof.
  intros Hf Hp Hn d. unfold clean. destruct (exists_ f (buildroot o)) eqn:Ex.
  - split.
    + intros g H. destruct (rmtree_gone f (buildroot o) g Hf Hp H) as (G & C & _ & H1 & H2). split_and!; try done.
      * intros l (x & r & ->). apply H1. by exists (x :: r).
      * intros _. apply H1, inside_refl.
    + intros Hnf Hcwd Hd. assert (tree f !! d = Some FDir) as Hdd.
      { destruct Hd as [Hd|Hd]; [|done]. unfold exists_ in Ex. rewrite (stat_file f _ Hf Hnf Hp) in Ex. fold d in Ex. by rewrite Hd in Ex. }
      unfold rmtree. rewrite (resolve_dir f _ Hf Hp Hn Hdd). fold d. rewrite Hdd. destruct (is_prefix d (fs_cwd f)) eqn:Ep; [apply prefix_spec in Ep; done|].
      destruct (file_parts _ Hnf) as (_ & Et & n & Hpn & Hcn & Hr). destruct (parts_components _ _ _ Hn Hpn) as (_ & _ & Hlast & _). unfold trimmed in Hlast. rewrite Hlast.
      rewrite (regular_special n Hr). eauto.
  - split; [|eauto]. intros g [= <-]. assert (tree f !! d <> Some FDir) as Hnd.
    { intros K. unfold exists_, stat in Ex. rewrite (resolve_dir f _ Hf Hp Hn K) in Ex. fold d in Ex. by rewrite K in Ex. }
    split_and!; try done.
    + intros l (x & r & ->). destruct (tree f !! (d ++ x :: r)) eqn:E; [|done]. exfalso. apply Hnd. apply (dirs_over f d (x :: r) Hf); [rewrite E; eauto|done].
    + intros Hnf. unfold exists_ in Ex. rewrite (stat_file f _ Hf Hnf Hp) in Ex. fold d in Ex. by destruct (tree f !! d).
Qed.

(** *** Outside *)
(** Claim: the directories of a build can be made if nothing is in the way. *)
Definition C92_log : Prop := forall f o, fs_ok f -> o_buildroot o <> [] -> plain (buildroot o) -> names_file (state_file o) -> plain (state_file o) ->
  names_file (log_file o) -> plain (log_file o) ->
  (forall l, inside l (leads (fs_cwd f) (buildroot o)) \/ above l (leads (fs_cwd f) (state_file o)) \/ above l (leads (fs_cwd f) (log_file o)) \/ l = leads (fs_cwd f) (tmpdir o) ->
     l <> leads (fs_cwd f) (log_file o) /\ (tree f !! l = None \/ tree f !! l = Some FDir)) ->
  ~ inside (leads (fs_cwd f) (tmpdir o)) (fs_cwd f) -> tree f !! leads (fs_cwd f) (log_file o) <> Some FDir -> exists f', create_buildroot f o = Some f'.
Definition ex_tree (more : list (loc * fnode)) : fs := Fs (list_to_map (more ++ [([], FDir); ([text "w"], FDir); ([text "w"; text "a.c"], FFile 7)])) [text "w"].
Definition ex_options (state : option str) (log : str) (rebuild : bool) : options := Options (text "build") state Pickle log rebuild false.
Definition fs_okb (f : fs) : bool :=
  bool_decide (tree f !! [] = Some FDir) && bool_decide (tree f !! fs_cwd f = Some FDir) &&
  forallb (fun e => match fst e with
                    | [] => true
                    | _ => bool_decide (tree f !! removelast (fst e) = Some FDir) &&
                           negb (special (List.last (fst e) [])) && forallb (fun c => negb (is_sep c)) (List.last (fst e) [])
                    end) (map_to_list (tree f)).
Lemma fs_check f : fs_okb f = true -> fs_ok f.
Proof.
  unfold fs_okb. rewrite !andb_true_iff, forallb_forall. intros [[H1 H2] H3].
  apply bool_decide_eq_true in H1. apply bool_decide_eq_true in H2.
  assert (forall l x, is_Some (tree f !! (l ++ [x])) -> tree f !! l = Some FDir /\ special x = false /\ ~ List.In c_sep x) as H.
  { intros l x [n Hn]. apply elem_of_map_to_list in Hn. apply elem_of_list_In in Hn. specialize (H3 _ Hn). cbn [fst] in H3.
    destruct (l ++ [x]) as [|y ys] eqn:E; [by destruct l|]. rewrite <- E in H3. rewrite removelast_last, last_last in H3.
    rewrite !andb_true_iff, negb_true_iff in H3. destruct H3 as [[A B] C]. apply bool_decide_eq_true in A. split; [done|]. split; [done|].
    intros Hi. rewrite forallb_forall in C. specialize (C _ Hi). done. }
  split; [done| | |done].
  - intros l x Hl. by apply (H l x).
  - intros l x Hl. destruct (H l x Hl) as (_ & A & B). apply special_false_iff in A. tauto.
Qed.
Definition names_fileb (p : str) : bool := let n := snd (cut p) in negb (special n).
Lemma names_file_b p : names_fileb p = true -> names_file p.
Proof.
  unfold names_fileb. destruct (cut p) as [h n] eqn:E. cbn [snd]. intros H%negb_true_iff. destruct (cut_spec p h n E) as (Hp & Hn & Hd).
  apply special_false_iff in H as (A & B & C). exists h, n. done.
Qed.
Definition plainb (p : str) : bool := negb (existsb (str_eqb dotdot) (components p)).
Lemma plain_b p : plainb p = true -> plain p.
Proof.
  unfold plainb, plain. intros H%negb_true_iff K. assert (existsb (str_eqb dotdot) (components p) = true); [|congruence].
  apply existsb_exists. exists dotdot. split; [done|apply str_eqb_refl].
Qed.
Lemma inside_take a l : inside a l -> exists i, i <= length l /\ a = take i l.
Proof. intros [m ->]. exists (length a). rewrite app_length. split; [lia|]. by rewrite take_app. Qed.
Lemma above_take a l : above a l -> exists i, i < length l /\ a = take i l.
Proof. intros (x & r & ->). exists (length a). rewrite app_length. cbn [length]. split; [lia|]. by rewrite take_app. Qed.
(** They cannot if the log is in a directory that is not there: only that of the state is made, and later. *)
Theorem C92_log_refuted : ~ C92_log.
Proof.
  intros H. destruct (H (ex_tree []) (ex_options (Some (text "db/state")) (text "logs/build.log") false)) as [f' E].
  - by apply fs_check; vm_compute.
  - done.
  - by apply plain_b; vm_compute.
  - by apply names_file_b; vm_compute.
  - by apply plain_b; vm_compute.
  - by apply names_file_b; vm_compute.
  - by apply plain_b; vm_compute.
  - intros l Hl. assert (exists i, i <= 3 /\ (l = take i [text "w"; text "build"; text "db"] \/ l = take i [text "w"; text "build"; text "logs"] \/ l = [text "w"; text "build"; text ".tmp"])) as (i & Hi & Hi').
    { destruct Hl as [Hl|[Hl|[Hl|Hl]]].
      - apply inside_take in Hl as (i & Hi & ->). vm_compute in Hi. exists i. split; [lia|]. left. by destruct i as [|[|[|i]]]; [vm_compute|vm_compute|vm_compute|lia].
      - apply above_take in Hl as (i & Hi & ->). vm_compute in Hi. exists i. split; [lia|]. left. by destruct i as [|[|[|[|i]]]]; [vm_compute|vm_compute|vm_compute|vm_compute|lia].
      - apply above_take in Hl as (i & Hi & ->). vm_compute in Hi. exists i. split; [lia|]. right; left. by destruct i as [|[|[|[|i]]]]; [vm_compute|vm_compute|vm_compute|vm_compute|lia].
      - exists 0. split; [lia|]. right; right. subst l. by vm_compute. }
    destruct Hi' as [-> |[-> | ->]]; [| |split; [by vm_compute|vm_compute; auto]]; (destruct i as [|[|[|[|i]]]]; [| | | |lia]); (split; [by vm_compute|vm_compute; auto]).
  - intros K%prefix_spec. by vm_compute in K.
  - by vm_compute.
  - by vm_compute in E.
Qed.
(** Claim: the state is kept wherever it is. *)
Definition C92_anywhere : Prop := forall f o f' g p, fs_ok f -> plain (buildroot o) -> names_file (state_file o) -> plain (state_file o) ->
  names_file (log_file o) -> plain (log_file o) -> create_buildroot f o = Some f' -> load_configuration f' o = Some (g, p) ->
  o_rebuild o = false -> o_configure o = false -> stat g (state_file o) = stat f (state_file o).
(** It is lost in the temporary directory, and it is emptied where the log is. *)
Theorem C92_anywhere_refuted : ~ C92_anywhere.
Proof.
  intros H. set (f := ex_tree [([text "w"; text "build"], FDir); ([text "w"; text "build"; text ".tmp"], FDir); ([text "w"; text "build"; text ".tmp"; text "s"], FFile 5)]).
  set (o := ex_options (Some (text ".tmp/s")) (text "log") false).
  destruct (create_buildroot f o) as [f'|] eqn:E; [|by vm_compute in E].
  assert (stat f' (state_file o) = stat f (state_file o)) as K; [|vm_compute in E; injection E as <-; by vm_compute in K].
  apply (H f o f' f' (state_file o)).
  - by apply fs_check; vm_compute.
  - by apply plain_b; vm_compute.
  - by apply names_file_b; vm_compute.
  - by apply plain_b; vm_compute.
  - by apply names_file_b; vm_compute.
  - by apply plain_b; vm_compute.
  - exact E.
  - reflexivity.
  - reflexivity.
  - reflexivity.
Qed.
(** Claim: engines do not share a state file. *)
Definition C92_shared : Prop := forall o o', o_state o = None -> o_state o' = None -> o_buildroot o = o_buildroot o' -> o_engine o <> o_engine o' -> state_file o <> state_file o'.
(** The engine cache, which keeps nothing, has that of pickle; --rebuild removes it. *)
Theorem C92_shared_refuted : ~ C92_shared.
Proof.
  intros H. apply (H (Options (text "build") None Pickle (text "log") false false) (Options (text "build") None CacheEngine (text "log") false false)); done.
Qed.

(** *** Examples *)
Definition ex_before : fs := ex_tree [([text "w"; text "build"], FDir); ([text "w"; text "build"; text "fbuild-state.db"], FFile 5); ([text "w"; text "build"; text "a.o"], FFile 6);
  ([text "w"; text "build"; text ".tmp"], FDir); ([text "w"; text "build"; text ".tmp"; text "x"], FFile 9)].
Definition show (o : option fs) (ps : list str) : option (list (option fnode)) := option_map (fun f => map (stat f) ps) o.
Definition ex_paths : list str := map text ["a.c"; "build"; "build/fbuild-state.db"; "build/a.o"; "build/.tmp"; "build/.tmp/x"; "build/fbuild.log"].
(** A second build, ... *)
Example C92_example : let o := ex_options None (text "fbuild.log") false in
  show (create_buildroot ex_before o) ex_paths = Some [Some (FFile 7); Some FDir; Some (FFile 5); Some (FFile 6); Some FDir; None; Some (FFile 0)] /\
  show (clean ex_before o) ex_paths = Some [Some (FFile 7); None; None; None; None; None; None].
Proof. by vm_compute. Qed.
(** ... a first one with a state elsewhere, and one that rebuilds everything. *)
Example C92_example_first :
  show (create_buildroot (ex_tree []) (ex_options (Some (text "/w/db/./s")) (text "fbuild.log") false)) (map text ["db"; "db/s"; "build"; "build/.tmp"]) =
    Some [Some FDir; None; Some FDir; Some FDir] /\
  show (option_map fst (load_configuration ex_before (ex_options None (text "fbuild.log") true))) ex_paths =
    Some [Some (FFile 7); Some FDir; None; Some (FFile 6); Some FDir; Some (FFile 9); None].
Proof. by vm_compute. Qed.
(** The hypotheses can be met. *)
Example C92_example_hyps : let o := ex_options None (text "fbuild.log") false in
  fs_ok ex_before /\ o_buildroot o <> [] /\ plain (buildroot o) /\ names_file (state_file o) /\ plain (state_file o) /\ names_file (log_file o) /\ plain (log_file o) /\
  names_file (buildroot o) /\ ~ inside (leads (fs_cwd ex_before) (buildroot o)) (fs_cwd ex_before) /\ (exists f', create_buildroot ex_before o = Some f') /\
  ~ inside (leads (fs_cwd ex_before) (tmpdir o)) (leads (fs_cwd ex_before) (log_file o)) /\ ~ inside (leads (fs_cwd ex_before) (tmpdir o)) (leads (fs_cwd ex_before) (state_file o)).
Proof.
  intros o. split_and!; try done; try (by apply fs_check; vm_compute); try (by apply plain_b; vm_compute); try (by apply names_file_b; vm_compute);
    try (intros K%prefix_spec; by vm_compute in K).
  destruct (create_buildroot ex_before o) eqn:E; [eauto|by vm_compute in E].
Qed.
Example C92_example_succeeds : exists f', create_buildroot (ex_tree []) (ex_options None (text "fbuild.log") false) = Some f'.
Proof.
  apply C92_succeeds; try done; try (by apply fs_check; vm_compute); try (by apply plain_b; vm_compute); try (by apply names_file_b; vm_compute).
  - intros l Hl. assert (exists i, i <= 3 /\ l = take i [text "w"; text "build"; text ".tmp"]) as (i & Hi & ->).
    { destruct Hl as [Hl|[Hl|Hl]].
      - apply inside_take in Hl as (i & Hi & ->). vm_compute in Hi. exists i. split; [lia|]. by destruct i as [|[|[|i]]]; [vm_compute|vm_compute|vm_compute|lia].
      - apply above_take in Hl as (i & Hi & ->). vm_compute in Hi. exists i. split; [lia|]. by destruct i as [|[|[|i]]]; [vm_compute|vm_compute|vm_compute|lia].
      - exists 3. split; [lia|]. subst l. by vm_compute. }
    destruct i as [|[|[|[|i]]]]; [| | | |lia]; (split; [by vm_compute|vm_compute; auto]).
  - intros K%prefix_spec. by vm_compute in K.
  - exists [text "w"; text "build"], (text "fbuild.log"). split; [done|]. right. by exists [].
Qed.

Print Assumptions C92_places.
Print Assumptions C92_created.
Print Assumptions C92_succeeds.
Print Assumptions C92_loaded.
Print Assumptions C92_kept.
Print Assumptions C92_engines.
Print Assumptions C92_cleaned.
Print Assumptions C92_log_refuted.
Print Assumptions C92_anywhere_refuted.
Print Assumptions C92_shared_refuted.
