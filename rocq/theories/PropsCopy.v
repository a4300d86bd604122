(** C74: copying and moving files. *)
From stdpp Require Import base list gmap.
From Coq Require Import NArith Lia String.
From Verif Require GlobPaths.
From Verif Require Import FnModel PathModel PathSpec PathFacts CopyModel CopySpec CopyFacts CopyMake.
Local Open Scope nat_scope.

(** C74.  When copy returns [p], [src] names a file, with that content before and after; the copy is at [q],
    which is [p] unless [p] is a directory; besides the copy there are only new directories, and nothing else has
    changed.  [p] is [dst] below the build root, or the entry of the name of [src] in it if it is a directory or
    ends in a slash. *)
Theorem C74_copied root f src dst f' p : fs_ok f -> copy root f src dst = Some (f', p) ->
  exists c w q, stat f' src = Some (FFile c) /\ (stat f src = None \/ stat f src = Some (FFile c)) /\
    resolve f' q = Some w /\ resolve f' src <> Some w /\ changes (fun _ => False) w c f f' /\ fs_ok f' /\
    (q = p \/ isdir f' p = true /\ q = pjoin p (basename src)) /\
    (p = addroot dst root \/
     p = pjoin (addroot dst root) (basename src) /\ (isdir f (addroot dst root) = true \/ ends_sep (addroot dst root) = true)).
Proof.
  intros Hf H. destruct (copy_spec root f src dst f' p Hf H) as (c & ls & l & q & H1 & H2 & H3 & H4 & H5 & H6 & H7 & H8).
  assert (tree f' !! ls = Some (FFile c)) as Hs by (destruct H4 as (_ & _ & _ & _ & H4 & _); apply H4; [done|by intros []|done]).
  exists c, l, q. split_and!; try done.
  - unfold stat. by rewrite H2.
  - unfold stat. destruct (resolve f src) as [l1|] eqn:E; [|by left]. right.
    assert (extends f f') as He.
    { destruct H4 as (G1 & G2 & G3 & _ & G4 & _). split; [done|]. split.
      - intros l2 Hl2. apply G4; [congruence|by intros []|done].
      - intros l2 [n Hn]. destruct (decide (l2 = l)) as [->|Hne]; [rewrite G2; eauto|rewrite (G4 l2 n Hne ltac:(by intros []) Hn); eauto]. }
    pose proof (resolve_extends f f' src l1 He E). congruence.
  - congruence.
Qed.
(** The pathname returned is that of the copy unless it is that of a directory. *)
Theorem C74_returned_partial root f src dst f' p : fs_ok f -> copy root f src dst = Some (f', p) -> isdir f' p = false ->
  exists c, stat f' src = Some (FFile c) /\ stat f' p = Some (FFile c).
Proof.
  intros Hf H Hd. destruct (C74_copied root f src dst f' p Hf H) as (c & w & q & H1 & _ & H2 & _ & H3 & _ & [->|[? _]] & _); [|congruence].
  exists c. split; [done|]. unfold stat. rewrite H2. by destruct H3 as (_ & H3 & _).
Qed.

Theorem C74_moved root f src dst f' p : fs_ok f -> move root f src dst = Some (f', p) ->
  exists c s w q, tree f !! s = Some (FFile c) /\ (resolve f src = None \/ resolve f src = Some s) /\
    resolve f' q = Some w /\ changes (fun l => l = s) w c f f' /\ fs_ok f' /\
    (q = p \/ isdir f' p = true /\ q = pjoin p (basename (match rstrip src with [] => src | s => s end))) /\
    (p = addroot dst root \/
     p = pjoin (addroot dst root) (basename src) /\ (isdir f (addroot dst root) = true \/ ends_sep (addroot dst root) = true)).
Proof.
  intros Hf H. destruct (move_spec root f src dst f' p Hf H) as (c & ls & l & q & H1 & H2 & H3 & H4 & H5 & H6 & H7).
  exists c, ls, l, q. split_and!; try done. destruct H2; auto.
Qed.

(** Copies of files are made where nothing is in the way: to a file that may or may not exist, ... *)
Theorem C74_succeeds root f src dst b xs x c s : fs_ok f -> base f b -> Forall regular (xs ++ [x]) -> down b xs <> [] -> clear f b xs ->
  addroot dst root = down b (xs ++ [x]) -> resolve f src = Some s -> stat f src = Some (FFile c) ->
  isdir f (addroot dst root) = false -> resolve f (addroot dst root) <> Some s ->
  exists f', copy root f src dst = Some (f', addroot dst root) /\ stat f' (addroot dst root) = Some (FFile c).
Proof.
  intros Hf [Hb Ht] Hx Hne Hc Hp Hs Hst Hd Hn. rewrite Hp in *.
  assert (exists lb, dirat f b = Some lb /\ tree f !! lb = Some FDir) as (lb & Hr & Hlb).
  { destruct Hb as [->|Hb]; [exists (fs_cwd f); split; [done|apply (ok_cwd f Hf)]|]. unfold isdir, stat in Hb.
    destruct (resolve f b) as [lb|] eqn:E; [|done]. exists lb. split; [by apply dirat_some|]. by destruct (tree f !! lb) as [[|]|]. }
  pose proof Hx as Hx'. apply Forall_app in Hx as [Hxs Hx]. apply Forall_cons in Hx as [Hx _].
  assert (tree f !! s = Some (FFile c)) as Hsc by (unfold stat in Hst; by rewrite Hs in Hst).
  assert (forall i, tree f !! (lb ++ take i xs) = None \/ tree f !! (lb ++ take i xs) = Some FDir) as Hc'.
  { intros i. assert (Forall regular (take i xs)) as Hti by (by apply Forall_take). destruct (stat_down f b lb (take i xs) Hf Hr Hlb Hti) as [H1 _].
    destruct (down b (take i xs)) as [|z d] eqn:E.
    - right. destruct (take i xs) as [|y ys _] using rev_ind; [by rewrite app_nil_r|]. rewrite down_snoc in E.
      apply Forall_app in Hti as [_ Hy]. apply Forall_cons in Hy as [Hy _]. destruct (join_nonempty (down b ys) y Hy) as (? & ? & ?). congruence.
    - rewrite <- E in H1. rewrite <- (H1 ltac:(by rewrite E)). apply Hc. }
  assert (down b (xs ++ [x]) <> []) as Hne'. { rewrite down_snoc. destruct (join_nonempty (down b xs) x Hx) as (? & ? & ->). done. }
  destruct (stat_down f b lb _ Hf Hr Hlb Hx') as [Hw1 Hw2]. specialize (Hw1 Hne').
  assert (tree f !! (lb ++ xs ++ [x]) <> Some FDir) as Hnd. { unfold isdir in Hd. rewrite Hw1 in Hd. intros E. by rewrite E in Hd. }
  assert (lb ++ xs ++ [x] <> s) as Hns.
  { intros <-. apply Hn. rewrite <- (dirat_ne f _ Hne'). apply Hw2. rewrite Hsc. eauto. }
  assert (forall g, fs_ok g -> only_new_dirs f g -> tree g !! (lb ++ xs) = Some FDir -> tree g !! (lb ++ xs ++ [x]) <> Some FDir ->
    sh_copy g src (down b (xs ++ [x])) = Some (set g (lb ++ xs ++ [x]) (FFile c)) /\
    stat (set g (lb ++ xs ++ [x]) (FFile c)) (down b (xs ++ [x])) = Some (FFile c)) as Hcopy.
  { intros g Hg Ho Hgx Hgn. pose proof (only_new_extends _ _ Ho) as He.
    pose proof (dirat_extends f g b lb He Hr) as Hrg. assert (tree g !! lb = Some FDir) as Hlg by (by apply Ho).
    destruct (stat_down g b lb xs Hg Hrg Hlg Hxs) as [_ Hgd]. specialize (Hgd ltac:(rewrite Hgx; eauto)).
    split.
    - rewrite (app_assoc lb xs [x]). rewrite (app_assoc lb xs [x]) in Hgn, Hns.
      apply (copy_to g src _ s c (lb ++ xs) x (down b xs) Hg); try done.
      + by apply (resolve_extends f).
      + by apply Ho.
      + apply down_snoc.
    - set (h := set g (lb ++ xs ++ [x]) (FFile c)).
      assert (fs_ok h) as Hh.
      { unfold h. rewrite (app_assoc lb xs [x]). rewrite (app_assoc lb xs [x]) in Hgn.
        apply set_ok; [done|done|by apply regular_special|by destruct Hx as (_ & _ & _ & ?)|done]. }
      assert (extends g h) as Hgh by (apply set_extends; done).
      destruct (stat_down h b lb (xs ++ [x]) Hh (dirat_extends g h b lb Hgh Hrg)) as [Hr1 _]; [by apply Hgh|done|].
      rewrite (Hr1 Hne'). unfold h. cbn [set tree]. apply lookup_insert. }
  change (copy root f src dst) with
    (match prepared root f src dst with Some (f1, d) => option_map (fun f => (f, d)) (sh_copy f1 src d) | None => None end).
  unfold prepared. rewrite Hp. destruct (exists_ f (down b (xs ++ [x]))) eqn:Ex; cbn [negb].
  - rewrite Hd. assert (tree f !! (lb ++ xs) = Some FDir) as Hup.
    { apply (ok_up f Hf _ x). rewrite <- app_assoc. unfold exists_ in Ex. rewrite Hw1 in Ex. destruct (tree f !! (lb ++ xs ++ [x])) eqn:E; [eauto|done]. }
    destruct (Hcopy f Hf (only_new_refl f) Hup Hnd) as [H1 H2]. rewrite H1. cbn [option_map]. eauto.
  - assert (ends_sep (down b (xs ++ [x])) = false) as ->. { rewrite down_snoc. apply GlobPaths.ends_sep_join, regular_name, Hx. }
    assert (dirname (down b (xs ++ [x])) = down b xs) as ->.
    { unfold dirname. rewrite down_snoc, GlobPaths.psplit_join; [done|by apply regular_name|by apply down_dir_text]. }
    destruct (makedirs_down b lb xs f Hf Hne Hr Hlb Ht Hxs Hc') as (f1 & Hm & M1 & M2 & M3 & M4). rewrite Hm. cbn [option_map].
    assert (tree f1 !! (lb ++ xs ++ [x]) <> Some FDir) as Hn1.
    { intros E. assert (tree f !! (lb ++ xs ++ [x]) = None) as E0.
      { unfold exists_ in Ex. rewrite Hw1 in Ex. by destruct (tree f !! (lb ++ xs ++ [x])). }
      destruct (M4 _ E0 ltac:(rewrite E; eauto)) as [i Hi]. apply app_inv_head in Hi.
      pose proof (f_equal (@List.length _) Hi) as Hl. rewrite app_length, take_length in Hl. change (List.length [x]) with 1 in Hl. pose proof (Nat.le_min_r i (List.length xs)). lia. }
    destruct (Hcopy f1 M2 M1 M3 Hn1) as [H1 H2]. rewrite H1. cbn [option_map]. eauto.
Qed.
(** ... to a directory that exists, ... *)
Theorem C74_into root f src dst c s : fs_ok f -> isdir f (addroot dst root) = true -> regular (basename src) ->
  resolve f src = Some s -> stat f src = Some (FFile c) ->
  isdir f (pjoin (addroot dst root) (basename src)) = false -> resolve f (pjoin (addroot dst root) (basename src)) <> Some s ->
  exists f', copy root f src dst = Some (f', pjoin (addroot dst root) (basename src)) /\
    stat f' (pjoin (addroot dst root) (basename src)) = Some (FFile c).
Proof.
  intros Hf Hd Hx Hs Hst Hnd Hn. assert (tree f !! s = Some (FFile c)) as Hsc by (unfold stat in Hst; by rewrite Hs in Hst).
  set (a := addroot dst root) in *. set (x := basename src : list N) in *.
  assert (exists la, resolve f a = Some la /\ tree f !! la = Some FDir) as (la & Hr & Hla).
  { unfold isdir, stat in Hd. destruct (resolve f a) as [la|]; [|done]. exists la. split; [done|]. by destruct (tree f !! la) as [[|]|]. }
  pose proof (dirat_some f a la Hr) as Hra. pose proof (resolve_join f a x la Hx Hra Hla) as Hj.
  assert (tree f !! (la ++ [x]) <> Some FDir) as Hnl.
  { intros E. rewrite E in Hj. unfold isdir, stat in Hnd. rewrite Hj in Hnd. by rewrite E in Hnd. }
  assert (la ++ [x] <> s) as Hns. { intros E. rewrite E in Hj. rewrite Hsc in Hj. done. }
  pose proof (copy_to f src (pjoin a x) s c la x a Hf Hs Hsc eq_refl Hx Hra Hla Hnl Hns) as Hcp.
  exists (set f (la ++ [x]) (FFile c)). split.
  - change (copy root f src dst) with
      (match prepared root f src dst with Some (f1, d) => option_map (fun f => (f, d)) (sh_copy f1 src d) | None => None end).
    unfold prepared. fold a. assert (exists_ f a = true) as ->. { unfold isdir, exists_ in *. by destruct (stat f a). }
    cbn [negb]. rewrite Hd, path_new_two. fold x. by rewrite Hcp.
  - assert (extends f (set f (la ++ [x]) (FFile c))) as He by (by apply set_extends).
    unfold stat. rewrite (resolve_join _ a x la Hx (dirat_extends _ _ _ _ He Hra)); [|by apply He].
    cbn [set tree]. rewrite lookup_insert. apply lookup_insert.
Qed.
(** ... and to one that does not, if a slash says that it is to be one. *)
Theorem C74_slash root f src dst b xs c s : fs_ok f -> base f b -> xs <> [] -> Forall regular xs -> clear f b xs ->
  addroot dst root = down b xs ++ [c_sep] -> exists_ f (addroot dst root) = false -> regular (basename src) ->
  resolve f src = Some s -> stat f src = Some (FFile c) ->
  exists f', copy root f src dst = Some (f', pjoin (addroot dst root) (basename src)) /\
    stat f' (pjoin (addroot dst root) (basename src)) = Some (FFile c).
Proof.
  intros Hf [Hb Ht] Hxs0 Hxs Hc Hp Hex Hx Hs Hst. assert (tree f !! s = Some (FFile c)) as Hsc by (unfold stat in Hst; by rewrite Hs in Hst).
  assert (exists lb, dirat f b = Some lb /\ tree f !! lb = Some FDir) as (lb & Hr & Hlb).
  { destruct Hb as [->|Hb]; [exists (fs_cwd f); split; [done|apply (ok_cwd f Hf)]|]. unfold isdir, stat in Hb.
    destruct (resolve f b) as [lb|] eqn:E; [|done]. exists lb. split; [by apply dirat_some|]. by destruct (tree f !! lb) as [[|]|]. }
  assert (forall i, tree f !! (lb ++ take i xs) = None \/ tree f !! (lb ++ take i xs) = Some FDir) as Hc'.
  { intros i. assert (Forall regular (take i xs)) as Hti by (by apply Forall_take). destruct (stat_down f b lb (take i xs) Hf Hr Hlb Hti) as [H1 _].
    destruct (down b (take i xs)) as [|z d] eqn:E.
    - right. destruct (take i xs) as [|y ys _] using rev_ind; [by rewrite app_nil_r|]. rewrite down_snoc in E.
      apply Forall_app in Hti as [_ Hy]. apply Forall_cons in Hy as [Hy _]. destruct (join_nonempty (down b ys) y Hy) as (? & ? & ?). congruence.
    - rewrite <- E in H1. rewrite <- (H1 ltac:(by rewrite E)). apply Hc. }
  destruct (makedirs_slash b lb xs f Hf Hxs0 Hr Hlb Ht Hxs Hc') as (f1 & Hm & M1 & M2 & M3 & M4).
  assert (down b xs <> []) as Hne.
  { destruct xs as [|y ys _] using rev_ind; [done|]. rewrite down_snoc. apply Forall_app in Hxs as [_ Hy]. apply Forall_cons in Hy as [Hy _].
    destruct (join_nonempty (down b ys) y Hy) as (? & ? & ->). done. }
  assert (tree f !! (lb ++ xs) = None) as Hnew.
  { destruct (Hc' (List.length xs)) as [E|E]; rewrite firstn_all in E; [done|]. exfalso. rewrite Hp in Hex. unfold exists_ in Hex.
    destruct (stat_down f b lb xs Hf Hr Hlb Hxs) as [H1 _]. rewrite (stat_slash f _ Hne), (H1 Hne) in Hex. by rewrite E in Hex. }
  pose proof (only_new_extends _ _ M1) as He. set (x := basename src : list N) in *.
  assert (resolve f1 (down b xs ++ [c_sep]) = Some (lb ++ xs)) as Hr1.
  { destruct (stat_down f1 b lb xs M2 (dirat_extends _ _ _ _ He Hr)) as [_ H2]; [by apply M1|done|].
    specialize (H2 ltac:(rewrite M3; eauto)). rewrite (dirat_ne _ _ Hne) in H2. unfold resolve, origin in *.
    destruct (down b xs) as [|z d]; [done|]. change ((z :: d) ++ [c_sep]) with (z :: d ++ [c_sep]). cbv iota.
    change (z :: d ++ [c_sep]) with ((z :: d) ++ [c_sep]). rewrite isabs_app by done. rewrite names_slash, walk_last, H2. by rewrite M3. }
  assert (tree f1 !! ((lb ++ xs) ++ [x]) = None) as Hnx.
  { destruct (tree f1 !! ((lb ++ xs) ++ [x])) eqn:E; [|done]. exfalso.
    assert (tree f !! ((lb ++ xs) ++ [x]) = None) as E0.
    { destruct (tree f !! ((lb ++ xs) ++ [x])) eqn:E1; [|done]. exfalso. pose proof (ok_up f Hf (lb ++ xs) x ltac:(rewrite E1; eauto)). congruence. }
    destruct (M4 _ E0 ltac:(rewrite E; eauto)) as [i Hi]. rewrite <- app_assoc in Hi. apply app_inv_head in Hi.
    pose proof (f_equal (@List.length _) Hi) as Hl. rewrite app_length, take_length in Hl. change (List.length [x]) with 1 in Hl. pose proof (Nat.le_min_r i (List.length xs)). lia. }
  assert ((lb ++ xs) ++ [x] <> s) as Hns. { intros E. rewrite E in Hnx. assert (tree f1 !! s = Some (FFile c)) as E2 by (by apply M1). congruence. }
  pose proof (dirat_some _ _ _ Hr1) as Hd1.
  pose proof (copy_to f1 src (pjoin (down b xs ++ [c_sep]) x) s c (lb ++ xs) x (down b xs ++ [c_sep]) M2 (resolve_extends _ _ _ _ He Hs) ltac:(by apply M1)
    eq_refl Hx Hd1 M3 ltac:(by rewrite Hnx) Hns) as Hcp.
  exists (set f1 ((lb ++ xs) ++ [x]) (FFile c)). split.
  - change (copy root f src dst) with
      (match prepared root f src dst with Some (f1, d) => option_map (fun f => (f, d)) (sh_copy f1 src d) | None => None end).
    unfold prepared. rewrite Hex. cbn [negb]. rewrite Hp. rewrite ends_sep_snoc. change (is_sep c_sep) with true. cbv iota.
    rewrite Hm. cbn [option_map]. rewrite path_new_two. fold x. by rewrite Hcp.
  - rewrite Hp. assert (extends f1 (set f1 ((lb ++ xs) ++ [x]) (FFile c))) as He2 by (apply set_extends; by rewrite Hnx).
    unfold stat. rewrite (resolve_join _ (down b xs ++ [c_sep]) x (lb ++ xs) Hx (dirat_extends _ _ _ _ He2 Hd1)); [|by apply He2].
    cbn [set tree]. rewrite lookup_insert. apply lookup_insert.
Qed.

(** What is returned lies below the build root. *)
Lemma stays_snoc cs : forall d t, str_eqb t dotdot = false -> stays d cs = true -> stays d (cs ++ [t]) = true.
Proof.
  induction cs as [|c cs IH]; intros d t Ht; cbn [app stays]; [by rewrite Ht|].
  destruct (str_eqb c dotdot); [destruct d; [done|]|]; by apply IH.
Qed.
Theorem C74_below root f src dst f' p : fs_ok f -> copy root f src dst = Some (f', p) -> placeable root dst -> below root p.
Proof.
  intros Hf H Hp. pose proof (addroot_below root dst Hp) as Hb.
  destruct (copy_spec root f src dst f' p Hf H) as (c & ls & l & q & H1 & H2 & Hne & Hch & _ & Hf' & _ & [->|[-> _]]); [done|].
  assert (basename src <> dotdot) as Hdd.
  { (* .. is not a file *)
    intros E. unfold basename in E. rewrite psplit_snd in E. destruct (cut src) as [h t] eqn:Ec. cbn in E. subst t.
    destruct (cut_spec src h dotdot Ec) as (Hs & _ & Hd). unfold resolve in H2. destruct src as [|z src0] eqn:Esrc; [done|].
    assert (exists ns, names (z :: src0) = ns ++ [dotdot]) as [ns Hns].
    { rewrite Hs. destruct Hd as [->|[h' ->]]; [by exists []|]. rewrite <- app_assoc. cbn [app]. exists (names h'). by rewrite names_app. }
    rewrite Hns, walk_app in H2. destruct (walk f' _ ns) as [l0|]; [|done]. cbn [walk] in H2.
    destruct (enter f' l0 dotdot) as [l1|] eqn:Ee; [|done]. injection H2 as ->.
    pose proof (enter_special f' l0 dotdot ls Hf' eq_refl Ee) as Hls.
    assert (tree f' !! ls = Some (FFile c)) as Hlc by (destruct Hch as (_ & _ & _ & _ & Hch & _); apply Hch; [done|by intros []|done]). congruence. }
  destruct Hb as [Hb1 (cs & Hb2 & Hb3)]. pose proof (isabs_base src) as Hr. fold (basename src) in Hr.
  assert (~ List.In c_sep (basename src)) as Hns.
  { unfold basename. rewrite psplit_snd. destruct (cut src) as [h t] eqn:E. cbn. apply (cut_spec src h t E). }
  destruct (addroot dst root) as [|a0 a] eqn:Ea.
  { exfalso. destruct Hp as [Hp _]. pose proof (addroot_starts dst root) as Hst. rewrite Ea in Hst.
    destruct (startswith_true _ _ Hst) as [t Ht]. destruct root; done. }
  rewrite <- Ea in *. destruct (pjoin_rel (addroot dst root) (basename src) Hr ltac:(by rewrite Ea)) as (s & -> & Hd & Hs).
  split.
  - destruct Hs as [->| ->]; rewrite <- ?app_assoc; rewrite isabs_app; try done; by rewrite Ea.
  - rewrite (components_dirlike s (basename src) Hd). assert (components s = components (addroot dst root)) as ->.
    { destruct Hs as [->| ->]; [done|apply components_add_sep]. }
    exists (cs ++ components (basename src)). split; [by rewrite Hb2, app_assoc|].
    unfold components. rewrite (names_nosep _ Hns). cbn [List.filter]. destruct (counts (basename src)); [|by rewrite app_nil_r].
    apply stays_snoc; [|done]. destruct (str_eqb (basename src) dotdot) eqn:E; [|done]. apply str_eqb_true in E. done.
Qed.

(** *** Where it fails *)
(** Trees given entry by entry. *)
Definition fs_okb (f : fs) : bool :=
  bool_decide (tree f !! [] = Some FDir) && bool_decide (tree f !! fs_cwd f = Some FDir) &&
  forallb (fun e => match fst e with
                    | [] => true
                    | _ => bool_decide (tree f !! removelast (fst e) = Some FDir) &&
                           negb (special (List.last (fst e) [])) && forallb (fun c => negb (is_sep c)) (List.last (fst e) [])
                    end) (map_to_list (tree f)).
Lemma fs_check f : fs_okb f = true -> fs_ok f.
Proof.
  unfold fs_okb. rewrite !andb_true_iff, forallb_forall. intros [[H1 H2] H3].
  apply bool_decide_eq_true in H1. apply bool_decide_eq_true in H2.
  assert (forall l x, is_Some (tree f !! (l ++ [x])) -> tree f !! l = Some FDir /\ special x = false /\ ~ List.In c_sep x) as H.
  { intros l x [n Hn]. apply elem_of_map_to_list in Hn. apply elem_of_list_In in Hn. specialize (H3 _ Hn). cbn [fst] in H3.
    destruct (l ++ [x]) as [|y ys] eqn:E; [by destruct l|]. rewrite <- E in H3. rewrite removelast_last, last_last in H3.
    rewrite !andb_true_iff, negb_true_iff in H3. destruct H3 as [[A B] C]. apply bool_decide_eq_true in A. split; [done|]. split; [done|].
    intros Hi. rewrite forallb_forall in C. specialize (C _ Hi). done. }
  split; [done| | |done].
  - intros l x Hl. by apply (H l x).
  - intros l x Hl. destruct (H l x Hl) as (_ & A & B). apply special_false_iff in A. tauto.
Qed.

Definition text (s : string) : list N := map (fun c => Ascii.N_of_ascii c) (list_ascii_of_string s).
Definition ex_tree (more : list (loc * fnode)) : fs :=
  Fs (list_to_map (more ++ [([], FDir); ([text "w"], FDir); ([text "w"; text "src"], FDir); ([text "w"; text "src"; text "a.c"], FFile 7)])) [text "w"].

(** Claim: what is returned is the pathname of the copy. *)
Definition C74_returned : Prop := forall root f src dst f' p, fs_ok f -> copy root f src dst = Some (f', p) -> exists c, stat f' src = Some (FFile c) /\ stat f' p = Some (FFile c).
(** It is not if the directory copied to has a directory of the name of the file: the copy goes into the latter. *)
Theorem C74_returned_refuted : ~ C74_returned.
Proof.
  intros H. set (f := ex_tree [([text "w"; text "build"], FDir); ([text "w"; text "build"; text "a.c"], FDir)]).
  destruct (copy (text "build") f (text "src/a.c") (text "build")) as [[f' p]|] eqn:E; [|by vm_compute in E].
  destruct (H (text "build") f (text "src/a.c") (text "build") f' p) as (c & _ & Hc); [by apply fs_check; vm_compute|done|].
  vm_compute in E. injection E as <- <-. by vm_compute in Hc.
Qed.

(** Claim: an existing file can be copied to any relative pathname at which there is nothing. *)
Definition C74_always : Prop := forall root f src dst c, fs_ok f -> stat f src = Some (FFile c) -> isdir f root = true ->
  isabs dst = false -> dst <> [] -> ends_sep dst = false -> stays 0 (components dst) = true -> exists_ f dst = false ->
  exists f' p, copy root f src dst = Some (f', p).
(** It cannot if the pathname begins like the name of the build root but is not below it: that is taken to be below it
    already, and the empty pathname of its directory cannot be made. *)
Theorem C74_always_refuted : ~ C74_always.
Proof.
  intros H. set (f := ex_tree [([text "w"; text "build"], FDir)]).
  destruct (H (text "build") f (text "src/a.c") (text "build.txt") 7%N) as (f' & p & E); try by vm_compute.
  by apply fs_check; vm_compute.
Qed.

(** *** Examples *)
(** Directories are made; a second copy goes over the first; a directory to copy into. *)
Definition ex_fs : fs := ex_tree [].
Example C74_example : exists f' f'',
  copy (text "build") ex_fs (text "src/a.c") (text "out/b.c") = Some (f', text "build/out/b.c") /\
  stat f' (text "build/out/b.c") = Some (FFile 7) /\ isdir f' (text "build/out") = true /\
  copy (text "build") f' (text "build/out/b.c") (text "inc/") = Some (f'', text "build/inc/b.c") /\
  stat f'' (text "/w/build/inc/b.c") = Some (FFile 7).
Proof.
  destruct (copy (text "build") ex_fs (text "src/a.c") (text "out/b.c")) as [[f' p]|] eqn:E; [|by vm_compute in E].
  destruct (copy (text "build") f' (text "build/out/b.c") (text "inc/")) as [[f'' p']|] eqn:E'; [|vm_compute in E; injection E as <- <-; by vm_compute in E'].
  exists f', f''. vm_compute in E. injection E as <- <-. vm_compute in E'. injection E' as <- <-. repeat split; by vm_compute.
Qed.
Lemma regular_b (x : list N) : negb (special x) && forallb (fun c => negb (is_sep c)) x = true -> regular x.
Proof.
  rewrite andb_true_iff, negb_true_iff. intros [A B]. apply special_false_iff in A. split; [apply A|]. split; [apply A|]. split; [apply A|].
  intros Hi. rewrite forallb_forall in B. by specialize (B _ Hi).
Qed.
Example C74_example_succeeds : exists f', copy (text "build") ex_fs (text "src/a.c") (text "out/b.c") = Some (f', addroot (text "out/b.c") (text "build")) /\
  stat f' (addroot (text "out/b.c") (text "build")) = Some (FFile 7).
Proof.
  apply (C74_succeeds (text "build") ex_fs (text "src/a.c") (text "out/b.c") [] [text "build"; text "out"] (text "b.c") 7%N [text "w"; text "src"; text "a.c"]);
    try by vm_compute.
  - by apply fs_check; vm_compute.
  - split; by left.
  - repeat (apply List.Forall_cons || apply List.Forall_nil); by apply regular_b.
  - intros [|[|[|i]]]; left; by vm_compute.
Qed.
Example C74_example_into : exists f',
  copy (text "src") ex_fs (text "./src/../src/a.c") (text "src/..") = Some (f', text "src/../a.c") /\ stat f' (text "a.c") = Some (FFile 7).
Proof.
  destruct (C74_into (text "src") ex_fs (text "./src/../src/a.c") (text "src/..") 7%N [text "w"; text "src"; text "a.c"]) as (f' & H & _); try by vm_compute.
  - by apply fs_check; vm_compute.
  - by apply regular_b.
  - exists f'. split; [exact H|]. vm_compute in H. injection H as <-. by vm_compute.
Qed.
Example C74_example_slash : exists f', copy (text "build") ex_fs (text "src/a.c") (text "inc/sys/") = Some (f', text "build/inc/sys/a.c").
Proof.
  destruct (C74_slash (text "build") ex_fs (text "src/a.c") (text "inc/sys/") [] [text "build"; text "inc"; text "sys"] 7%N [text "w"; text "src"; text "a.c"]) as (f' & H & _);
    try by vm_compute.
  - by apply fs_check; vm_compute.
  - split; by left.
  - repeat (apply List.Forall_cons || apply List.Forall_nil); by apply regular_b.
  - intros [|[|[|[|i]]]]; left; by vm_compute.
  - by apply regular_b.
  - exists f'. exact H.
Qed.
(** A file that is moved is gone, so it cannot be moved again; here over another file. *)
Example C74_example_moved : exists f', move (text "build") (ex_tree [([text "w"; text "build"], FDir); ([text "w"; text "build"; text "b.c"], FFile 8)])
    (text "src/a.c") (text "b.c") = Some (f', text "build/b.c") /\ stat f' (text "build/b.c") = Some (FFile 7) /\ stat f' (text "src/a.c") = None /\
  move (text "build") f' (text "src/a.c") (text "b.c") = None.
Proof.
  match goal with |- exists f', ?m = _ /\ _ => destruct m as [[f' p]|] eqn:E; [|by vm_compute in E] end.
  exists f'. vm_compute in E. injection E as <- <-. repeat split; by vm_compute.
Qed.
Print Assumptions C74_copied.
Print Assumptions C74_returned_partial.
Print Assumptions C74_moved.
Print Assumptions C74_succeeds.
Print Assumptions C74_into.
Print Assumptions C74_slash.
Print Assumptions C74_below.
Print Assumptions C74_returned_refuted.
Print Assumptions C74_always_refuted.
