(** Proofs about copying and moving. *)
From stdpp Require Import base list gmap.
From Coq Require Import NArith Lia.
From Verif Require GlobPaths.
From Verif Require Import FnModel PathModel PathSpec PathFacts CopyModel CopySpec.
Local Open Scope nat_scope.

Lemma names_nosep_in p : forall x, List.In x (names p) -> ~ List.In c_sep x.
Proof.
  induction p as [|c p IH]; intros x; cbn [names].
  - intros [<-|[]] [].
  - destruct (is_sep c) eqn:E.
    + intros [<-|H]; [intros []|exact (IH x H)].
    + destruct (names p) as [|n ns] eqn:En; [exfalso; exact (names_nonnil p En)|].
      intros [<-|H] Hi.
      * destruct Hi as [->|Hi]; [done|]. exact (IH n (or_introl eq_refl) Hi).
      * exact (IH x (or_intror H) Hi).
Qed.
Lemma names_split p : names p = removelast (names p) ++ [List.last (names p) []].
Proof. apply app_removelast_last, names_nonnil. Qed.

Lemma special_false x : special x = false -> str_eqb x [] = false /\ str_eqb x n_dot = false /\ str_eqb x n_dotdot = false.
Proof. unfold special. rewrite !orb_false_iff. tauto. Qed.
Lemma special_false_iff x : special x = false <-> x <> [] /\ x <> [c_dot] /\ x <> [c_dot; c_dot].
Proof.
  split.
  - intros (A & B & C)%special_false. repeat split; by apply str_eqb_false.
  - intros (A & B & C). unfold special. rewrite !orb_false_iff.
    repeat split; (destruct (str_eqb x _) eqn:E; [apply str_eqb_true in E; done|done]).
Qed.
Lemma enter_normal f (l : loc) (x : list N) : special x = false -> enter f l x =
  match tree f !! l with Some FDir => match tree f !! (l ++ [x]) with Some _ => Some (l ++ [x]) | None => None end | _ => None end.
Proof.
  intros (A & B & C)%special_false. unfold enter. rewrite A, B, C. cbn [orb]. by destruct (tree f !! l) as [[]|].
Qed.
Lemma enter_special f l x l' : fs_ok f -> special x = true -> enter f l x = Some l' -> tree f !! l' = Some FDir.
Proof.
  intros Hf Hs. unfold enter. destruct (tree f !! l) as [[|]|] eqn:E; try done.
  destruct (str_eqb x [] || str_eqb x n_dot) eqn:E1; [by intros [= <-]|].
  unfold special in Hs. rewrite E1 in Hs. cbn [orb] in Hs. rewrite Hs. intros [= <-].
  destruct l as [|a l _] using rev_ind; [done|]. rewrite removelast_last. apply (ok_up f Hf l a). rewrite E. eauto.
Qed.
Lemma enter_dir f l x l' : enter f l x = Some l' -> tree f !! l = Some FDir.
Proof. unfold enter. by destruct (tree f !! l) as [[|]|]. Qed.

(** Resolution does not change when the tree grows. *)
Definition extends (f f' : fs) : Prop :=
  fs_cwd f' = fs_cwd f /\ (forall l, tree f !! l = Some FDir -> tree f' !! l = Some FDir) /\
  (forall l, is_Some (tree f !! l) -> is_Some (tree f' !! l)).
Lemma enter_extends f f' l x l' : extends f f' -> enter f l x = Some l' -> enter f' l x = Some l'.
Proof.
  intros (_ & H1 & H2). unfold enter. destruct (tree f !! l) as [[|]|] eqn:E; try done. rewrite (H1 l E).
  destruct (str_eqb x [] || str_eqb x n_dot); [done|]. destruct (str_eqb x n_dotdot); [done|].
  destruct (tree f !! (l ++ [x])) eqn:E2; [|done]. destruct (H2 (l ++ [x])) as [n ->]; [by rewrite E2|done].
Qed.
Lemma walk_extends f f' xs : extends f f' -> forall l l', walk f l xs = Some l' -> walk f' l xs = Some l'.
Proof.
  intros H. induction xs as [|x xs IH]; intros l l'; [done|]. cbn [walk]. destruct (enter f l x) as [m|] eqn:E; [|done].
  rewrite (enter_extends f f' l x m H E). apply IH.
Qed.
Lemma resolve_extends f f' p l : extends f f' -> resolve f p = Some l -> resolve f' p = Some l.
Proof.
  intros H. unfold resolve. destruct p; [done|]. unfold origin. rewrite (proj1 H). by apply walk_extends.
Qed.
Lemma walk_app f a b : forall l, walk f l (a ++ b) = match walk f l a with Some l' => walk f l' b | None => None end.
Proof. induction a as [|x a IH]; intros l; [done|]. cbn. destruct (enter f l x); [apply IH|done]. Qed.
Lemma only_new_extends f f' : only_new_dirs f f' -> extends f f'.
Proof. intros (H1 & H2 & _). split; [done|]. split; [intros l; apply H2|]. intros l [n Hn]. rewrite (H2 l n Hn). eauto. Qed.
Lemma only_new_refl f : only_new_dirs f f.
Proof. split; [done|]. split; [done|auto]. Qed.
Lemma only_new_trans f g h : only_new_dirs f g -> only_new_dirs g h -> only_new_dirs f h.
Proof.
  intros (A1 & A2 & A3) (B1 & B2 & B3). split; [congruence|]. split; [auto|].
  intros l Hl. destruct (A3 l Hl) as [H|H]; [exact (B3 l H)|]. right. apply B2, H.
Qed.

(** Nor does the way to a directory or to an entry of one as long as directories stay. *)
Definition keeps (f f' : fs) : Prop := fs_cwd f' = fs_cwd f /\ (forall l, tree f !! l = Some FDir -> tree f' !! l = Some FDir).
Lemma extends_keeps f f' : extends f f' -> keeps f f'.
Proof. intros (H1 & H2 & _). done. Qed.
Lemma walk_dirs f f' xs : keeps f f' -> forall l l', walk f l xs = Some l' -> tree f !! l' = Some FDir -> walk f' l xs = Some l'.
Proof.
  intros [_ H]. induction xs as [|x xs IH]; intros l l'; [done|]. cbn [walk]. destruct (enter f l x) as [m|] eqn:E; [|done].
  intros Hw Hd. assert (tree f !! m = Some FDir) as Hm.
  { destruct xs as [|y xs]; [by injection Hw as ->|]. cbn [walk] in Hw. destruct (enter f m y) eqn:E2; [|done]. exact (enter_dir _ _ _ _ E2). }
  assert (enter f' l x = Some m) as ->; [|by apply IH].
  unfold enter in *. destruct (tree f !! l) as [[|]|] eqn:El; try done. rewrite (H l El).
  destruct (str_eqb x [] || str_eqb x n_dot); [done|]. destruct (str_eqb x n_dotdot); [done|].
  destruct (tree f !! (l ++ [x])); [|done]. injection E as <-. by rewrite (H _ Hm).
Qed.

(** Where something is put. *)
Lemma place_spec f p l : fs_ok f -> place f p = Some l ->
  tree f !! l = Some FDir \/
  exists l0 n, l = l0 ++ [n] /\ tree f !! l0 = Some FDir /\ special n = false /\ ~ List.In c_sep n /\
    (forall f', keeps f f' -> is_Some (tree f' !! l) -> resolve f' p = Some l).
Proof.
  intros Hf. unfold place. destruct p as [|c p]; [done|]. destruct (walk f (origin f (c :: p)) (removelast (names (c :: p)))) as [l0|] eqn:E; [|done].
  set (n := (List.last (names (c :: p)) [] : list N)). destruct (special n) eqn:Es.
  - intros H. left. by apply (enter_special f l0 n).
  - destruct (tree f !! l0) as [[|]|] eqn:E0; try done. intros [= <-]. right. exists l0, n. split_and!; try done.
    + apply (names_nosep_in (c :: p)). rewrite (names_split (c :: p)). apply in_or_app. right. by left.
    + intros f' He Hi. unfold resolve. rewrite (names_split (c :: p)), walk_app. unfold origin in *. rewrite (proj1 He).
      rewrite (walk_dirs f f' _ He _ _ E E0). cbn [walk]. fold n. rewrite (enter_normal f' l0 n Es).
      rewrite (proj2 He l0 E0). by destruct Hi as [x ->].
Qed.
Lemma names_ok_of n : special n = false -> ~ List.In c_sep n -> n <> [] /\ n <> [c_dot] /\ n <> [c_dot; c_dot] /\ ~ List.In c_sep n.
Proof. intros (A & B & C)%special_false_iff H. done. Qed.

(** Adding an entry to a directory keeps the tree in order. *)
Lemma set_ok f (l0 : loc) (n : list N) x : fs_ok f -> tree f !! l0 = Some FDir -> special n = false -> ~ List.In c_sep n ->
  (tree f !! (l0 ++ [n]) = Some FDir -> x = FDir) -> fs_ok (set f (l0 ++ [n]) x).
Proof.
  intros Hf H0 Hs Hc Hx. assert (forall l, tree f !! l = Some FDir -> tree (set f (l0 ++ [n]) x) !! l = Some FDir) as Hk.
  { intros l Hl. cbn [set tree]. destruct (decide (l = l0 ++ [n])) as [->|Hn]; [rewrite lookup_insert; f_equal; auto|by rewrite lookup_insert_ne]. }
  split.
  - apply Hk, (ok_root f Hf).
  - intros l y Hi. apply Hk. cbn [set tree] in Hi. destruct (decide (l ++ [y] = l0 ++ [n])) as [E|E].
    + apply app_inj_tail in E as [-> _]. done.
    + rewrite lookup_insert_ne in Hi by done. exact (ok_up f Hf l y Hi).
  - intros l y Hi. cbn [set tree] in Hi. destruct (decide (l ++ [y] = l0 ++ [n])) as [E|E].
    + apply app_inj_tail in E as [-> ->]. by apply names_ok_of.
    + rewrite lookup_insert_ne in Hi by done. exact (ok_name f Hf l y Hi).
  - apply Hk. exact (ok_cwd f Hf).
Qed.
Lemma set_extends f l x : (tree f !! l = Some FDir -> x = FDir) -> extends f (set f l x).
Proof.
  intros Hx. split; [done|]. split.
  - intros l' Hl. cbn [set tree]. destruct (decide (l' = l)) as [->|Hn]; [rewrite lookup_insert; f_equal; auto|by rewrite lookup_insert_ne].
  - intros l' Hl. cbn [set tree]. destruct (decide (l' = l)) as [->|Hn]; [rewrite lookup_insert; eauto|by rewrite lookup_insert_ne].
Qed.

Lemma mkdir_ok f p f' : fs_ok f -> mkdir f p = MOk f' \/ mkdir f p = MExists f' -> only_new_dirs f f' /\ fs_ok f'.
Proof.
  intros Hf. unfold mkdir. generalize (match rstrip p with [] => p | c :: l => c :: l end). intros q.
  destruct (place f q) as [l|] eqn:E; [|by intros [?|?]].
  destruct (tree f !! l) as [n|] eqn:El.
  - intros [?|H]; [done|]. injection H as <-. split; [apply only_new_refl|done].
  - intros [H|?]; [|done]. injection H as <-. destruct (place_spec f q l Hf E) as [H|(l0 & n & -> & H0 & Hs & Hc & _)]; [congruence|].
    split; [|apply set_ok; [done|done|done|done|congruence]]. split; [done|]. split.
    + intros l' x Hl. cbn [set tree]. rewrite lookup_insert_ne by congruence. done.
    + intros l' Hl. cbn [set tree]. destruct (decide (l' = l0 ++ [n])) as [->|Hn]; [right; apply lookup_insert|left; by rewrite lookup_insert_ne].
Qed.
Lemma os_makedirs_ok fuel : forall f p f', fs_ok f ->
  os_makedirs fuel f p = MOk f' \/ os_makedirs fuel f p = MExists f' -> only_new_dirs f f' /\ fs_ok f'.
Proof.
  induction fuel as [|fuel IH]; intros f p f' Hf; [by intros [?|?]|]. cbn [os_makedirs].
  destruct (psplit p) as [h0 t0]. destruct (match t0 with [] => psplit h0 | _ => (h0, t0) end) as [h t].
  destruct h as [|hc h]; [by apply mkdir_ok|]. destruct t as [|tc t]; [by apply mkdir_ok|].
  destruct (exists_ f (hc :: h)); [by apply mkdir_ok|].
  destruct (os_makedirs fuel f (hc :: h)) as [f1|f1|] eqn:E; [| |by intros [?|?]].
  - destruct (IH f (hc :: h) f1 Hf (or_introl E)) as [H1 H2]. destruct (str_eqb (tc :: t) n_dot).
    + intros [H|?]; [|done]. injection H as <-. done.
    + intros H. destruct (mkdir_ok f1 p f' H2 H) as [H3 H4]. split; [by apply (only_new_trans f f1)|done].
  - destruct (IH f (hc :: h) f1 Hf (or_intror E)) as [H1 H2]. destruct (str_eqb (tc :: t) n_dot).
    + intros [H|?]; [|done]. injection H as <-. done.
    + intros H. destruct (mkdir_ok f1 p f' H2 H) as [H3 H4]. split; [by apply (only_new_trans f f1)|done].
Qed.
Lemma makedirs_ok f p f' : fs_ok f -> makedirs f p = Some f' -> only_new_dirs f f' /\ fs_ok f'.
Proof.
  intros Hf. unfold makedirs. destruct (os_makedirs (S (length p)) f p) as [f1|f1|] eqn:E.
  - intros [= <-]. apply (os_makedirs_ok (S (length p)) f p f1 Hf). by left.
  - destruct (exists_ f1 p && isdir f1 p); [|done]. intros [= <-]. apply (os_makedirs_ok (S (length p)) f p f1 Hf). by right.
  - destruct (exists_ f p && isdir f p); [|done]. intros [= <-]. split; [apply only_new_refl|done].
Qed.

Lemma write_ok f p c f' : fs_ok f -> write f p c = Some f' ->
  exists l, place f p = Some l /\ f' = set f l (FFile c) /\ resolve f' p = Some l /\ tree f !! l <> Some FDir /\ fs_ok f' /\ extends f f' /\
    (is_Some (tree f !! l) -> resolve f p = Some l).
Proof.
  intros Hf. unfold write. destruct (place f p) as [l|] eqn:E; [|done].
  destruct (decide (tree f !! l = Some FDir)) as [Hd|Hd]; [by rewrite Hd|].
  intros H. assert (f' = set f l (FFile c)) as -> by (destruct (tree f !! l) as [[]|]; congruence). clear H.
  destruct (place_spec f p l Hf E) as [?|(l0 & n & -> & H0 & Hs & Hc & Hr)]; [done|].
  assert (extends f (set f (l0 ++ [n]) (FFile c))) as He by (apply set_extends; done).
  exists (l0 ++ [n]). split_and!; try done.
  - apply Hr; [by apply extends_keeps|]. cbn [set tree]. rewrite lookup_insert. eauto.
  - apply set_ok; done.
  - apply Hr. by split.
Qed.

(** The tree in which the function is called. *)
Definition prepared (buildroot : str) (f : fs) (src dst : str) : option (fs * str) :=
  let dst := addroot dst buildroot in
  if negb (exists_ f dst) then
    if ends_sep dst then option_map (fun f => (f, path_new [dst; basename src])) (makedirs f dst)
    else option_map (fun f => (f, dst)) (makedirs f (dirname dst))
  else if isdir f dst then Some (f, path_new [dst; basename src])
  else Some (f, dst).
Lemma prepared_ok root f src dst f1 p : fs_ok f -> prepared root f src dst = Some (f1, p) ->
  only_new_dirs f f1 /\ fs_ok f1 /\
  (p = addroot dst root \/ p = pjoin (addroot dst root) (basename src) /\ (isdir f (addroot dst root) = true \/ ends_sep (addroot dst root) = true)).
Proof.
  intros Hf. unfold prepared. destruct (exists_ f (addroot dst root)) eqn:Ex; cbn [negb].
  - destruct (isdir f (addroot dst root)) eqn:Ed; intros [= <- <-].
    + split; [apply only_new_refl|]. split; [done|]. right. rewrite path_new_two. auto.
    + split; [apply only_new_refl|]. split; [done|]. by left.
  - destruct (ends_sep (addroot dst root)) eqn:Es.
    + destruct (makedirs f (addroot dst root)) as [f2|] eqn:Em; [|done]. intros [= <- <-].
      destruct (makedirs_ok f _ f2 Hf Em) as [H1 H2]. split; [done|]. split; [done|]. right. rewrite path_new_two. auto.
    + destruct (makedirs f (dirname (addroot dst root))) as [f2|] eqn:Em; [|done]. intros [= <- <-].
      destruct (makedirs_ok f _ f2 Hf Em) as [H1 H2]. split; [done|]. split; [done|]. by left.
Qed.

Lemma sh_copy_ok f src dst f' : fs_ok f -> sh_copy f src dst = Some f' ->
  exists c ls l q, tree f !! ls = Some (FFile c) /\ resolve f' src = Some ls /\ ls <> l /\
    changes (fun _ => False) l c f f' /\ resolve f' q = Some l /\ fs_ok f' /\ extends f f' /\
    (isdir f dst = false /\ q = dst \/ isdir f dst = true /\ q = pjoin dst (basename src)).
Proof.
  intros Hf. unfold sh_copy. set (q := if isdir f dst then pjoin dst (basename src) else dst).
  destruct (resolve f src) as [ls|] eqn:Es; [|done]. case_bool_decide as Hsame; [done|].
  destruct (tree f !! ls) as [[c|]|] eqn:El; try done. intros Hw.
  destruct (write_ok f q c f' Hf Hw) as (l & Hp & -> & Hr & Hd & Hok & He & Hi).
  assert (ls <> l) as Hne. { intros ->. apply Hsame, Hi. by rewrite El. }
  exists c, ls, l, q. split_and!; try done.
  - by apply (resolve_extends f).
  - unfold changes. cbn [set tree fs_cwd]. split_and!; try done.
    + apply lookup_insert.
    + intros l' n Hl _ Hn. by rewrite lookup_insert_ne.
    + intros l' Hl Hn. left. by rewrite lookup_insert_ne.
  - unfold q. destruct (isdir f dst); auto.
Qed.

Lemma changes_after (gone : loc -> Prop) w c f f1 f2 : only_new_dirs f f1 -> (forall l, gone l -> is_Some (tree f !! l)) ->
  changes gone w c f1 f2 -> changes gone w c f f2.
Proof.
  intros (A1 & A2 & A3) Hg (B1 & B2 & B3 & B4 & B5 & B6). split_and!.
  - congruence.
  - done.
  - intros H. apply B3, A2, H.
  - done.
  - intros l n Hl Hn H. apply B5; [done|done|]. by apply A2.
  - intros l Hl H. destruct (A3 l H) as [H1|H1]; [by apply B6|]. right. apply B5; [done| |done].
    intros Hgl. destruct (Hg l Hgl) as [n Hn]. congruence.
Qed.

(** What was a file after the directories were made was one before. *)
Lemma file_before f f1 l c : only_new_dirs f f1 -> tree f1 !! l = Some (FFile c) -> tree f !! l = Some (FFile c).
Proof.
  intros (_ & A2 & A3) H. destruct (tree f !! l) as [n|] eqn:E.
  - pose proof (A2 l n E). congruence.
  - destruct (A3 l E); congruence.
Qed.
Lemma isdir_extends f f' p : extends f f' -> isdir f p = true -> isdir f' p = true.
Proof.
  intros He. unfold isdir, stat. destruct (resolve f p) as [l|] eqn:Er; [|done]. rewrite (resolve_extends _ _ _ _ He Er).
  destruct (tree f !! l) as [[|]|] eqn:El; try done. by rewrite (proj1 (proj2 He) l El).
Qed.

Lemma copy_spec root f src dst f' p : fs_ok f -> copy root f src dst = Some (f', p) ->
  exists c ls l q, tree f !! ls = Some (FFile c) /\ resolve f' src = Some ls /\ ls <> l /\
    changes (fun _ => False) l c f f' /\ resolve f' q = Some l /\ fs_ok f' /\
    (q = p \/ isdir f' p = true /\ q = pjoin p (basename src)) /\
    (p = addroot dst root \/ p = pjoin (addroot dst root) (basename src) /\ (isdir f (addroot dst root) = true \/ ends_sep (addroot dst root) = true)).
Proof.
  intros Hf. change (copy root f src dst) with
    (match prepared root f src dst with Some (f1, d) => option_map (fun f => (f, d)) (sh_copy f1 src d) | None => None end).
  destruct (prepared root f src dst) as [[f1 d]|] eqn:E; [|done]. destruct (sh_copy f1 src d) as [f2|] eqn:Ec; [|done].
  intros [= <- <-]. destruct (prepared_ok root f src dst f1 d Hf E) as (H1 & H2 & H3).
  destruct (sh_copy_ok f1 src d f2 H2 Ec) as (c & ls & l & q & S1 & S2 & Hne & Hch & Hr & Hok & He & Hq).
  exists c, ls, l, q. split_and!; try done.
  - by apply (file_before f f1).
  - by apply (changes_after _ l c f f1 f2).
  - destruct Hq as [[_ ->]|[Hd ->]]; [by left|right]. split; [|done]. by apply (isdir_extends f1).
Qed.

(** *** Moving *)
Lemma remove_ok f ls c : fs_ok f -> tree f !! ls = Some (FFile c) -> fs_ok (Fs (delete ls (tree f)) (fs_cwd f)).
Proof.
  intros Hf Hs. assert (forall l, tree f !! l = Some FDir -> delete ls (tree f) !! l = Some FDir) as Hk.
  { intros l Hl. rewrite lookup_delete_ne; [done|congruence]. }
  assert (forall l, is_Some (delete ls (tree f) !! l) -> is_Some (tree f !! l)) as Hb.
  { intros l. destruct (decide (l = ls)) as [->|Hn]; [rewrite lookup_delete; by intros []|by rewrite lookup_delete_ne]. }
  split; cbn [tree fs_cwd].
  - apply Hk, (ok_root f Hf).
  - intros l x Hi. apply Hk, (ok_up f Hf l x), Hb, Hi.
  - intros l x Hi. apply (ok_name f Hf l x), Hb, Hi.
  - apply Hk, (ok_cwd f Hf).
Qed.
Lemma rename_spec f src dst f' : fs_ok f -> rename f src dst = Some f' ->
  exists c ls l, tree f !! ls = Some (FFile c) /\ resolve f src = Some ls /\
    changes (fun x => x = ls) l c f f' /\ resolve f' dst = Some l /\ fs_ok f' /\ keeps f f'.
Proof.
  intros Hf. unfold rename. destruct (resolve f src) as [ls|] eqn:Es; [|done]. destruct (place f dst) as [ld|] eqn:Ep; [|done].
  destruct (tree f !! ls) as [[c|]|] eqn:El; try done. destruct (decide (tree f !! ld = Some FDir)) as [Hd|Hd]; [by rewrite Hd|].
  intros H. assert (f' = Fs (<[ld := FFile c]> (delete ls (tree f))) (fs_cwd f)) as -> by (destruct (tree f !! ld) as [[]|]; congruence). clear H.
  destruct (place_spec f dst ld Hf Ep) as [?|(l0 & n & -> & H0 & Hs & Hc & Hr)]; [done|].
  set (g := Fs (delete ls (tree f)) (fs_cwd f)). assert (fs_ok g) as Hg by (by apply (remove_ok f ls c)).
  assert (keeps f (Fs (<[l0 ++ [n] := FFile c]> (delete ls (tree f))) (fs_cwd f))) as Hk.
  { split; [done|]. intros l Hl. cbn [tree]. rewrite lookup_insert_ne by congruence. rewrite lookup_delete_ne; [done|congruence]. }
  exists c, ls, (l0 ++ [n]). split_and!; try done.
  - unfold changes. cbn [tree fs_cwd]. split_and!; try done.
    + apply lookup_insert.
    + intros l Hl ->. rewrite lookup_insert_ne by done. apply lookup_delete.
    + intros l x Hl Hne Hx. rewrite lookup_insert_ne by done. by rewrite lookup_delete_ne.
    + intros l Hl Hx. left. rewrite lookup_insert_ne by done. destruct (decide (l = ls)) as [->|Hn]; [apply lookup_delete|by rewrite lookup_delete_ne].
  - apply Hr; [done|]. cbn [tree]. rewrite lookup_insert. eauto.
  - apply (set_ok g l0 n (FFile c) Hg); [|done|done|].
    + cbn [g tree]. rewrite lookup_delete_ne; [done|congruence].
    + intros Hx. exfalso. apply Hd. change (delete ls (tree f) !! (l0 ++ [n]) = Some FDir) in Hx. apply lookup_delete_Some in Hx. apply Hx.
Qed.
Lemma isdir_keeps f f' p : keeps f f' -> isdir f p = true -> isdir f' p = true.
Proof.
  intros Hk. unfold isdir, stat. destruct (resolve f p) as [l|] eqn:Er; [|done].
  destruct (tree f !! l) as [[|]|] eqn:El; try done. unfold resolve in *. destruct p; [done|]. unfold origin in *. rewrite (proj1 Hk).
  rewrite (walk_dirs f f' _ Hk _ _ Er El). by rewrite (proj2 Hk l El).
Qed.
Lemma move_spec root f src dst f' p : fs_ok f -> move root f src dst = Some (f', p) ->
  exists c ls l q, tree f !! ls = Some (FFile c) /\ (resolve f src = Some ls \/ resolve f src = None) /\
    changes (fun x => x = ls) l c f f' /\ resolve f' q = Some l /\ fs_ok f' /\
    (q = p \/ isdir f' p = true /\ q = pjoin p (basename (match rstrip src with [] => src | s => s end))) /\
    (p = addroot dst root \/ p = pjoin (addroot dst root) (basename src) /\ (isdir f (addroot dst root) = true \/ ends_sep (addroot dst root) = true)).
Proof.
  intros Hf. change (move root f src dst) with
    (match prepared root f src dst with Some (f1, d) => option_map (fun f => (f, d)) (sh_move f1 src d) | None => None end).
  destruct (prepared root f src dst) as [[f1 d]|] eqn:E; [|done]. destruct (sh_move f1 src d) as [f2|] eqn:Ec; [|done].
  intros [= <- <-]. destruct (prepared_ok root f src dst f1 d Hf E) as (H1 & H2 & H3).
  unfold sh_move in Ec. cbv zeta in Ec.
  assert (exists q, rename f1 src q = Some f2 /\ (isdir f1 d = false /\ q = d \/ isdir f1 d = true /\ q = pjoin d (basename (match rstrip src with [] => src | s => s end)))) as (q & Hq & Hqd).
  { destruct (isdir f1 d); [|by eauto 6]. destruct (exists_ f1 _); [done|]. eauto 6. }
  destruct (rename_spec f1 src q f2 H2 Hq) as (c & ls & l & S1 & S2 & Hch & Hr & Hok & Hk).
  pose proof (file_before f f1 ls c H1 S1) as S0.
  exists c, ls, l, q. split_and!; try done.
  - destruct (resolve f src) as [l1|] eqn:Er; [|by right]. left.
    pose proof (resolve_extends f f1 src l1 (only_new_extends _ _ H1) Er). congruence.
  - apply (changes_after _ l c f f1 f2); [done| |done]. intros ? ->. rewrite S0. eauto.
  - destruct Hqd as [[_ ->]|[Hd ->]]; [by left|right]. split; [|done]. by apply (isdir_keeps f1).
Qed.
