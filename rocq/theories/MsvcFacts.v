(** Facts about building with Microsoft's C compiler. *)
From Coq Require Import List NArith Bool Arith Lia.
From Verif Require Import FnModel PathModel PathSpec PathFacts LinkModel LinkSpec LinkFacts GccModel GccSpec GccFacts TryModel TrySpec TryPlaces JavaModel JavaSpec JavaFacts MsvcModel MsvcSpec.
Import ListNotations.
Open Scope N_scope.

(** *** Equality *)
Lemma strs_eqb_ok a : forall b, strs_eqb a b = true <-> a = b.
Proof.
  induction a as [|x a IH]; intros [|y b]; cbn; split; try discriminate; try reflexivity.
  - intros H. apply andb_true_iff in H as [H1 H2]. apply str_eqb_true in H1. apply IH in H2. subst. reflexivity.
  - intros E. injection E as -> ->. rewrite str_eqb_refl. apply IH. reflexivity.
Qed.
Lemma lib_eqb_ok a : forall b, lib_eqb a b = true <-> a = b.
Proof.
  induction a as [p|p ps ls es IH] using lib_ind'; intros [q|q qs ms fs]; cbn; try (split; discriminate).
  - split; [intros H; apply str_eqb_true in H; subst; reflexivity|intros E; injection E as ->; apply str_eqb_refl].
  - rewrite !andb_true_iff, !strs_eqb_ok.
    assert ((fix go (l m : list lib) : bool := match l, m with [], [] => true | x :: l', y :: m' => lib_eqb x y && go l' m' | _, _ => false end) ls ms = true
      <-> ls = ms) as ->.
    { clear -IH. revert ms. induction IH as [|x ls Hx _ IH]; intros [|y ms]; split; try discriminate; try reflexivity.
      - intros H. apply andb_true_iff in H as [H1 H2]. apply Hx in H1. apply IH in H2. subst. reflexivity.
      - intros E. injection E as -> ->. apply andb_true_iff. split; [apply Hx; reflexivity|apply IH; reflexivity]. }
    split.
    + intros [[[H1 ->] ->] ->]. apply str_eqb_true in H1. subst. reflexivity.
    + intros E. injection E as -> -> -> ->. rewrite str_eqb_refl. auto.
Qed.
Lemma seen_ok l ls : existsb (lib_eqb l) ls = true <-> In l ls.
Proof.
  rewrite existsb_exists. split.
  - intros (x & Hx & E). apply lib_eqb_ok in E. subst. exact Hx.
  - intros H. exists l. split; [exact H|]. apply lib_eqb_ok. reflexivity.
Qed.

(** *** No library depends on itself *)
Fixpoint lib_size (l : lib) : nat :=
  match l with Plain _ => 1%nat | Library _ _ ls _ => S ((fix go (l : list lib) : nat := match l with [] => O | x :: l' => lib_size x + go l' end) ls)%nat end.
Lemma dep_size l d : In d (deps l) -> (lib_size d < lib_size l)%nat.
Proof.
  destruct l as [p|p ps ls es]; cbn [deps]; [intros []|]. intros H. cbn [lib_size]. induction ls as [|x ls IH]; [destruct H|].
  destruct H as [->|H]; [lia|]. specialize (IH H). lia.
Qed.
Lemma reach_size l k : reach l k -> (lib_size k <= lib_size l)%nat.
Proof. induction 1 as [l|l d e Hd _ IH]; [lia|]. apply dep_size in Hd. lia. Qed.
Lemma no_loop l d : In d (deps l) -> ~ reach d l.
Proof. intros H R. apply dep_size in H. apply reach_size in R. lia. Qed.

(** *** The walk *)
Definition m_deps_before (ls : list lib) : Prop := forall l1 k l2, ls = l1 ++ k :: l2 -> forall d, In d (deps k) -> In d l1.
Record minv (s : mst) : Prop := Minv {
  mi_before : m_deps_before (m_libs s);
  mi_nodup : NoDup (m_libs s);
  mi_paths : forall k x, In k (m_libs s) -> In x (dirs_of k) -> In x (m_paths s);
  mi_exts : forall k x, In k (m_libs s) -> In x (needs_external k) -> In x (m_exts s) }.
Record mgrows (from : lib -> Prop) (s s' : mst) : Prop := Mgrows {
  mg_libs : exists e, m_libs s' = m_libs s ++ e /\ forall k, In k e -> from k;
  mg_paths1 : forall x, In x (m_paths s) -> In x (m_paths s');
  mg_paths2 : forall x, In x (m_paths s') -> In x (m_paths s) \/ exists k, from k /\ In x (dirs_of k);
  mg_exts1 : forall x, In x (m_exts s) -> In x (m_exts s');
  mg_exts2 : forall x, In x (m_exts s') -> In x (m_exts s) \/ exists k, from k /\ In x (needs_external k);
  mg_nodup : NoDup (m_paths s) -> NoDup (m_paths s') }.
Lemma mgrows_refl f s : mgrows f s s.
Proof. split; auto; try tauto. exists []. rewrite app_nil_r. split; [reflexivity|intros k []]. Qed.
Lemma mgrows_trans (f : lib -> Prop) a b c : mgrows f a b -> mgrows f b c -> mgrows f a c.
Proof.
  intros [(e & E & He) P1 P2 X1 X2 N] [(e' & E' & He') P1' P2' X1' X2' N']. split; auto; try tauto.
  - exists (e ++ e'). rewrite E', E, app_assoc. split; [reflexivity|]. intros k H. apply in_app_or in H as [H|H]; auto.
  - intros x H. destruct (P2' x H) as [K|K]; [apply P2 in K; exact K|auto].
  - intros x H. destruct (X2' x H) as [K|K]; [apply X2 in K; exact K|auto].
Qed.
Lemma mgrows_weak (f g : lib -> Prop) a b : (forall k, f k -> g k) -> mgrows f a b -> mgrows g a b.
Proof.
  intros H [(e & E & He) P1 P2 X1 X2 N]. split; auto.
  - exists e. auto.
  - intros x K. destruct (P2 x K) as [K1|(k & K1 & K2)]; [auto|]. right. exists k. auto.
  - intros x K. destruct (X2 x K) as [K1|(k & K1 & K2)]; [auto|]. right. exists k. auto.
Qed.
Definition mvisits (ls : list lib) (s : mst) : mst := fold_left (fun s l => mvisit l s) ls s.
Definition visits_well (l : lib) : Prop := forall s, minv s -> minv (mvisit l s) /\ In l (m_libs (mvisit l s)) /\ mgrows (reach l) s (mvisit l s).
Lemma mvisits_well ls : Forall visits_well ls -> forall s, minv s ->
  minv (mvisits ls s) /\ (forall l, In l ls -> In l (m_libs (mvisits ls s))) /\ mgrows (used ls) s (mvisits ls s).
Proof.
  induction 1 as [|l ls Hl _ IH]; intros s Hs; cbn.
  - split; [exact Hs|]. split; [intros l []|apply mgrows_refl].
  - destruct (Hl s Hs) as (I1 & In1 & G1). destruct (IH _ I1) as (I2 & In2 & G2). split; [exact I2|]. split.
    + intros k [<-|Hk]; [|auto]. destruct G2 as [(e & E & _)]. unfold mvisits in *. rewrite E. apply in_or_app. left. exact In1.
    + apply (mgrows_trans _ s (mvisit l s)).
      * apply (mgrows_weak (reach l)); [|exact G1]. intros k K. exists l. split; [left; reflexivity|exact K].
      * apply (mgrows_weak (used ls)); [|exact G2]. intros k (r & Hr & K). exists r. split; [right; exact Hr|exact K].
Qed.
Lemma snoc_split {A} (a : list A) x l1 k l2 : a ++ [x] = l1 ++ k :: l2 -> (l1 = a /\ k = x /\ l2 = []) \/ exists l3, a = l1 ++ k :: l3.
Proof.
  destruct (exists_last (l := k :: l2) ltac:(discriminate)) as (m & y & E). intros H. rewrite E, app_assoc in H. apply app_inj_tail in H as [-> ->].
  destruct m as [|z m]; cbn in E; injection E as -> E2.
  - left. rewrite app_nil_r. auto.
  - right. exists m. reflexivity.
Qed.
Lemma mvisit_well l : visits_well l.
Proof.
  assert (forall l s s0, minv s -> ~ In l (m_libs s) -> (forall x, In x (deps l) -> In x (m_libs s)) ->
    (forall x, In x (dirs_of l) -> In x (m_paths s)) -> (forall x, In x (needs_external l) -> In x (m_exts s)) -> mgrows (reach l) s0 s ->
    minv (Mst (m_paths s) (m_exts s) (m_libs s ++ [l])) /\ In l (m_libs s ++ [l]) /\ mgrows (reach l) s0 (Mst (m_paths s) (m_exts s) (m_libs s ++ [l]))) as Add.
  { clear l. intros l s s0 [B N P X] Hl Hd Hp Hx G. split; [|split].
    - split; cbn [m_libs m_paths m_exts].
      + intros l1 k l2 E d Hk. apply snoc_split in E as [(-> & -> & ->)|(l3 & E)]; [auto|]. exact (B _ _ _ E d Hk).
      + rewrite <- (rev_involutive (m_libs s ++ [l])). apply NoDup_rev. rewrite rev_app_distr. constructor; [rewrite <- in_rev; exact Hl|apply NoDup_rev; exact N].
      + intros k x Hk Hin. apply in_app_or in Hk as [Hk|[<-|[]]]; [exact (P k x Hk Hin)|auto].
      + intros k x Hk Hin. apply in_app_or in Hk as [Hk|[<-|[]]]; [exact (X k x Hk Hin)|auto].
    - apply in_or_app. right. left. reflexivity.
    - destruct G as [(e & E & He) P1 P2 X1 X2 N']. split; cbn [m_libs m_paths m_exts]; auto.
      exists (e ++ [l]). rewrite E, app_assoc. split; [reflexivity|]. intros k K. apply in_app_or in K as [K|[<-|[]]]; [auto|constructor]. }
  induction l as [p|p ps ls es IH] using lib_ind'; intros s Hs; cbn [mvisit]; destruct (existsb _ (m_libs s)) eqn:Seen.
  - apply seen_ok in Seen. split; [exact Hs|]. split; [exact Seen|apply mgrows_refl].
  - assert (~ In (Plain p) (m_libs s)) as Hn by (intros K; apply seen_ok in K; congruence).
    apply (Add (Plain p) s s Hs Hn); try (intros x []). apply mgrows_refl.
  - apply seen_ok in Seen. split; [exact Hs|]. split; [exact Seen|apply mgrows_refl].
  - set (l := Library p ps ls es) in *. assert (~ In l (m_libs s)) as Hn by (intros K; apply seen_ok in K; congruence).
    set (s1 := Mst (fold_left add_new ps (m_paths s)) (fold_left add_new es (m_exts s)) (m_libs s)).
    assert (minv s1) as I1.
    { destruct Hs as [B N P X]. split; cbn; auto; intros k x Hk Hx; apply fold_add_in; left; [exact (P k x Hk Hx)|exact (X k x Hk Hx)]. }
    assert (mgrows (reach l) s s1) as G1.
    { split; cbn; try tauto.
      - exists []. rewrite app_nil_r. split; [reflexivity|intros k []].
      - intros x H. apply fold_add_in. auto.
      - intros x H. apply fold_add_in in H as [H|H]; [auto|]. right. exists l. split; [constructor|exact H].
      - intros x H. apply fold_add_in. auto.
      - intros x H. apply fold_add_in in H as [H|H]; [auto|]. right. exists l. split; [constructor|exact H].
      - apply fold_add_nodup. }
    destruct (mvisits_well ls IH s1 I1) as (I2 & In2 & G2). fold (mvisits ls s1). set (s2 := mvisits ls s1) in *.
    apply (Add l s2 s I2).
    + destruct G2 as [(e & E & He)]. rewrite E. cbn [m_libs s1]. intros K. apply in_app_or in K as [K|K]; [exact (Hn K)|].
      destruct (He _ K) as (r & Hr & R). exact (no_loop l r Hr R).
    + intros d Hd. apply In2. exact Hd.
    + intros x Hx. apply (mg_paths1 _ _ _ G2). cbn. apply fold_add_in. right. exact Hx.
    + intros x Hx. apply (mg_exts1 _ _ _ G2). cbn. apply fold_add_in. right. exact Hx.
    + apply (mgrows_trans _ s s1 s2 G1). apply (mgrows_weak (used ls)); [|exact G2]. intros k (r & Hr & R). apply (reach_step l r k); [exact Hr|exact R].
Qed.

Lemma before_rev ls k d : m_deps_before ls -> In k ls -> In d (deps k) -> before_in k d (rev ls).
Proof.
  intros B Hk Hd. apply in_split in Hk as (l1 & l2 & E). pose proof (B l1 k l2 E d Hd) as H. apply in_split in H as (m1 & m2 & ->).
  exists (rev l2), (rev m2), (rev m1). rewrite E, !rev_app_distr. cbn. rewrite <- !app_assoc. reflexivity.
Qed.
Lemma reach_closed ls k : m_deps_before ls -> forall r, In r ls -> reach r k -> In k ls.
Proof.
  intros B r Hr R. induction R as [l|l d e Hd _ IH]; [exact Hr|]. apply IH. apply in_split in Hr as (l1 & l2 & E). rewrite E. apply in_or_app. left.
  exact (B l1 l l2 E d Hd).
Qed.

Section Link.
  Context (self o : linkopts).
  Let roots := k_libs self ++ k_libs o.
  Let s0 := Mst (fold_left add_new (k_libpaths self ++ k_libpaths o) []) (fold_left add_new (k_exts self ++ k_exts o) []) [].
  Let s := mvisits roots s0.
  Lemma mlink_facts : minv s /\ (forall l, In l roots -> In l (m_libs s)) /\ mgrows (used roots) s0 s.
  Proof.
    apply mvisits_well.
    - apply Forall_forall. intros l _. apply mvisit_well.
    - split; cbn; [intros l1 k l2 E; destruct l1; discriminate|constructor|intros k x []|intros k x []].
  Qed.
  Lemma mlink_libs : NoDup (m_libs (mlink self o)) /\ (forall k, In k (m_libs (mlink self o)) <-> used roots k) /\
    forall k d, used roots k -> In d (deps k) -> before_in k d (m_libs (mlink self o)).
  Proof.
    destruct mlink_facts as ([B N P X] & Hin & [(e & E & He) _ _ _ _ _]). unfold mlink. cbn [m_libs]. fold roots s0. change (fold_left (fun s l => mvisit l s) roots s0) with s.
    assert (forall k, used roots k -> In k (m_libs s)) as U.
    { intros k (r & Hr & R). exact (reach_closed _ k B r (Hin r Hr) R). }
    split; [apply NoDup_rev; exact N|]. split.
    - intros k. rewrite <- in_rev. split; [|apply U]. rewrite E. intros K. apply He. exact K.
    - intros k d Hk Hd. apply before_rev; auto.
  Qed.
  Lemma mlink_paths x : In x (m_paths (mlink self o)) <-> In x (k_libpaths self) \/ In x (k_libpaths o) \/ exists k, used roots k /\ In x (dirs_of k).
  Proof.
    destruct mlink_facts as ([B N P X] & Hin & [_ P1 P2 _ _ _]). unfold mlink. cbn [m_paths]. fold roots s0. change (fold_left (fun s l => mvisit l s) roots s0) with s.
    assert (In x (m_paths s0) <-> In x (k_libpaths self) \/ In x (k_libpaths o)) as E0.
    { cbn. rewrite fold_add_in, in_app_iff. cbn. tauto. }
    split.
    - intros H. apply P2 in H as [H|H]; [apply E0 in H; tauto|auto].
    - intros [H|[H|(k & (r & Hr & R) & Hx)]]; [apply P1, E0; auto|apply P1, E0; auto|].
      apply (P k x); [|exact Hx]. exact (reach_closed _ k B r (Hin r Hr) R).
  Qed.
  Lemma mlink_exts x : In x (m_exts (mlink self o)) <-> In x (k_exts self) \/ In x (k_exts o) \/ exists k, used roots k /\ In x (needs_external k).
  Proof.
    destruct mlink_facts as ([B N P X] & Hin & [_ _ _ P1 P2 _]). unfold mlink. cbn [m_exts]. fold roots s0. change (fold_left (fun s l => mvisit l s) roots s0) with s.
    assert (In x (m_exts s0) <-> In x (k_exts self) \/ In x (k_exts o)) as E0.
    { cbn. rewrite fold_add_in, in_app_iff. cbn. tauto. }
    split.
    - intros H. apply P2 in H as [H|H]; [apply E0 in H; tauto|auto].
    - intros [H|[H|(k & (r & Hr & R) & Hx)]]; [apply P1, E0; auto|apply P1, E0; auto|].
      apply (X k x); [|exact Hx]. exact (reach_closed _ k B r (Hin r Hr) R).
  Qed.
  Lemma mlink_nodup : NoDup (m_paths (mlink self o)).
  Proof. destruct mlink_facts as (_ & _ & G). apply (mg_nodup _ _ _ G). apply fold_add_nodup. constructor. Qed.
End Link.

(** *** Names of libraries *)
Lemma lib_option_ok l : names_lib l (lib_option l).
Proof.
  unfold lib_option, endswith. change s_defaultlib with t_defaultlib. destruct (startswith (rev l) (rev s_dll)) eqn:E.
  - destruct (startswith_true _ _ E) as [r Er]. left. exists (rev r). assert (l = rev r ++ s_dll) as ->.
    { rewrite <- (rev_involutive l), Er, rev_app_distr, rev_involutive. reflexivity. }
    split; [reflexivity|]. rewrite app_length. replace (length (rev r) + length s_dll - 4)%nat with (length (rev r)) by (cbn; lia).
    rewrite firstn_app, Nat.sub_diag, firstn_all. cbn [firstn]. rewrite app_nil_r. reflexivity.
  - right. split; [|reflexivity]. intros r ->. rewrite rev_app_distr in E.
    assert (startswith (rev t_dll ++ rev r) (rev s_dll) = true) as E' by reflexivity. congruence.
Qed.

(** *** What the compiler writes *)
Lemma blanks_all n s : (forall r, s <> 32 :: r) -> blanks (repeat 32 n ++ s) = s.
Proof.
  intros H. induction n as [|n IH]; cbn; [|exact IH]. destruct s as [|c s]; [reflexivity|]. cbn. destruct (N.eqb_spec c 32) as [->|_]; [destruct (H s eq_refl)|reflexivity].
Qed.
Lemma some_blanks_all n s : (forall r, s <> 32 :: r) -> some_blanks (repeat 32 (S n) ++ s) = Some s.
Proof. intros H. cbn. rewrite blanks_all by exact H. reflexivity. Qed.
Lemma some_blanks_inv s r : some_blanks s = Some r -> exists n, s = repeat 32 (S n) ++ r.
Proof.
  destruct s as [|c s]; [discriminate|]. cbn. destruct (N.eqb_spec c 32) as [->|_]; [|discriminate]. intros H. injection H as <-.
  assert (exists n, s = repeat 32 n ++ blanks s) as [n E].
  { induction s as [|c s (n & IH)]; [exists O; reflexivity|]. cbn. destruct (N.eqb_spec c 32) as [->|_]; [|exists O; reflexivity].
    exists (S n). cbn. f_equal. exact IH. }
  exists n. cbn. f_equal. exact E.
Qed.
Lemma to_crlf_ok p : to_crlf (p ++ [13; 10]) = Some p.
Proof. unfold to_crlf. rewrite rev_app_distr. cbn. rewrite rev_involutive. reflexivity. Qed.
Lemma to_crlf_inv r p : to_crlf r = Some p -> r = p ++ [13; 10].
Proof.
  unfold to_crlf. destruct (rev r) as [|a [|b q]] eqn:E; try discriminate. destruct (N.eqb_spec a 10) as [->|]; [|discriminate].
  destruct (N.eqb_spec b 13) as [->|]; [|discriminate]. cbn. intros H. injection H as <-. rewrite <- (rev_involutive r), E. cbn. rewrite <- app_assoc. reflexivity.
Qed.
Lemma after_inv w s r : after_ w s = Some r -> s = w ++ r.
Proof.
  unfold after_. destruct (startswith s w) eqn:E; [|discriminate]. destruct (startswith_true _ _ E) as [q ->]. intros H. injection H as <-.
  rewrite skipn_app, skipn_all, Nat.sub_diag. reflexivity.
Qed.
Lemma note_ok a b p : p <> [] -> (forall r, p <> 32 :: r) -> note_match (line_text (Including a b p)) = Some p.
Proof.
  intros Hp H. unfold note_match, line_text. change t_note with s_note. rewrite after_app, some_blanks_all by discriminate.
  change t_including with s_including. rewrite after_app, some_blanks_all; [apply to_crlf_ok|]. intros r E. destruct p as [|c p]; [contradiction|].
  injection E as -> _. exact (H p eq_refl).
Qed.
Lemma note_inv l p : note_match l = Some p -> exists a b, l = line_text (Including a b p).
Proof.
  unfold note_match. destruct (after_ s_note l) as [r|] eqn:E1; [|discriminate]. apply after_inv in E1 as ->.
  destruct (some_blanks r) as [r1|] eqn:E2; [|discriminate]. apply some_blanks_inv in E2 as [a ->].
  destruct (after_ s_including r1) as [r2|] eqn:E3; [|discriminate]. apply after_inv in E3 as ->.
  destruct (some_blanks r2) as [r3|] eqn:E4; [|discriminate]. apply some_blanks_inv in E4 as [b ->].
  intros H. apply to_crlf_inv in H as ->. exists a, b. reflexivity.
Qed.
Lemma line_form l : line_ok l -> exists t, ~ In 10 t /\ line_text l = t ++ [10].
Proof.
  destruct l as [a b p|t]; cbn [line_ok line_text]; [|intros [H _]; exists t; auto]. intros (_ & H & _).
  exists (t_note ++ repeat 32 (S a) ++ t_including ++ repeat 32 (S b) ++ p ++ [13]). split; [|rewrite <- !app_assoc; reflexivity].
  assert (forall n, ~ In 10 (repeat 32 n)) as R by (intros n K; apply repeat_spec in K; discriminate).
  assert (~ In 10 t_note /\ ~ In 10 t_including) as [A B].
  { split; intros K; repeat (destruct K as [K|K]; [discriminate|]); destruct K. }
  intros K. apply in_app_or in K as [K|K]; [exact (A K)|]. apply in_app_or in K as [K|K]; [exact (R _ K)|]. apply in_app_or in K as [K|K]; [exact (B K)|].
  apply in_app_or in K as [K|K]; [exact (R _ K)|]. apply in_app_or in K as [K|[K|[]]]; [exact (H K)|discriminate].
Qed.
Lemma klines_last t : ~ In 10 t -> klines t = match t with [] => [] | _ => [t] end.
Proof.
  induction t as [|c t IH]; intros H; [reflexivity|]. cbn. destruct (N.eqb_spec c c_nl) as [->|_]; [destruct H; left; reflexivity|].
  rewrite IH by (intros K; apply H; right; exact K). destruct t; reflexivity.
Qed.
Lemma klines_out ls t : Forall line_ok ls -> ~ In 10 t -> klines (concat (map line_text ls) ++ t) = map line_text ls ++ match t with [] => [] | _ => [t] end.
Proof.
  intros H Ht. induction H as [|l ls Hl _ IH]; [apply klines_last; exact Ht|]. destruct (line_form l Hl) as (u & Hu & E). cbn [map concat]. rewrite E.
  rewrite <- !app_assoc. cbn [app]. rewrite klines_line by exact Hu. rewrite IH. reflexivity.
Qed.
Lemma other_none t : line_ok (Other t) -> note_match (t ++ [10]) = None.
Proof. intros [_ H]. destruct (note_match (t ++ [10])) as [p|] eqn:E; [|reflexivity]. apply note_inv in E as (a & b & E). destruct (H a b p E). Qed.
Lemma last_none t : ~ In 10 t -> note_match t = None.
Proof.
  intros H. destruct (note_match t) as [p|] eqn:E; [|reflexivity]. apply note_inv in E as (a & b & ->). destruct H. cbn [line_text].
  rewrite !in_app_iff. cbn. tauto.
Qed.

Lemma norm_cat b h r : norm_names b (h ++ c_sep :: r) = rev (fold_left (norm_step b) (split_at c_sep r) (rev (norm_names b h))).
Proof. unfold norm_names. rewrite split_sep, fold_left_app, rev_involutive. reflexivity. Qed.
Lemma norm_pjoin w r : isabs w = true -> isabs r = false -> norm_names true (pjoin w r) = rev (fold_left (norm_step true) (split_at c_sep r) (rev (norm_names true w))).
Proof.
  intros Hw Hr. unfold pjoin. rewrite Hr. destruct w as [|c w]; [discriminate|]. destruct (ends_sep (c :: w)) eqn:E.
  - destruct (exists_last (l := c :: w) ltac:(discriminate)) as (w' & d & Ew). rewrite Ew in *. rewrite ends_sep_snoc in E. apply is_sep_true in E. subst d.
    rewrite <- app_assoc. cbn [app]. rewrite norm_cat, norm_sep. reflexivity.
  - apply norm_cat.
Qed.
Section Deps.
  Context (cwd : str) (Hcwd : isabs cwd = true).
  Lemma relpath_here p : p <> [] -> exists r, relpath cwd p n_dot = Some r /\ place cwd r = place cwd p.
  Proof.
    intros Hp. destruct (relpath_place cwd Hcwd p n_dot Hp) as (r & E & P). exists r. split; [exact E|]. rewrite <- P. clear E P.
    pose proof (abspath_abs cwd Hcwd n_dot) as Ha. pose proof (place_abspath cwd Hcwd n_dot) as Hb.
    unfold place, full in Hb |- *. rewrite Ha in Hb. destruct (isabs r) eqn:Er; [reflexivity|]. rewrite !norm_pjoin, Hb by assumption.
    change (isabs n_dot) with false. cbv iota. rewrite norm_pjoin by (exact Hcwd || reflexivity). cbn [split_at]. 
    replace (rev (fold_left (norm_step true) (split_at c_sep n_dot) (rev (norm_names true cwd)))) with (norm_names true cwd); [reflexivity|].
    rewrite (split_one n_dot); [|intros K; repeat (destruct K as [K|K]; [discriminate|]); destruct K]. cbn. rewrite rev_involutive. reflexivity.
  Qed.
  Lemma note_deps_ok ls t : Forall line_ok ls -> ~ In 10 t ->
    Forall2 (fun d p => relpath cwd p n_dot = Some d /\ place cwd d = place cwd p) (note_deps cwd (concat (map line_text ls) ++ t)) (included ls).
  Proof.
    intros H Ht. unfold note_deps. rewrite klines_out by assumption. rewrite flat_map_app.
    replace (flat_map _ match t with [] => [] | _ => [t] end) with (@nil str).
    2: { destruct t as [|c t]; [reflexivity|]. cbn [flat_map]. rewrite last_none by exact Ht. reflexivity. }
    rewrite app_nil_r. induction H as [|l ls Hl _ IH]; [constructor|]. cbn [map flat_map included]. destruct l as [a b p|u].
    - destruct Hl as (H1 & _ & H2). rewrite note_ok by assumption. destruct (relpath_here p H1) as (r & Er & Pr). rewrite Er. constructor; [auto|exact IH].
    - cbn [line_text]. rewrite (other_none u Hl). exact IH.
  Qed.
End Deps.
