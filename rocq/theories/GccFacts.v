(** Facts about the commands given to gcc. *)
From Coq Require Import List NArith Bool Arith Lia Sorted Permutation.
From Verif Require Import FnModel PathModel PathSpec PathFacts LinkModel LinkSpec LinkFacts GccModel GccSpec.
Import ListNotations.
Open Scope N_scope.

(** *** Alphabetical order *)
Lemma leb_before a : forall b, str_leb a b = true -> a = b \/ before a b.
Proof.
  induction a as [|c a IH]; intros [|d b] H; simpl in H; try discriminate.
  - left. reflexivity.
  - right. constructor.
  - destruct (N.ltb_spec c d); [right; constructor; assumption|].
    destruct (N.eqb_spec c d) as [->|]; [|discriminate].
    destruct (IH b H) as [->|K]; [left; reflexivity|right; constructor; exact K].
Qed.
Lemma not_leb_before a : forall b, str_leb a b = false -> before b a.
Proof.
  induction a as [|c a IH]; intros [|d b] H; simpl in H; try discriminate.
  - constructor.
  - destruct (N.ltb_spec c d); [discriminate|].
    destruct (N.eqb_spec c d) as [->|]; [constructor; apply IH; exact H|]. constructor. lia.
Qed.
Lemma before_irrefl a : ~ before a a.
Proof.
  induction a as [|c a IH]; intros H; inversion H; subst; [lia|]. apply IH. assumption.
Qed.
Lemma before_trans a : forall b c, before a b -> before b c -> before a c.
Proof.
  induction a as [|x a IH]; intros b c H1 H2.
  - inversion H1; subst. inversion H2; subst; constructor.
  - inversion H1 as [|? y ? b' Hxy|? ? b' Hab]; subst.
    + inversion H2 as [|? z ? c' Hyz|]; subst; apply before_lt; [apply (N.lt_trans x y z)|]; assumption.
    + inversion H2 as [|? z ? c' Hyz|? ? c' Hbc]; subst.
      * apply before_lt. assumption.
      * apply before_eq. apply (IH b'); assumption.
Qed.

Lemma insert_in s l x : In x (insert s l) <-> x = s \/ In x l.
Proof.
  induction l as [|t l IH]; simpl; [intuition|]. destruct (str_leb s t); simpl; [intuition|]. rewrite IH. intuition.
Qed.
Lemma insert_alpha s l : ~ In s l -> alphabetical l -> alphabetical (insert s l).
Proof.
  intros Hn Hl. induction Hl as [|t l Hl IH Hall]; simpl; [repeat constructor|].
  destruct (str_leb s t) eqn:E.
  - constructor; [constructor; assumption|]. destruct (leb_before s t E) as [->|Hb]; [destruct Hn; left; reflexivity|].
    constructor; [exact Hb|]. rewrite Forall_forall in *. intros x Hx. apply (before_trans s t x Hb). apply Hall. exact Hx.
  - constructor; [apply IH; intros K; apply Hn; right; exact K|]. rewrite Forall_forall in *. intros x Hx.
    apply insert_in in Hx as [->|Hx]; [apply not_leb_before; exact E|apply Hall; exact Hx].
Qed.
Lemma sorted_in l x : In x (sorted l) <-> In x l.
Proof. induction l as [|s l IH]; simpl; [tauto|]. rewrite insert_in, IH. intuition. Qed.
Lemma sorted_alpha l : NoDup l -> alphabetical (sorted l).
Proof.
  induction 1 as [|s l Hn Hl IH]; simpl; [constructor|]. apply insert_alpha; [|exact IH]. rewrite sorted_in. exact Hn.
Qed.
Lemma alpha_filter p l : alphabetical l -> alphabetical (filter p l).
Proof.
  induction 1 as [|s l Hl IH Hall]; simpl; [constructor|]. destruct (p s); [|exact IH]. constructor; [exact IH|].
  rewrite Forall_forall in *. intros x Hx. apply filter_In in Hx as [Hx _]. apply Hall. exact Hx.
Qed.
(** An alphabetical list is determined by its elements. *)
Lemma alpha_unique l : forall k, alphabetical l -> alphabetical k -> (forall x, In x l <-> In x k) -> l = k.
Proof.
  induction l as [|a l IH]; intros [|b k] Hl Hk H.
  - reflexivity.
  - destruct (proj2 (H b)). left. reflexivity.
  - destruct (proj1 (H a)). left. reflexivity.
  - inversion Hl as [|? ? Hl1 Hl2]; inversion Hk as [|? ? Hk1 Hk2]; subst. rewrite Forall_forall in Hl2, Hk2.
    assert (a = b) as <-.
    { destruct (proj1 (H a) (or_introl eq_refl)) as [E|Ha]; [symmetry; exact E|].
      destruct (proj2 (H b) (or_introl eq_refl)) as [E|Hb]; [exact E|].
      destruct (before_irrefl a). apply (before_trans a b a); [apply Hl2|apply Hk2]; assumption. }
    f_equal. apply IH; try assumption. intros x. specialize (H x). simpl in H.
    split; intros Hx.
    + destruct (proj1 H (or_intror Hx)) as [<-|K]; [|exact K]. destruct (before_irrefl a). apply Hl2. exact Hx.
    + destruct (proj2 H (or_intror Hx)) as [<-|K]; [|exact K]. destruct (before_irrefl a). apply Hk2. exact Hx.
Qed.

Lemma set_of_in l x : In x (set_of l) <-> In x l.
Proof. unfold set_of. rewrite fold_add_in. simpl. tauto. Qed.
Lemma set_of_nodup l : NoDup (set_of l).
Proof. apply fold_add_nodup. constructor. Qed.
Lemma nonempty_ok s : nonempty s = true <-> s <> [].
Proof. destruct s; simpl; split; congruence. Qed.

(** *** Each element at its first place *)
Lemma filter_filter {A} (p q : A -> bool) l : filter p (filter q l) = filter (fun x => q x && p x) l.
Proof.
  induction l as [|x l IH]; [reflexivity|]. simpl. destruct (q x); simpl; [destruct (p x); rewrite IH; reflexivity|exact IH].
Qed.
Lemma firsts_in l x : In x (firsts str_eqb l) <-> In x l.
Proof.
  induction l as [|y l IH]; simpl; [tauto|]. rewrite filter_In, IH. split; [tauto|].
  intros [->|H]; [left; reflexivity|]. destruct (str_eqb y x) eqn:E.
  - left. apply str_eqb_true. exact E.
  - right. split; [exact H|reflexivity].
Qed.
Lemma fold_add_firsts l : forall acc, fold_left add_new l acc = acc ++ filter (fun x => negb (mem x acc)) (firsts str_eqb l).
Proof.
  induction l as [|x l IH]; intros acc; simpl; [rewrite app_nil_r; reflexivity|].
  rewrite IH. unfold add_new. destruct (mem x acc) eqn:E; simpl.
  - f_equal. rewrite filter_filter. apply filter_ext_in. intros y Hy.
    destruct (str_eqb x y) eqn:Exy; [|reflexivity]. apply str_eqb_true in Exy as <-. rewrite E. reflexivity.
  - rewrite <- app_assoc. simpl. f_equal. f_equal. rewrite filter_filter. apply filter_ext. intros y.
    unfold mem. rewrite existsb_app. simpl. rewrite orb_false_r, negb_orb, andb_comm. f_equal. f_equal.
    destruct (str_eqb y x) eqn:E1, (str_eqb x y) eqn:E2; try reflexivity.
    + apply str_eqb_true in E1 as ->. rewrite str_eqb_refl in E2. discriminate.
    + apply str_eqb_true in E2 as ->. rewrite str_eqb_refl in E1. discriminate.
Qed.
Lemma dedup_firsts l : fold_left add_new l [] = firsts str_eqb l.
Proof.
  rewrite fold_add_firsts. simpl. induction (firsts str_eqb l) as [|x k IH]; [reflexivity|]. simpl. rewrite IH. reflexivity.
Qed.

(** *** Reading arguments *)
Lemma items_app n : forall a, (length a <= n)%nat -> forall b l k, items a = Some l -> items b = Some k -> items (a ++ b) = Some (l ++ k).
Proof.
  induction n as [|n IH]; intros [|w a] Hn b l k Ha Hb; simpl in Hn; try lia; simpl in Ha; try (injection Ha as <-; exact Hb).
  simpl. destruct (word w) as [i|f].
  - destruct (items a) as [l'|] eqn:E; [|discriminate]. injection Ha as <-.
    rewrite (IH a ltac:(lia) b l' k E Hb). reflexivity.
  - destruct a as [|x a]; [discriminate|]. simpl. destruct (items a) as [l'|] eqn:E; [|discriminate]. injection Ha as <-.
    simpl in Hn. rewrite (IH a ltac:(lia) b l' k E Hb). reflexivity.
Qed.
Lemma items_cat a b l k : items a = Some l -> items b = Some k -> items (a ++ b) = Some (l ++ k).
Proof. apply (items_app (length a)). apply le_n. Qed.

Lemma items_map (f : str -> str) (g : str -> item) l :
  (forall x, In x l -> word (f x) = inl (g x)) -> items (map f l) = Some (map g l).
Proof.
  induction l as [|x l IH]; intros H; [reflexivity|]. simpl. rewrite H by (left; reflexivity).
  rewrite IH; [reflexivity|]. intros y Hy. apply H. right. exact Hy.
Qed.
Lemma word_input s : (forall r, s <> dash :: r) -> word s = inl (Input s).
Proof.
  intros H. destruct s as [|c [|d s]]; try reflexivity. simpl. destruct (N.eqb_spec c dash) as [->|]; [|reflexivity].
  destruct (H (d :: s)). reflexivity.
Qed.
Lemma word_I x : x <> [] -> word (w_I ++ x) = inl (Include x).
Proof. destruct x; [congruence|reflexivity]. Qed.
Lemma word_D x : x <> [] -> word (w_D ++ x) = inl (Macro x).
Proof. destruct x; [congruence|reflexivity]. Qed.
Lemma word_L x : x <> [] -> word (w_L ++ x) = inl (LibDir x).
Proof. destruct x; [congruence|reflexivity]. Qed.
Lemma word_l x : x <> [] -> word (w_l ++ x) = inl (Lib x).
Proof. destruct x; [congruence|reflexivity]. Qed.
Lemma word_W x : word (w_W ++ x) = inl (Warning x).
Proof. reflexivity. Qed.
Lemma word_m x : word (w_m ++ x) = inl (Machine x).
Proof. reflexivity. Qed.

(** -c among the words is -c among the options, if it is nobody's argument. *)
Lemma word_single w i : word w = inl i -> (i = Single w_c <-> w = w_c).
Proof.
  intros H. split.
  - intros ->. destruct w as [|c0 [|c1 w]]; try discriminate. unfold word in H.
    repeat match type of H with
    | context[if ?b then _ else _] => destruct b eqn:?
    | context[match ?x with [] => _ | _ => _ end] => destruct x eqn:?
    end; try discriminate; inversion H; reflexivity.
  - intros ->. vm_compute in H. injection H as <-. reflexivity.
Qed.
Lemma word_double w k : word w = inr k -> w <> w_c /\ forall a, argument (k a) = a /\ k a <> Single w_c.
Proof.
  intros H. split; [intros ->; vm_compute in H; discriminate|]. intros a.
  destruct w as [|c0 [|c1 w]]; try discriminate. unfold word in H.
  repeat match type of H with
  | context[if ?b then _ else _] => destruct b eqn:?
  | context[match ?x with [] => _ | _ => _ end] => destruct x eqn:?
  end; try discriminate; injection H as <-; split; (reflexivity || discriminate).
Qed.
Lemma items_c n : forall ws, (length ws <= n)%nat -> forall l, items ws = Some l ->
  (forall i, In i l -> argument i <> w_c) -> (In w_c ws <-> compile_only l).
Proof.
  induction n as [|n IH]; intros [|w ws] Hn l H Ha; simpl in Hn; try lia; simpl in H;
    try (injection H as <-; split; intros []).
  destruct (word w) as [i|k] eqn:Ew.
  - destruct (items ws) as [l'|] eqn:E; [|discriminate]. injection H as <-.
    pose proof (IH ws ltac:(lia) l' E (fun i Hi => Ha i (or_intror Hi))) as [I1 I2].
    pose proof (word_single w i Ew) as [W1 W2]. unfold compile_only in *. change [45; 99] with w_c in *. simpl.
    split; (intros [K|K]; [left|right]); auto.
  - destruct ws as [|a ws]; [discriminate|]. destruct (items ws) as [l'|] eqn:E; [|discriminate]. injection H as <-.
    simpl in Hn. pose proof (IH ws ltac:(lia) l' E (fun i Hi => Ha i (or_intror Hi))) as [I1 I2].
    destruct (word_double w k Ew) as [Hw Hk]. destruct (Hk a) as [Harg Hne].
    assert (a <> w_c) by (rewrite <- Harg; apply Ha; left; reflexivity).
    unfold compile_only in *. change [45; 99] with w_c in *. simpl. split; [intros [K|[K|K]]|intros [K|K]]; try contradiction; auto.
Qed.

(** *** Directories of libraries *)
Definition of_lib (l : lib) (x : str) : Prop := In x (paths_of l) \/ x = fst (psplit (path_of l)).
Lemma reach_trans a b c : reach a b -> reach b c -> reach a c.
Proof. induction 1 as [|l d e Hd _ IH]; intros H; [exact H|]. apply (reach_step l d); auto. Qed.

Lemma visits_paths_sound ls : Forall (fun l => forall s x, In x (libpaths (visit l s)) -> In x (libpaths s) \/ exists k, reach l k /\ of_lib k x) ls ->
  forall s x, In x (libpaths (visits ls s)) -> In x (libpaths s) \/ exists k, (exists l, In l ls /\ reach l k) /\ of_lib k x.
Proof.
  induction 1 as [|l ls Hl Hls IH]; intros s x H; simpl in *; [left; exact H|].
  apply IH in H as [H|(k & (l' & Hl' & Hr) & Hk)].
  - apply Hl in H as [H|(k & Hr & Hk)]; [left; exact H|]. right. exists k. split; [exists l; auto|exact Hk].
  - right. exists k. split; [exists l'; auto|exact Hk].
Qed.
Lemma visit_paths_sound l : forall s x, In x (libpaths (visit l s)) -> In x (libpaths s) \/ exists k, reach l k /\ of_lib k x.
Proof.
  induction l as [p|p a ls e IH] using lib_ind'; intros s x H; simpl in H.
  - destruct (mem p (new_libs s)); [left; exact H|]. apply add_new_in in H as [H|H]; [left; exact H|].
    right. exists (Plain p). split; [constructor|right; exact H].
  - apply add_new_in in H as [H|H].
    + apply (visits_paths_sound ls IH) in H as [H|(k & (l & Hl & Hr) & Hk)]; simpl in *.
      * apply fold_add_in in H as [H|H]; [left; exact H|]. right. eexists. split; [constructor|left; exact H].
      * right. exists k. split; [apply (reach_step (Library p a ls e) l); auto|exact Hk].
    + right. eexists. split; [constructor|right; exact H].
Qed.
Section Complete.
  Variable roots : list lib.
  Hypothesis Hd : distinct_names roots.
  Lemma visits_paths ls :
    Forall (fun l => forall s, inv roots s -> used roots l -> forall k x, reach l k -> of_lib k x -> In x (libpaths (visit l s))) ls ->
    forall s, inv roots s -> (forall l, In l ls -> used roots l) ->
    forall l k x, In l ls -> reach l k -> of_lib k x -> In x (libpaths (visits ls s)).
  Proof.
    induction 1 as [|l ls Hl Hls IH]; intros s Hi Hu l' k x Hl' Hr Hx; simpl in *; [contradiction|].
    destruct (visit_inv roots Hd l s Hi (Hu l (or_introl eq_refl))) as [Hi' _].
    destruct Hl' as [->|Hl'].
    - assert (grows (visit l' s) (visits ls (visit l' s))) as [G _ _].
      { apply visits_grows. apply Forall_forall. intros y _. apply visit_grows. }
      apply G. apply (Hl s Hi (Hu l' (or_introl eq_refl)) k); assumption.
    - apply (IH (visit l s) Hi' (fun y Hy => Hu y (or_intror Hy)) l' k); assumption.
  Qed.
  Lemma visit_paths l : forall s, inv roots s -> used roots l -> forall k x, reach l k -> of_lib k x -> In x (libpaths (visit l s)).
  Proof.
    induction l as [p|p a ls e IH] using lib_ind'; intros s Hi Hu k x Hr Hx; simpl.
    - inversion Hr as [|? d ? Hdep]; subst; [|destruct Hdep]. destruct Hx as [[]|Hx].
      destruct (mem p (new_libs s)) eqn:E.
      + exfalso. apply mem_ok in E. destruct (i_used roots s Hi p E) as (l & Hl & Hn).
        apply (proj2 Hd p l Hu Hl). symmetry. exact Hn.
      + simpl. apply add_new_in. right. exact Hx.
    - apply add_new_in. set (s0 := St _ _ (new_libs s)).
      assert (inv roots s0) as Hi0 by (destruct Hi as [I1 I2]; split; assumption).
      assert (grows s0 (visits ls s0)) as [G _ _].
      { apply visits_grows. apply Forall_forall. intros y _. apply visit_grows. }
      inversion Hr as [|? d ? Hdep Hr']; subst.
      + destruct Hx as [Hx|Hx]; [|right; exact Hx]. left. apply G. simpl. apply fold_add_in. right. exact Hx.
      + left. apply (visits_paths ls IH s0 Hi0) with (l := d) (k := k); try assumption.
        intros y Hy. apply (used_dep roots (Library p a ls e)); [exact Hu|exact Hy].
  Qed.
End Complete.

(** *** All directories and external libraries *)
Lemma link_paths_sound sp p se e sl l x : In x (r_libpaths (link sp p se e sl l)) ->
  In x sp \/ In x p \/ exists k, used (sl ++ l) k /\ of_lib k x.
Proof.
  simpl. intros H.
  apply (visits_paths_sound (sl ++ l)) in H as [H|(k & Hu & Hk)].
  - simpl in H. apply fold_add_in in H as [[]|H]. apply in_app_or in H. tauto.
  - right. right. exists k. split; [|exact Hk]. destruct Hu as (r & Hr & Hk'). exists r. auto.
  - apply Forall_forall. intros y _. apply visit_paths_sound.
Qed.
Lemma link_paths sp p se e sl l x : distinct_names (sl ++ l) ->
  In x sp \/ In x p \/ (exists k, used (sl ++ l) k /\ of_lib k x) -> In x (r_libpaths (link sp p se e sl l)).
Proof.
  intros Hd H. simpl. set (s0 := St _ _ []).
  assert (inv (sl ++ l) s0) as Hi by (split; simpl; [intros n []|intros a b _ []]).
  assert (grows s0 (visits (sl ++ l) s0)) as [G _ _].
  { apply visits_grows. apply Forall_forall. intros y _. apply visit_grows. }
  destruct H as [H|[H|(k & (r & Hr & Hk) & Hx)]].
  - apply G. simpl. apply fold_add_in. right. apply in_or_app. left. exact H.
  - apply G. simpl. apply fold_add_in. right. apply in_or_app. right. exact H.
  - apply (visits_paths (sl ++ l) Hd) with (l := r) (k := k); try assumption.
    + apply Forall_forall. intros y _. apply visit_paths. exact Hd.
    + intros y Hy. exists y. split; [exact Hy|constructor].
Qed.
Lemma visits_nodups ls : Forall (fun l => forall s, NoDup (libpaths s) /\ NoDup (externals s) -> NoDup (libpaths (visit l s)) /\ NoDup (externals (visit l s))) ls ->
  forall s, NoDup (libpaths s) /\ NoDup (externals s) -> NoDup (libpaths (visits ls s)) /\ NoDup (externals (visits ls s)).
Proof. induction 1 as [|l ls Hl Hls IH]; intros s H; simpl; [exact H|]. apply IH. apply Hl. exact H. Qed.
Lemma visit_nodups l : forall s, NoDup (libpaths s) /\ NoDup (externals s) -> NoDup (libpaths (visit l s)) /\ NoDup (externals (visit l s)).
Proof.
  induction l as [p|p a ls e IH] using lib_ind'; intros s H; simpl.
  - destruct (mem p (new_libs s)); [exact H|]. simpl. split; [apply add_new_nodup|]; apply H.
  - set (s0 := St _ _ (new_libs s)).
    destruct (visits_nodups ls IH s0) as [H1 H2].
    + simpl. split; apply fold_add_nodup; apply H.
    + split; [apply add_new_nodup; exact H1|exact H2].
Qed.
Lemma link_nodups sp p se e sl l : NoDup (r_libpaths (link sp p se e sl l)) /\ NoDup (r_externals (link sp p se e sl l)).
Proof.
  simpl. apply visits_nodups; [apply Forall_forall; intros y _; apply visit_nodups|].
  simpl. split; apply fold_add_nodup; constructor.
Qed.
Lemma visits_exts_sound ls : Forall (fun l => forall s x, In x (externals (visit l s)) -> In x (externals s) \/ exists k, reach l k /\ In x (needs_external k)) ls ->
  forall s x, In x (externals (visits ls s)) -> In x (externals s) \/ exists k, (exists l, In l ls /\ reach l k) /\ In x (needs_external k).
Proof.
  induction 1 as [|l ls Hl Hls IH]; intros s x H; simpl in *; [left; exact H|].
  apply IH in H as [H|(k & (l' & Hl' & Hr) & Hk)].
  - apply Hl in H as [H|(k & Hr & Hk)]; [left; exact H|]. right. exists k. split; [exists l; auto|exact Hk].
  - right. exists k. split; [exists l'; auto|exact Hk].
Qed.
Lemma visit_exts_sound l : forall s x, In x (externals (visit l s)) -> In x (externals s) \/ exists k, reach l k /\ In x (needs_external k).
Proof.
  induction l as [p|p a ls e IH] using lib_ind'; intros s x H; simpl in H.
  - destruct (mem p (new_libs s)); left; exact H.
  - apply (visits_exts_sound ls IH) in H as [H|(k & (l & Hl & Hr) & Hk)]; simpl in *.
    + apply fold_add_in in H as [H|H]; [left; exact H|]. right. eexists. split; [constructor|exact H].
    + right. exists k. split; [apply (reach_step (Library p a ls e) l); auto|exact Hk].
Qed.
Lemma link_exts sp p se e sl l x : In x (r_externals (link sp p se e sl l)) <->
  In x se \/ In x e \/ exists k, used (sl ++ l) k /\ In x (needs_external k).
Proof.
  split.
  - simpl. intros H. apply (visits_exts_sound (sl ++ l)) in H as [H|(k & Hu & Hk)].
    + simpl in H. apply fold_add_in in H as [[]|H]. apply in_app_or in H. tauto.
    + right. right. exists k. split; [|exact Hk]. destruct Hu as (r & Hr & Hk'). exists r. auto.
    + apply Forall_forall. intros y _. apply visit_exts_sound.
  - intros [H|[H|(k & Hu & Hx)]]; [| |apply (link_externals sp p se e sl l k); assumption]; simpl; set (s0 := St _ _ []).
    + assert (grows s0 (visits (sl ++ l) s0)) as [_ G _] by (apply visits_grows; apply Forall_forall; intros y _; apply visit_grows).
      apply G. simpl. apply fold_add_in. right. apply in_or_app. left. exact H.
    + assert (grows s0 (visits (sl ++ l) s0)) as [_ G _] by (apply visits_grows; apply Forall_forall; intros y _; apply visit_grows).
      apply G. simpl. apply fold_add_in. right. apply in_or_app. right. exact H.
Qed.

(** *** The directory part *)
Lemma rstrip_repeat h : exists k, h = rstrip h ++ repeat c_sep k.
Proof.
  induction h as [|c h [k IH]]; [exists 0%nat; reflexivity|]. simpl. destruct (rstrip h) as [|d r] eqn:E.
  - destruct (is_sep c) eqn:Ec.
    + apply is_sep_true in Ec as ->. exists (S k). simpl. f_equal. exact IH.
    + exists k. simpl. f_equal. exact IH.
  - exists k. simpl. f_equal. exact IH.
Qed.
Lemma rstrip_end h : forallb is_sep h = false -> exists d c, rstrip h = d ++ [c] /\ c <> c_sep.
Proof.
  induction h as [|c h IH]; simpl; intros H; [discriminate|]. destruct (forallb is_sep h) eqn:E.
  - rewrite andb_true_r in H. assert (rstrip h = []) as ->.
    { clear - E. induction h as [|d h IH]; [reflexivity|]. simpl in *. apply andb_prop in E as [E1 E2]. rewrite (IH E2), E1. reflexivity. }
    rewrite H. exists [], c. split; [reflexivity|]. intros ->. discriminate.
  - destruct (IH eq_refl) as (d & x & -> & Hx). exists (c :: d), x. split; [|exact Hx].
    destruct (d ++ [x]) eqn:Ed; [destruct d; discriminate|]. simpl. rewrite Ed. reflexivity.
Qed.
Lemma directory_split p : directory p (fst (psplit p)).
Proof.
  unfold psplit. destruct (cut p) as [h t] eqn:E. destruct (cut_spec p h t E) as (-> & Ht & Hh).
  exists h, t. split; [reflexivity|]. split; [exact Ht|]. split; [exact Hh|].
  destruct (forallb is_sep h) eqn:Es; simpl.
  - left. split; [|reflexivity]. rewrite forallb_forall in Es. intros c Hc. apply is_sep_true. apply Es. exact Hc.
  - right. split; [apply rstrip_repeat|apply rstrip_end; exact Es].
Qed.
Lemma repeat_last (d d' : str) c c' k k' : c <> c_sep -> c' <> c_sep ->
  (d ++ [c]) ++ repeat c_sep k = (d' ++ [c']) ++ repeat c_sep k' -> d ++ [c] = d' ++ [c'].
Proof.
  intros Hc Hc'. revert k'. induction k as [|k IH]; intros [|k'] H.
  - rewrite !app_nil_r in H. exact H.
  - exfalso. rewrite app_nil_r in H. apply Hc. change (S k') with (1 + k')%nat in H. rewrite Nat.add_comm, repeat_app, app_assoc in H.
    simpl in H. apply app_inj_tail in H as [_ H]. exact H.
  - exfalso. rewrite app_nil_r in H. apply Hc'. change (S k) with (1 + k)%nat in H. rewrite Nat.add_comm, repeat_app, app_assoc in H.
    simpl in H. apply app_inj_tail in H as [_ H]. symmetry. exact H.
  - change (S k) with (1 + k)%nat in H. change (S k') with (1 + k')%nat in H.
    rewrite (Nat.add_comm 1 k), (Nat.add_comm 1 k'), !repeat_app, !app_assoc in H.
    apply app_inj_tail in H as [H _]. apply (IH k'). exact H.
Qed.
Lemma directory_unique p d e : directory p d -> directory p e -> d = e.
Proof.
  intros (h & n & E & Hn & Hh & Hd) (h' & n' & E' & Hn' & Hh' & He).
  assert (h = h') as <-.
  { pose proof (cut_app h n Hh Hn) as C. pose proof (cut_app h' n' Hh' Hn') as C'. rewrite <- E in C. rewrite <- E' in C'. congruence. }
  clear - Hd He. destruct Hd as [[Hs ->]|[[k Hk] (d' & c & -> & Hc)]], He as [[Hs' ->]|[[k' Hk'] (e' & c' & -> & Hc')]].
  - reflexivity.
  - destruct Hc'. apply Hs. rewrite Hk'. apply in_or_app. left. apply in_or_app. right. left. reflexivity.
  - destruct Hc. apply Hs'. rewrite Hk. apply in_or_app. left. apply in_or_app. right. left. reflexivity.
  - apply (repeat_last d' e' c c' k k' Hc Hc'). rewrite <- Hk, <- Hk'. reflexivity.
Qed.
Lemma directory_iff p d : directory p d <-> d = fst (psplit p).
Proof.
  split; [|intros ->; apply directory_split]. intros H. apply (directory_unique p); [exact H|apply directory_split].
Qed.

(** *** Repeated flags *)
Definition is_word (w : str) (g : list str) : bool := match g with [v] => str_eqb w v | _ => false end.
Lemma is_word_true w g : is_word w g = true -> g = [w].
Proof. destruct g as [|v [|? ?]]; simpl; try discriminate. intros H. apply str_eqb_true in H as ->. reflexivity. Qed.
Lemma filter_concat_single w (gs : list (list str)) :
  (forall g, In g gs -> single_option g \/ ~ In w g) ->
  filter (fun y => negb (str_eqb w y)) (concat gs) = concat (filter (fun g => negb (is_word w g)) gs).
Proof.
  induction gs as [|g gs IH]; intros H; [reflexivity|]. simpl. rewrite filter_app, IH by (intros x Hx; apply H; right; exact Hx).
  destruct (is_word w g) eqn:Ew; simpl.
  - apply is_word_true in Ew as ->. simpl. rewrite str_eqb_refl. reflexivity.
  - f_equal. destruct (H g (or_introl eq_refl)) as [(v & i & -> & _)|Hn].
    + simpl in *. rewrite Ew. reflexivity.
    + clear - Hn. induction g as [|x g IH]; [reflexivity|]. simpl. destruct (str_eqb w x) eqn:E.
      * apply str_eqb_true in E as ->. destruct Hn. left. reflexivity.
      * simpl. f_equal. apply IH. intros K. apply Hn. right. exact K.
Qed.
Lemma subsequence_filter {A} (p : A -> bool) a b : subsequence a b -> subsequence (filter p a) b.
Proof. induction 1 as [|x a b H IH|x a b H IH]; simpl; [constructor| |constructor; exact IH]. destruct (p x); constructor; exact IH. Qed.
Lemma subsequence_in {A} (a b : list A) x : subsequence a b -> In x a -> In x b.
Proof. induction 1 as [|y a b H IH|y a b H IH]; simpl; [tauto| |]; intuition. Qed.
Lemma subsequence_map {A B} (f : A -> B) a b : subsequence a b -> subsequence (map f a) (map f b).
Proof. induction 1; simpl; constructor; assumption. Qed.

Lemma firsts_concat gs :
  Forall (fun g => single_option g \/ double_option g) gs ->
  (forall g w, In g gs -> double_option g -> In w g -> once w (concat gs)) ->
  exists gs', firsts str_eqb (concat gs) = concat gs' /\ subsequence gs' gs /\ forall g, In g gs -> In g gs'.
Proof.
  induction 1 as [|g gs Hg Hgs IH]; intros Ho; [exists []; repeat split; [constructor|tauto]|].
  destruct IH as (gs' & E & Hs & Hin).
  { intros g' w Hg' Hd Hw. destruct (Ho g' w (or_intror Hg') Hd Hw) as (a & b & Hab & Ha & Hb). simpl in Hab.
    assert (In w (concat gs)) as Hwc by (apply in_concat; exists g'; auto).
    assert (~ In w g) as Hng.
    { intros K. clear - K Hwc Hab Ha Hb. revert a Hab Ha. induction g as [|x g IHg]; intros a Hab Ha; [contradiction|].
      destruct a as [|y a]; simpl in Hab; injection Hab as E1 E2.
      - subst x. apply Hb. rewrite <- E2. apply in_or_app. right. exact Hwc.
      - destruct K as [->|K]; [apply Ha; left; symmetry; exact E1|]. apply (IHg K a E2). intros K'. apply Ha. right. exact K'. }
    revert a Hab Ha. clear - Hng Hb. induction g as [|x g IHg]; intros a Hab Ha; [exists a, b; auto|].
    destruct a as [|y a]; simpl in Hab; injection Hab as E1 E2.
    - destruct Hng. left. exact E1.
    - apply (IHg (fun K => Hng (or_intror K)) a E2). intros K'. apply Ha. right. exact K'. }
  assert (forall w, In w g -> forall g', In g' gs' -> single_option g' \/ ~ In w g') as Hsep.
  { intros w Hw g' Hg'. rewrite Forall_forall in Hgs. pose proof (subsequence_in _ _ _ Hs Hg') as Hg''.
    destruct (Hgs g' Hg'') as [H|H]; [left; exact H|right]. intros K.
    destruct (Ho g' w (or_intror Hg'') H K) as (a & b & Hab & Ha & Hb). simpl in Hab.
    assert (In w (concat gs)) as Hwc by (apply in_concat; exists g'; auto).
    clear - Hw Hwc Hab Ha Hb. revert a Hab Ha. induction g as [|x g IHg]; intros a Hab Ha; [contradiction|].
    destruct a as [|y a]; simpl in Hab; injection Hab as E1 E2.
    - subst x. apply Hb. rewrite <- E2. apply in_or_app. right. exact Hwc.
    - destruct Hw as [->|Hw]; [apply Ha; left; symmetry; exact E1|]. apply (IHg Hw a E2). intros K'. apply Ha. right. exact K'. }
  destruct Hg as [(w & i & -> & Hw)|(w & a & k & -> & Hw)].
  - exists ([w] :: filter (fun g => negb (is_word w g)) gs').
    split; [|split].
    + simpl. rewrite E. f_equal. apply filter_concat_single. apply Hsep. left. reflexivity.
    + constructor. apply subsequence_filter. exact Hs.
    + intros g [<-|Hg]; [left; reflexivity|].
      destruct (is_word w g) eqn:Ed; [apply is_word_true in Ed as ->; left; reflexivity|].
      right. apply filter_In. split; [apply Hin; exact Hg|]. rewrite Ed. reflexivity.
  - exists ([w; a] :: gs'). split; [|split].
    + simpl. rewrite E.
      destruct (Ho [w; a] w (or_introl eq_refl)) as (x & y & Hxy & Hx & Hy); [exists w, a, k; auto|left; reflexivity|].
      destruct x as [|x0 x]; simpl in Hxy; [injection Hxy as E2; subst y|injection Hxy as E1 E2; destruct Hx; left; symmetry; exact E1].
      destruct (str_eqb w a) eqn:Ewa; [apply str_eqb_true in Ewa; destruct Hy; left; symmetry; exact Ewa|]. simpl. f_equal. f_equal.
      destruct (Ho [w; a] a (or_introl eq_refl)) as (u & v & Huv & Hu & Hv); [exists w, a, k; auto|right; left; reflexivity|].
      assert (~ In a (concat gs)) as Hna.
      { simpl in Huv. destruct u as [|u0 [|u1 u]]; simpl in Huv; injection Huv; intros; subst.
        - rewrite str_eqb_refl in Ewa. discriminate.
        - exact Hv.
        - destruct Hu. right. left. reflexivity. }
      rewrite filter_filter. rewrite <- E. clear - Hy Hna. 
      assert (forall x, In x (firsts str_eqb (concat gs)) -> x <> w /\ x <> a) as H.
      { intros x Hx. apply (proj1 (firsts_in (concat gs) x)) in Hx. split; intros ->; [apply Hy; right; exact Hx|apply Hna; exact Hx]. }
      revert H. induction (firsts str_eqb (concat gs)) as [|x l IH]; intros H; [reflexivity|].
      simpl. destruct (H x (or_introl eq_refl)) as [H1 H2].
      destruct (str_eqb a x) eqn:E1; [apply str_eqb_true in E1; congruence|].
      destruct (str_eqb w x) eqn:E2; [apply str_eqb_true in E2; congruence|]. simpl. f_equal. apply IH.
      intros z Hz. apply H. right. exact Hz.
    + constructor. exact Hs.
    + intros g [<-|Hg]; [left; reflexivity|right; apply Hin; exact Hg].
Qed.
