(** Lemmas about targets and their description. *)
From Coq Require Import List NArith Bool Arith Lia Sorted.
From Verif Require Import FnModel FnFacts PathModel PathFacts LinkFacts GccModel GccSpec GccFacts HelpModel HelpSpec.
Import ListNotations.
Open Scope nat_scope.

Definition reg_name (r : registration) : str := t_name (mk_target (r_fn r) (r_given r) (r_text r)).
Definition reg_help (r : registration) : str :=
  match t_help (mk_target (r_fn r) (r_given r) (r_text r)) with Some h => h | None => [] end.
Definition reg_target (r : registration) : target := mk_target (r_fn r) (r_given r) (r_text r).
Lemma called_name r n : called r n <-> n = reg_name r.
Proof.
  unfold reg_name, mk_target. simpl. split.
  - destruct 1 as [n H|H]; rewrite H; reflexivity.
  - destruct (r_given r) eqn:E; intros ->; constructor; exact E.
Qed.
Lemma described_help r h : described r h <-> h = reg_help r.
Proof.
  unfold reg_help, mk_target. simpl. split.
  - destruct 1 as [h H|h H H'|H H']; rewrite H; try reflexivity; rewrite H'; reflexivity.
  - destruct (r_text r) eqn:E; [intros ->; constructor; exact E|].
    destruct (f_doc (r_fn r)) eqn:E'; intros ->; [apply described_doc|apply described_not]; assumption.
Qed.

Lemma find_store k t n : forall d, find (store k t d) n = if str_eqb n k then Some t else find d n.
Proof.
  induction d as [|[k' t'] d IH]; simpl; [reflexivity|].
  destruct (str_eqb k k') eqn:E; simpl.
  - apply str_eqb_eq in E. subst k'. destruct (str_eqb n k); reflexivity.
  - rewrite IH. destruct (str_eqb n k') eqn:E2; [|reflexivity].
    destruct (str_eqb n k) eqn:E3; [|reflexivity]. apply str_eqb_eq in E2, E3. subst k' k.
    assert (X : str_eqb n n = true) by (apply str_eqb_eq; reflexivity). congruence.
Qed.
Lemma store_keys k t : forall d x, In x (map fst (store k t d)) <-> x = k \/ In x (map fst d).
Proof.
  induction d as [|[k' t'] d IH]; intros x; simpl; [intuition|].
  destruct (str_eqb k k') eqn:E; simpl; [|rewrite IH; intuition].
  apply str_eqb_eq in E. subst k'. intuition.
Qed.
Lemma store_nodup k t : forall d, NoDup (map fst d) -> NoDup (map fst (store k t d)).
Proof.
  induction d as [|[k' t'] d IH]; simpl; intros H; [repeat constructor; tauto|].
  inversion_clear H as [|? ? Hn Hd]. destruct (str_eqb k k') eqn:E; simpl; constructor; try assumption; [|apply IH; exact Hd].
  rewrite store_keys. intros [->|Hi]; [|tauto]. assert (str_eqb k k = true) by (apply str_eqb_eq; reflexivity). congruence.
Qed.
Definition keyed (d : targets) : Prop := NoDup (map fst d) /\ Forall (fun p => fst p = t_name (snd p)) d.
Lemma store_keyed t d : keyed d -> keyed (store (t_name t) t d).
Proof.
  intros [H1 H2]. split; [apply store_nodup; exact H1|]. clear H1.
  induction H2 as [|[k' t'] d Hp Hd IH]; simpl; [repeat constructor|].
  destruct (str_eqb (t_name t) k') eqn:E; constructor; try assumption.
  simpl. symmetry. apply str_eqb_eq. exact E.
Qed.
Lemma script_snoc regs r : script (regs ++ [r]) = store (reg_name r) (reg_target r) (script regs).
Proof. unfold script. rewrite fold_left_app. reflexivity. Qed.
Lemma script_keyed regs : keyed (script regs).
Proof.
  induction regs as [|r regs IH] using rev_ind; [split; constructor|].
  rewrite script_snoc. apply (store_keyed (reg_target r)). exact IH.
Qed.
Lemma find_in d n t : NoDup (map fst d) -> (find d n = Some t <-> In (n, t) d).
Proof.
  induction d as [|[k u] d IH]; simpl; intros H; [split; [discriminate|tauto]|].
  inversion_clear H as [|? ? Hn Hd]. destruct (str_eqb n k) eqn:E.
  - apply str_eqb_eq in E. subst k. split; [intros [= ->]; left; reflexivity|].
    intros [[= ->]|Hi]; [reflexivity|]. exfalso. apply Hn. apply (in_map fst) in Hi. exact Hi.
  - rewrite IH by exact Hd. split; [tauto|]. intros [[= -> ->]|Hi]; [|exact Hi].
    assert (str_eqb n n = true) by (apply str_eqb_eq; reflexivity). congruence.
Qed.

Lemma find_latest regs n : forall t,
  find (script regs) n = Some t <-> exists r, latest regs n r /\ t = reg_target r.
Proof.
  induction regs as [|r0 regs IH] using rev_ind; intros t.
  - simpl. split; [discriminate|]. intros (r & (l1 & l2 & E & _) & _). destruct l1; discriminate.
  - rewrite script_snoc, find_store. destruct (str_eqb n (reg_name r0)) eqn:E.
    + apply str_eqb_eq in E. split.
      * intros [= <-]. exists r0. split; [|reflexivity]. exists regs, []. split; [reflexivity|].
        split; [apply called_name; exact E|]. intros r' [].
      * intros (r & (l1 & l2 & El & Hc & Hl) & ->). destruct l2 as [|r' l2 _] using rev_ind.
        -- apply app_inj_tail in El as [_ ->]. reflexivity.
        -- exfalso. rewrite app_comm_cons, app_assoc in El. apply app_inj_tail in El as [_ ->].
           apply (Hl r'); [apply in_or_app; right; left; reflexivity|]. apply called_name. exact E.
    + rewrite IH. split; intros (r & (l1 & l2 & El & Hc & Hl) & Ht); exists r; (split; [|exact Ht]).
      * exists l1, (l2 ++ [r0]). split; [rewrite El, <- app_assoc; reflexivity|]. split; [exact Hc|].
        intros r' Hr Hc'. apply in_app_or in Hr as [Hr|[<-|[]]]; [exact (Hl r' Hr Hc')|].
        apply called_name in Hc'. subst n. assert (str_eqb (reg_name r0) (reg_name r0) = true) by (apply str_eqb_eq; reflexivity). congruence.
      * destruct l2 as [|r' l2 _] using rev_ind.
        -- apply app_inj_tail in El as [_ ->]. apply called_name in Hc. subst n.
           assert (str_eqb (reg_name r) (reg_name r) = true) by (apply str_eqb_eq; reflexivity). congruence.
        -- rewrite app_comm_cons, app_assoc in El. apply app_inj_tail in El as [El ->].
           exists l1, l2. split; [exact El|]. split; [exact Hc|]. intros r2 Hr. apply Hl. apply in_or_app. left. exact Hr.
Qed.

(** Sorting. *)
Lemma insert_by_in t l x : In x (insert_by t l) <-> x = t \/ In x l.
Proof.
  induction l as [|u l IH]; simpl; [intuition|]. destruct (str_leb _ _); simpl; [intuition|]. rewrite IH. intuition.
Qed.
Lemma sorted_by_in l x : In x (sorted_by l) <-> In x l.
Proof. induction l as [|t l IH]; simpl; [tauto|]. rewrite insert_by_in, IH. intuition. Qed.
Lemma insert_by_names t l : map t_name (insert_by t l) = insert (t_name t) (map t_name l).
Proof. induction l as [|u l IH]; simpl; [reflexivity|]. destruct (str_leb _ _); simpl; [reflexivity|]. rewrite IH. reflexivity. Qed.
Lemma sorted_by_names l : map t_name (sorted_by l) = sorted (map t_name l).
Proof. induction l as [|t l IH]; simpl; [reflexivity|]. rewrite insert_by_names, IH. reflexivity. Qed.
Lemma keyed_names d : keyed d -> map t_name (map snd d) = map fst d.
Proof.
  intros [_ H]. induction H as [|[k t] d Hp Hd IH]; simpl; [reflexivity|]. simpl in Hp. rewrite IH, Hp. reflexivity.
Qed.
Lemma sorted_by_alpha d : keyed d -> alphabetical (map t_name (sorted_by (map snd d))).
Proof. intros H. rewrite sorted_by_names, keyed_names by exact H. apply sorted_alpha. apply H. Qed.

Lemma list_max_attained l : l <> [] -> In (list_max l) l.
Proof.
  induction l as [|x l IH]; intros H; [congruence|]. simpl.
  destruct (Nat.max_spec x (list_max l)) as [[Hlt ->]|[_ ->]]; [|left; reflexivity].
  right. apply IH. intros ->. simpl in Hlt. lia.
Qed.
Lemma list_max_bound l x : In x l -> x <= list_max l.
Proof.
  intros H. assert (F : Forall (fun k => k <= list_max l) l) by (apply list_max_le; lia).
  rewrite Forall_forall in F. apply F. exact H.
Qed.

Definition help_of (t : target) : str := match t_help t with Some h => h | None => [] end.
Lemma help_line_row w t : length (t_name t) <= w -> row w (t_name t) (help_of t) (help_line w t).
Proof.
  intros H. exists (w - length (t_name t)). split; [lia|]. unfold help_line, ljust, help_of. rewrite <- !app_assoc. reflexivity.
Qed.

Lemma lines_app s : one_line s -> forall t, text_lines (s ++ 10%N :: t) = s :: text_lines t.
Proof.
  unfold one_line. induction s as [|c s IH]; intros H t; simpl; [reflexivity|].
  destruct (N.eqb_spec c 10) as [->|]; [exfalso; apply H; left; reflexivity|].
  rewrite IH; [reflexivity|]. intros K. apply H. right. exact K.
Qed.
Lemma lines_one s : one_line s -> text_lines s = [s].
Proof.
  unfold one_line. induction s as [|c s IH]; intros H; simpl; [reflexivity|].
  destruct (N.eqb_spec c 10) as [->|]; [exfalso; apply H; left; reflexivity|].
  rewrite IH; [reflexivity|]. intros K. apply H. right. exact K.
Qed.
Lemma lines_join l : l <> [] -> Forall one_line l -> text_lines (join_lines l) = l.
Proof.
  intros Hn H. induction H as [|s l Hs Hl IH]; [congruence|].
  destruct l as [|s' l]; [apply lines_one; exact Hs|].
  change (join_lines (s :: s' :: l)) with (s ++ 10%N :: join_lines (s' :: l)).
  rewrite lines_app by exact Hs. rewrite IH; [reflexivity|discriminate].
Qed.
Lemma row_one_line w n h line : row w n h line -> one_line n -> one_line h -> one_line line.
Proof.
  intros (k & _ & ->) Hn Hh. unfold one_line in *. rewrite !in_app_iff. simpl.
  intros [[H|[H|[]]]|[H|[H|[[H|[]]|H]]]]; try discriminate; try tauto.
  apply repeat_spec in H. discriminate.
Qed.
Lemma join_ends l : l <> [] -> join_lines l ++ [10%N] = flat_map (fun s => s ++ [10%N]) l.
Proof.
  induction l as [|s l IH]; intros H; [congruence|]. destruct l as [|s' l]; [simpl; rewrite app_nil_r; reflexivity|].
  change (join_lines (s :: s' :: l)) with (s ++ 10%N :: join_lines (s' :: l)).
  change (flat_map (fun s => s ++ [10%N]) (s :: s' :: l)) with ((s ++ [10%N]) ++ flat_map (fun s => s ++ [10%N]) (s' :: l)).
  rewrite <- IH by discriminate. rewrite <- !app_assoc. reflexivity.
Qed.
