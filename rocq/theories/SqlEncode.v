(** Storing the dependencies of a function (sqlite_backend.py 157-160 and 171). *)
From Coq Require Import String Ascii List Lia.
From stdpp Require Import base list strings.
From Verif Require Import SqlBackend.
Local Open Scope list_scope.

Definition has_nul (s : string) : Prop := In nul (list_ascii_of_string s).

Fixpoint nuls (s : string) : nat :=
  match s with EmptyString => 0 | String c s' => (if Ascii.eqb c nul then 1 else 0) + nuls s' end.

Lemma nuls_has s : nuls s = 0 <-> ~ has_nul s.
Proof.
  induction s as [|c s IH]; unfold has_nul in *; simpl; [tauto|].
  destruct (Ascii.eqb_spec c nul) as [->|Hc]; [|tauto]. split; [lia|tauto].
Qed.
Lemma nuls_app a b : nuls (a +:+ b) = nuls a + nuls b.
Proof. induction a as [|c a IH]; [done|]. change (String c a +:+ b) with (String c (a +:+ b)). cbn [nuls]. rewrite IH. lia. Qed.

Lemma split_length s : length (split0 s) = S (nuls s).
Proof.
  induction s as [|c s IH]; [done|]. cbn [split0 nuls]. destruct (Ascii.eqb c nul); cbn [length].
  - by rewrite IH.
  - destruct (split0 s) as [|x l]; cbn [length] in *; lia.
Qed.
Lemma split_app a b : ~ has_nul a -> split0 (a +:+ String nul b) = a :: split0 b.
Proof.
  induction a as [|c a IH]; intros H; [done|]. unfold has_nul in *. change (String c a +:+ String nul b) with (String c (a +:+ String nul b)).
  cbn [split0 list_ascii_of_string In] in *.
  destruct (Ascii.eqb_spec c nul) as [->|Hc]; [tauto|]. rewrite IH by tauto. done.
Qed.
Lemma split_one a : ~ has_nul a -> split0 a = [a].
Proof.
  induction a as [|c a IH]; intros H; [done|]. unfold has_nul in *. cbn [split0 list_ascii_of_string In] in *.
  destruct (Ascii.eqb_spec c nul) as [->|Hc]; [tauto|]. rewrite IH by tauto. done.
Qed.
Lemma split_join l : l <> [] -> (forall x, In x l -> ~ has_nul x) -> split0 (join0 l) = l.
Proof.
  induction l as [|x l IH]; [done|]. intros _ H. destruct l as [|y l].
  - apply split_one, H. by left.
  - change (join0 (x :: y :: l)) with (x +:+ String nul (join0 (y :: l))). rewrite split_app by (apply H; by left).
    rewrite IH; [done|done|]. intros z Hz. apply H. by right.
Qed.
Lemma join_nuls x l : nuls (join0 (x :: l)) = length l + list_sum (map nuls (x :: l)).
Proof.
  revert x. induction l as [|y l IH]; intros x; [cbn; lia|].
  change (join0 (x :: y :: l)) with (x +:+ String nul (join0 (y :: l))). rewrite nuls_app. cbn [nuls]. rewrite IH.
  change (Ascii.eqb nul nul) with true. cbn [length map list_sum foldr]. lia.
Qed.
Lemma sum_zero l : list_sum (map nuls l) = 0 -> forall x, In x l -> ~ has_nul x.
Proof.
  induction l as [|y l IH]; intros H x; [done|].
  change (list_sum (map nuls (y :: l))) with (nuls y + list_sum (map nuls l)) in H. intros [->|Hx].
  - apply nuls_has. lia.
  - apply IH; [lia|done].
Qed.

Theorem decode_join l : decode (join0 l) = l <-> l <> [EmptyString] /\ forall x, In x l -> ~ has_nul x.
Proof.
  split.
  - intros H. split; [by intros ->|]. destruct l as [|x l]; [done|]. apply sum_zero.
    unfold decode in H. destruct (join0 (x :: l)) eqn:E; [done|]. rewrite <- E in H.
    assert (length (split0 (join0 (x :: l))) = length (x :: l)) as Hl by by rewrite H.
    rewrite split_length, join_nuls in Hl. cbn [length] in Hl. lia.
  - intros [Hl Hn]. destruct l as [|x l]; [done|]. unfold decode.
    destruct (join0 (x :: l)) eqn:E; [|rewrite <- E; by apply split_join].
    destruct l as [|y l]; [cbn in E; by subst|]. cbn in E. by destruct x.
Qed.
