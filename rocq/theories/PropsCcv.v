(** C103: the version of a compiler is what it prints as its version. *)
From Coq Require Import List Bool String Ascii Lia PeanoNat.
From Verif Require Import FtModel CcvModel CcvSpec.
Import ListNotations.
Open Scope string_scope.

Lemma cat_assoc a : forall b c, (a ++ b) ++ c = a ++ (b ++ c).
Proof. induction a as [|x a IH]; intros b c; cbn; [reflexivity|]. rewrite IH. reflexivity. Qed.
Lemma cat_nil a : a ++ "" = a.
Proof. induction a as [|x a IH]; cbn; [reflexivity|]. rewrite IH. reflexivity. Qed.
Lemma cat_inj p : forall a b, p ++ a = p ++ b -> a = b.
Proof. induction p as [|x p IH]; cbn; intros a b H; [exact H|]. injection H as H. exact (IH a b H). Qed.
Lemma cat_prefix a : forall b c d, a ++ c = b ++ d -> length a = length b -> a = b /\ c = d.
Proof.
  induction a as [|x a IH]; intros [|y b] c d H L; cbn in *; try discriminate; [split; [reflexivity|exact H]|].
  injection H as -> H. injection L as L. destruct (IH b c d H L) as [-> ->]. split; reflexivity.
Qed.
Lemma each_app P a b : each P (a ++ b) <-> each P a /\ each P b.
Proof. induction a as [|x a IH]; cbn; [tauto|]. rewrite IH. tauto. Qed.
Lemma each_imp (P Q : ascii -> Prop) s : (forall c, P c -> Q c) -> each P s -> each Q s.
Proof. intros H. induction s as [|c s IH]; cbn; [auto|]. intros [A B]. split; auto. Qed.
Lemma literal_iff p s r : literal p s = Some r <-> s = p ++ r.
Proof.
  revert s. induction p as [|c p IH]; intros [|d s]; cbn; try (split; [intros [= <-]; reflexivity|intros <-; reflexivity]).
  - split; discriminate.
  - destruct (Ascii.eqb_spec c d) as [->|N].
    + rewrite IH. split; [intros ->; reflexivity|intros [= H]; exact H].
    + split; [discriminate|intros [= E _]; destruct (N (eq_sym E))].
Qed.
Lemma literal_none p s : literal p s = None -> forall r, s <> p ++ r.
Proof. intros H r E. apply literal_iff in E. congruence. Qed.
Ltac all_chars c := destruct c as [[] [] [] [] [] [] [] []].
Lemma white_iff c : is_white c = true <-> white c.
Proof. all_chars c; cbn; split; intros H; first [reflexivity | discriminate | (clear H; tauto) | (repeat (destruct H as [H|H]; [discriminate H|]); destruct H)]. Qed.
Lemma number_iff c : digit_or_dot c = true <-> part_of_number c.
Proof. all_chars c; cbn; split; intros H; first [reflexivity | discriminate | (clear H; tauto) | (repeat (destruct H as [H|H]; [discriminate H|]); destruct H)]. Qed.
Lemma white_no c : is_white c = false <-> ~ white c.
Proof. rewrite <- white_iff. destruct (is_white c); split; congruence. Qed.

Lemma longest_split f s : exists rest, s = longest f s ++ rest /\ each (fun c => f c = true) (longest f s) /\ starts (fun c => f c = false) rest.
Proof.
  induction s as [|c s (rest & E & A & B)]; cbn; [exists ""; repeat split|]. destruct (f c) eqn:F.
  - exists rest. cbn. rewrite <- E. repeat split; assumption.
  - exists (String c s). cbn. repeat split. exact F.
Qed.
Lemma longest_app f v : forall rest, each (fun c => f c = true) v -> starts (fun c => f c = false) rest -> longest f (v ++ rest) = v.
Proof.
  induction v as [|c v IH]; intros rest A B; cbn.
  - destruct rest as [|c r]; [reflexivity|]. cbn in *. rewrite B. reflexivity.
  - destruct A as [A1 A2]. rewrite A1, IH by assumption. reflexivity.
Qed.
Lemma some_of_iff f s v :
  some_of f s = Some v <-> exists rest, s = v ++ rest /\ v <> "" /\ each (fun c => f c = true) v /\ starts (fun c => f c = false) rest.
Proof.
  unfold some_of. split.
  - destruct (longest_split f s) as (rest & E & A & B). destruct (longest f s) as [|c l]; [discriminate|]. intros [= <-]. exists rest. split; [exact E|]. split; [discriminate|]. split; [exact A|exact B].
  - intros (rest & -> & N & A & B). rewrite longest_app by assumption. destruct v; [destruct (N eq_refl)|reflexivity].
Qed.

Lemma split_cases sep s :
  (each (fun c => c <> sep) s /\ split_on sep s = [s]) \/
  (exists w r, s = w ++ String sep r /\ each (fun c => c <> sep) w /\ split_on sep s = w :: split_on sep r).
Proof.
  induction s as [|c s IH]; cbn; [left; split; [exact I|reflexivity]|]. destruct (Ascii.eqb_spec c sep) as [->|N].
  - right. exists "", s. repeat split.
  - destruct IH as [[A ->]|(w & r & -> & A & ->)]; [left; repeat split; assumption|]. right. exists (String c w), r. repeat split; assumption.
Qed.
Lemma split_app sep w : forall r, each (fun c => c <> sep) w -> split_on sep (w ++ String sep r) = w :: split_on sep r.
Proof.
  induction w as [|c w IH]; intros r H; cbn; [rewrite Ascii.eqb_refl; reflexivity|]. destruct H as [H1 H2]. destruct (Ascii.eqb_spec c sep); [contradiction|]. rewrite (IH r H2). reflexivity.
Qed.
Lemma split_none sep w : each (fun c => c <> sep) w -> split_on sep w = [w].
Proof. induction w as [|c w IH]; intros H; cbn; [reflexivity|]. destruct H as [H1 H2]. destruct (Ascii.eqb_spec c sep); [contradiction|]. rewrite (IH H2). reflexivity. Qed.
Lemma split_head sep s : exists w rest, s = w ++ rest /\ each (fun c => c <> sep) w /\ starts (fun c => c = sep) rest /\ hd_error (split_on sep s) = Some w.
Proof.
  destruct (split_cases sep s) as [[A E]|(w & r & -> & A & E)]; rewrite E; [exists s, ""; rewrite cat_nil; repeat split; assumption|].
  exists w, (String sep r). repeat split; assumption.
Qed.
Lemma split_head_eq sep w rest : each (fun c => c <> sep) w -> starts (fun c => c = sep) rest -> hd_error (split_on sep (w ++ rest)) = Some w.
Proof.
  intros A B. destruct rest as [|c r]; [rewrite cat_nil, split_none by exact A; reflexivity|]. cbn in B. subst c. rewrite split_app by exact A. reflexivity.
Qed.

(** For gcc it is exactly the third word of the first line. *)
Definition C103_gcc_claim : Prop := forall text v, gcc_version text = Some v <-> third_word text v.
Theorem C103_gcc : C103_gcc_claim.
Proof.
  intros text v. unfold gcc_version. split.
  - destruct (split_head "010"%char text) as (line & rest & -> & A & B & H).
    destruct (split_on "010"%char (line ++ rest)) as [|l ls]; [discriminate|]. cbn in H. injection H as ->.
    destruct (split_cases " "%char line) as [[_ ->]|(w1 & r1 & -> & B1 & ->)]; [discriminate|].
    destruct (split_cases " "%char r1) as [[_ ->]|(w2 & r2 & -> & B2 & ->)]; [discriminate|].
    destruct (split_head " "%char r2) as (w3 & r3 & -> & B3 & S3 & H3). cbn [nth_error]. intros E.
    assert (w3 = v) as ->. { destruct (split_on " "%char (w3 ++ r3)); [discriminate|]. cbn in H3, E. congruence. }
    exists w1, w2, (r3 ++ rest). split; [rewrite !cat_assoc; cbn; rewrite !cat_assoc; cbn; rewrite !cat_assoc; reflexivity|].
    rewrite !each_app in A. cbn in A. rewrite !each_app in A. cbn in A. rewrite !each_app in A. split.
    + rewrite !each_app. assert (forall s, each (fun c => c <> " "%char) s -> each (fun c => c <> "010"%char) s -> each (fun c => c <> " "%char /\ ~ line_break c) s) as K.
      { induction s as [|c s IH]; cbn; [auto|]. unfold line_break. tauto. }
      repeat split; apply K; tauto.
    + destruct r3 as [|c r3]; cbn in *; [|left; exact S3]. destruct rest as [|c rest]; cbn in *; [exact I|right; exact B].
  - intros (w1 & w2 & rest & -> & A & S). rewrite !each_app in A. destruct A as (A1 & A2 & A3).
    assert (forall s, each (fun c => c <> " "%char /\ ~ line_break c) s -> each (fun c => c <> " "%char) s /\ each (fun c => c <> "010"%char) s) as K.
    { intros s H. split; revert H; apply each_imp; unfold line_break; tauto. }
    apply K in A1, A2, A3.
    destruct (split_head "010"%char rest) as (l & r & -> & L1 & L2 & _).
    assert (hd_error (split_on "010"%char (w1 ++ " " ++ w2 ++ " " ++ v ++ l ++ r)) = Some (w1 ++ " " ++ w2 ++ " " ++ v ++ l)) as H.
    { replace (w1 ++ " " ++ w2 ++ " " ++ v ++ l ++ r) with ((w1 ++ " " ++ w2 ++ " " ++ v ++ l) ++ r) by (rewrite ?cat_assoc; cbn; rewrite ?cat_assoc; cbn; rewrite ?cat_assoc; reflexivity).
      apply split_head_eq; [|exact L2]. rewrite !each_app. cbn. repeat split; try tauto; discriminate. }
    destruct (split_on "010"%char (w1 ++ " " ++ w2 ++ " " ++ v ++ l ++ r)) as [|x xs]; [discriminate|]. cbn in H. injection H as ->.
    cbn [append]. rewrite split_app by tauto. rewrite split_app by tauto. cbn [nth_error].
    assert (hd_error (split_on " "%char (v ++ l)) = Some v) as E.
    { apply split_head_eq; [tauto|]. destruct l as [|c l]; [exact I|]. cbn in *. destruct S as [-> | ->]; [reflexivity|]. destruct L1 as [L1 _]. destruct (L1 eq_refl). }
    destruct (split_on " "%char (v ++ l)); [discriminate|]. exact E.
Qed.

(** For the compilers of Intel it is the number after (ICC). *)
Definition C103_intel_claim : Prop := forall text v, intel_version text = Some v <-> says_intel text v.
Theorem C103_intel : C103_intel_claim.
Proof.
  intros text v. assert (forall s, (exists s', s = " (ICC) " ++ s' /\ some_of digit_or_dot s' = Some v) <->
    exists rest, s = " (ICC) " ++ v ++ rest /\ v <> "" /\ each part_of_number v /\ starts (fun c => ~ part_of_number c) rest) as K.
  { intros s. split.
    - intros (s' & -> & H). apply some_of_iff in H. destruct H as (rest & -> & N & A & B). exists rest. repeat split; [exact N|revert A; apply each_imp; intros c; apply number_iff|].
      destruct rest as [|c r]; [exact I|]. cbn [starts] in *. rewrite <- number_iff. congruence.
    - intros (rest & -> & N & A & B). exists (v ++ rest). split; [reflexivity|]. apply some_of_iff. exists rest. repeat split; [exact N|revert A; apply each_imp; intros c; apply number_iff|].
      destruct rest as [|c r]; [exact I|]. cbn [starts] in *. rewrite <- number_iff in B. destruct (digit_or_dot c); [destruct (B eq_refl)|reflexivity]. }
  unfold intel_version, says_intel. split.
  - destruct (literal "ic" text) as [s|] eqn:E; [|discriminate]. apply literal_iff in E. subst text.
    destruct (literal "c" s) as [s1|] eqn:E1.
    + apply literal_iff in E1. subst s. destruct (literal " (ICC) " s1) as [s2|] eqn:E2; [|discriminate]. apply literal_iff in E2. intros H.
      destruct (proj1 (K s1)) as (rest & -> & R); [exists s2; split; assumption|]. exists "icc", rest. split; [left; reflexivity|]. split; [reflexivity|exact R].
    + destruct (literal "pc" s) as [s1|] eqn:E3; [|discriminate]. apply literal_iff in E3. subst s. destruct (literal " (ICC) " s1) as [s2|] eqn:E2; [|discriminate].
      apply literal_iff in E2. intros H. destruct (proj1 (K s1)) as (rest & -> & R); [exists s2; split; assumption|]. exists "icpc", rest. split; [right; left; reflexivity|]. split; [reflexivity|exact R].
  - intros (name & rest & N & -> & R). destruct (proj2 (K (" (ICC) " ++ v ++ rest))) as (s' & E & H); [exists rest; split; [reflexivity|exact R]|]. apply cat_inj in E. subst s'.
    destruct N as [<-|[<-|[]]]; exact H.
Qed.

Lemma closed__sound s : forall v, closed_ s = Some v -> exists rest, s = v ++ ")" ++ rest /\ each (fun c => ~ white c) v.
Proof.
  induction s as [|c s IH]; cbn; intros v H; [discriminate|].
  destruct (is_white c) eqn:W.
  - destruct (Ascii.eqb_spec c ")"%char) as [->|]; [|discriminate]. injection H as <-. exists s. repeat split.
  - destruct (closed_ s) as [v'|]; cbn in H.
    + injection H as <-. destruct (IH v' eq_refl) as (rest & -> & A). exists rest. repeat split; [apply white_no; exact W|exact A].
    + destruct (Ascii.eqb_spec c ")"%char) as [->|]; [|discriminate]. injection H as <-. exists s. repeat split.
Qed.
Lemma closed__max v : forall rest, each (fun c => ~ white c) v -> exists v1, closed_ (v ++ ")" ++ rest) = Some v1 /\ length v <= length v1.
Proof.
  induction v as [|c v IH]; intros rest H.
  - cbn. destruct (closed_ rest); cbn; eexists; (split; [reflexivity|cbn; lia]).
  - destruct H as [H1 H2]. cbn. apply white_no in H1. rewrite H1. destruct (IH rest H2) as (v1 & E & L). cbn [append] in E. rewrite E. cbn. eexists. split; [reflexivity|cbn; lia].
Qed.
Lemma closed_sound s v : closed s = Some v -> exists rest, s = v ++ ")" ++ rest /\ v <> "" /\ each (fun c => ~ white c) v.
Proof.
  destruct s as [|c s]; cbn; [discriminate|]. destruct (is_white c) eqn:W; [discriminate|]. destruct (closed_ s) as [v'|] eqn:E; [|discriminate]. cbn. intros [= <-].
  destruct (closed__sound s v' E) as (rest & -> & A). exists rest. repeat split; [discriminate|apply white_no; exact W|exact A].
Qed.
Lemma closed_max v rest : v <> "" -> each (fun c => ~ white c) v -> exists v1, closed (v ++ ")" ++ rest) = Some v1 /\ length v <= length v1.
Proof.
  destruct v as [|c v]; intros N H; [destruct (N eq_refl)|]. destruct H as [H1 H2]. apply white_no in H1. cbn. rewrite H1. destruct (closed__max v rest H2) as (v1 & E & L).
  cbn [append] in E. rewrite E. cbn. eexists. split; [reflexivity|cbn; lia].
Qed.
(** One place where the version is. *)
Definition place (s a v : string) : Prop :=
  exists rest, s = a ++ " (based on LLVM " ++ v ++ ")" ++ rest /\ v <> "" /\ each (fun c => ~ line_break c) a /\ each (fun c => ~ white c) v.
Lemma llvm_sound s v : llvm s = Some v -> place s "" v.
Proof.
  unfold llvm. destruct (literal " (based on LLVM " s) as [r|] eqn:E; [|discriminate]. apply literal_iff in E. subst s. intros H. apply closed_sound in H.
  destruct H as (rest & -> & N & A). exists rest. repeat split; assumption.
Qed.
Lemma llvm_max s v : place s "" v -> exists v1, llvm s = Some v1 /\ length v <= length v1.
Proof.
  intros (rest & E & N & _ & A). unfold llvm. cbn [append] in E. rewrite (proj2 (literal_iff " (based on LLVM " s (v ++ ")" ++ rest)) E). apply closed_max; assumption.
Qed.
Lemma place_step c s a v : place (String c s) (String c a) v <-> place s a v /\ ~ line_break c.
Proof.
  unfold place. split.
  - intros (rest & E & N & [A1 A2] & B). injection E as E. split; [exists rest; repeat split; assumption|exact A1].
  - intros [(rest & -> & N & A & B) L]. exists rest. repeat split; assumption.
Qed.
Lemma based_spec s :
  match based s with
  | Some v => exists a, place s a v /\ forall a' v', place s a' v' -> length a' < length a \/ (length a' = length a /\ length v' <= length v)
  | None => forall a v, ~ place s a v
  end.
Proof.
  assert (forall s, (forall a' v', place s a' v' -> a' = "") -> match llvm s with
    | Some v => exists a, place s a v /\ forall a' v', place s a' v' -> length a' < length a \/ (length a' = length a /\ length v' <= length v)
    | None => forall a v, ~ place s a v end) as K.
  { intros s0 H. destruct (llvm s0) as [v|] eqn:E.
    - exists "". split; [apply llvm_sound; exact E|]. intros a' v' P. pose proof (H a' v' P). subst a'. right. split; [reflexivity|]. destruct (llvm_max s0 v' P) as (v1 & E1 & L). congruence.
    - intros a v P. pose proof (H a v P). subst a. destruct (llvm_max s0 v P) as (v1 & E1 & _). congruence. }
  induction s as [|c s IH]; cbn [based].
  - apply K. intros a' v' (rest & E & _). destruct a'; [reflexivity|discriminate].
  - destruct (Ascii.eqb_spec c "010"%char) as [->|N].
    + apply K. intros a' v' P. destruct a' as [|c' a']; [reflexivity|]. pose proof P as (rest & E & _). injection E as <- _. apply place_step in P. destruct P as [_ P]. destruct (P eq_refl).
    + destruct (based s) as [v|] eqn:E.
      * destruct IH as (a & P & M). exists (String c a). split; [apply place_step; split; assumption|]. intros a' v' P'. destruct a' as [|c' a']; [left; cbn; lia|].
        pose proof P' as (rest & E' & _). injection E' as <- _. apply place_step in P'. destruct P' as [P' _]. destruct (M a' v' P') as [|[]]; cbn; lia.
      * apply K. intros a' v' P. destruct a' as [|c' a']; [reflexivity|]. pose proof P as (rest & E' & _). injection E' as <- _. apply place_step in P. destruct P as [P _]. destruct (IH a' v' P).
Qed.
Lemma apple_place s a v : says_apple ("Apple clang " ++ s) a v <-> place s a v.
Proof.
  unfold says_apple, place. split.
  - intros (rest & E & R). apply cat_inj in E. exists rest. split; [exact E|exact R].
  - intros (rest & -> & R). exists rest. split; [reflexivity|exact R].
Qed.
Lemma apple_iff text v : apple text = Some v <-> says_apple_last text v.
Proof.
  unfold apple. destruct (literal "Apple clang " text) as [s|] eqn:L.
  - apply literal_iff in L. subst text. pose proof (based_spec s) as B. unfold says_apple_last. split.
    + intros E. rewrite E in B. destruct B as (a & P & M). exists a. split; [apply apple_place; exact P|]. intros a' v' P'. apply M. apply apple_place. exact P'.
    + intros (a & P & M). apply apple_place in P. destruct (based s) as [v1|]; [|destruct (B a v P)]. destruct B as (a1 & P1 & M1).
      pose proof (M a1 v1 (proj2 (apple_place _ _ _) P1)) as X. pose proof (M1 a v P) as Y. destruct P as (rest & E & _), P1 as (rest1 & E1 & _). rewrite E in E1.
      assert (length a = length a1) as La by lia. apply cat_prefix in E1; [|exact La]. destruct E1 as [-> E1]. apply cat_inj in E1.
      assert (length v = length v1) as Lv by lia. apply cat_prefix in E1; [|exact Lv]. destruct E1 as [-> _]. reflexivity.
  - split; [discriminate|]. intros (a & (rest & E & _) & _). destruct (literal_none _ _ L _ E).
Qed.
Lemma clang_iff text v : plain_clang text = Some v <-> says_clang text v.
Proof.
  unfold plain_clang, says_clang. split.
  - destruct (literal "clang version " text) as [s|] eqn:L; [|discriminate]. apply literal_iff in L. subst text. intros H. apply some_of_iff in H. destruct H as (rest & -> & N & A & B).
    exists rest. repeat split; [exact N|revert A; apply each_imp; intros c H; apply white_no; destruct (is_white c); [discriminate|reflexivity]|].
    destruct rest as [|c r]; [exact I|]. cbn [starts] in *. apply white_iff. destruct (is_white c); [reflexivity|discriminate].
  - intros (rest & -> & N & A & B). rewrite (proj2 (literal_iff "clang version " _ (v ++ rest)) eq_refl). apply some_of_iff. exists rest. repeat split; [exact N|revert A; apply each_imp; intros c H; apply white_no in H; rewrite H; reflexivity|].
    destruct rest as [|c r]; [exact I|]. cbn [starts] in *. apply white_iff in B. rewrite B. reflexivity.
Qed.
(** For clang it is exactly what comes after "clang version", or the version of LLVM that one of Apple says it is based on. *)
Definition C103_clang_claim : Prop := forall text v, clang_version text = Some v <-> says_clang text v \/ says_apple_last text v.
Theorem C103_clang : C103_clang_claim.
Proof.
  intros text v. unfold clang_version. rewrite <- clang_iff, <- apple_iff. destruct (apple text) as [v1|] eqn:E; [|split; [tauto|intros [H|H]; [exact H|discriminate]]].
  split; [intros H; right; exact H|]. intros [H|H]; [|exact H]. apply apple_iff in E. destruct E as (a & (rest & -> & _) & _). discriminate.
Qed.
(** In particular, of a first line that ends with it. *)
Definition C103_apple_claim : Prop :=
  forall a v more, each (fun c => ~ line_break c) a -> v <> "" -> each (fun c => ~ white c) v ->
  clang_version ("Apple clang " ++ a ++ " (based on LLVM " ++ v ++ ")" ++ String "010"%char more) = Some v.
Lemma closed__line v : forall more, each (fun c => ~ white c) v -> closed_ (v ++ ")" ++ String "010"%char more) = Some v.
Proof.
  induction v as [|c v IH]; intros more H; [reflexivity|]. destruct H as [H1 H2]. apply white_no in H1. cbn. rewrite H1.
  pose proof (IH more H2) as E. cbn [append] in E. rewrite E. reflexivity.
Qed.
Lemma based_version v : forall more, each (fun c => ~ white c) v -> based (v ++ ")" ++ String "010"%char more) = None.
Proof.
  induction v as [|c v IH]; intros more H; [reflexivity|]. destruct H as [H1 H2]. pose proof (IH more H2) as E. cbn [append] in *. cbn [based]. rewrite E.
  assert (llvm (String c (v ++ String ")" (String "010" more))) = None) as F.
  { unfold llvm. cbn [literal]. destruct (Ascii.eqb_spec " "%char c) as [<-|]; [|reflexivity]. destruct H1. left. reflexivity. }
  rewrite F. destruct (Ascii.eqb c "010"); reflexivity.
Qed.
Lemma literal_word p q v more : each (fun c => c <> ")"%char) p -> each (fun c => ~ white c) v -> literal (p ++ " " ++ q) (v ++ ")" ++ more) = None.
Proof.
  revert v. induction p as [|c p IH]; intros [|d v] P V; cbn [append literal].
  - reflexivity.
  - destruct V as [V _]. destruct (Ascii.eqb_spec " "%char d) as [<-|]; [|reflexivity]. destruct V. left. reflexivity.
  - destruct P as [P _]. destruct (Ascii.eqb_spec c ")"%char); [contradiction|reflexivity].
  - destruct (Ascii.eqb c d); [|reflexivity]. exact (IH v (proj2 P) (proj2 V)).
Qed.
Lemma based_word w s : each (fun c => c <> " "%char) w -> based s = None -> based (w ++ s) = None.
Proof.
  intros H B. induction w as [|c w IH]; [exact B|]. destruct H as [H1 H2]. cbn [append based]. rewrite (IH H2).
  assert (llvm (String c (w ++ s)) = None) as -> by (unfold llvm; cbn [literal]; destruct (Ascii.eqb_spec " "%char c) as [<-|]; [destruct (H1 eq_refl)|reflexivity]).
  destruct (Ascii.eqb c "010"); reflexivity.
Qed.
Lemma based_blank s : based s = None -> llvm (String " " s) = None -> based (" " ++ s) = None.
Proof. intros B L. cbn [append based Ascii.eqb Bool.eqb]. rewrite B. exact L. Qed.
Theorem C103_apple : C103_apple_claim.
Proof.
  intros a v more A N V. unfold clang_version, apple. rewrite (proj2 (literal_iff "Apple clang " _ _) eq_refl).
  assert (based (a ++ " (based on LLVM " ++ v ++ ")" ++ String "010"%char more) = Some v) as ->; [|reflexivity].
  induction a as [|c a IH].
  - pose proof (based_version v more V) as B. pose proof (literal_word "(based" "on LLVM " v (String "010"%char more) (ltac:(cbn; repeat split; discriminate)) V) as W.
    assert (closed (v ++ ")" ++ String "010"%char more) = Some v) as C.
    { destruct v as [|c v]; [destruct (N eq_refl)|]. destruct V as [V1 V2]. apply white_no in V1. cbn. rewrite V1. pose proof (closed__line v more V2) as E. cbn [append] in E. rewrite E. reflexivity. }
    set (t := v ++ ")" ++ String "010"%char more) in *. clearbody t.
    assert (based ("(based" ++ " " ++ "on" ++ " " ++ "LLVM" ++ " " ++ t) = None) as D.
    { repeat (first [apply based_word; [cbn; repeat split; discriminate|] | apply based_blank; [|first [reflexivity | (unfold llvm; cbn [literal Ascii.eqb Bool.eqb append] in *; cbn [literal Ascii.eqb Bool.eqb append]; rewrite W; reflexivity)]]]). exact B. }
    cbn [append] in *. cbn [based Ascii.eqb Bool.eqb] in *. rewrite D. exact C.
  - destruct A as [A1 A2]. pose proof (IH A2) as E. cbn [append] in *. cbn [based]. rewrite E. destruct (Ascii.eqb_spec c "010"%char) as [->|]; [destruct (A1 eq_refl)|reflexivity].
Qed.

(** FALSE: for gcc it is the version.  The vendors put blanks into the second word. *)
Definition C103_vendor_claim : Prop :=
  forall vendor v, v <> "" -> each part_of_number v -> each (fun c => ~ line_break c) vendor -> gcc_version ("gcc (" ++ vendor ++ ") " ++ v) = Some v.
Theorem C103_vendor_refuted : ~ C103_vendor_claim.
Proof.
  intros H. specialize (H "Ubuntu 4.4.3-4ubuntu5" "4.4.3"). assert (Some "4.4.3-4ubuntu5)" = Some "4.4.3"); [|discriminate].
  apply H; [discriminate|cbn; tauto|cbn; repeat split; discriminate].
Qed.
(** FALSE: for every clang that says its version it is found.  Not for later ones of Apple and those of Debian. *)
Definition C103_found_claim : Prop :=
  forall vendor v rest, v <> "" -> each part_of_number v -> starts white rest -> clang_version (vendor ++ "clang version " ++ v ++ rest) <> None.
Theorem C103_found_refuted : ~ C103_found_claim.
Proof. intros H. apply (H "Debian " "11.0.1" " "); [discriminate|cbn; tauto|cbn; tauto|reflexivity]. Qed.
Theorem C103_found_apple_refuted : ~ C103_found_claim.
Proof. intros H. apply (H "Apple " "14.0.0" " (clang-1400.0.29.202)"); [discriminate|cbn; tauto|cbn; tauto|reflexivity]. Qed.
(** FALSE: a version can always be read from what gcc prints. *)
Definition C103_read_claim : Prop := forall text, gcc_version text <> None.
Theorem C103_read_refuted : ~ C103_read_claim.
Proof. intros H. apply (H "4.2.1"). reflexivity. Qed.

Example C103_example :
  gcc_version ("gcc (GCC) 4.8.2 20131212" ++ newline ++ "Copyright") = Some "4.8.2" /\
  clang_version ("clang version 3.4 (tags/RELEASE_34/final)" ++ newline) = Some "3.4" /\
  clang_version ("Apple clang version 2.0 (tags/Apple/clang-137) (based on LLVM 2.9svn)" ++ newline ++ "Target: x86_64") = Some "2.9svn" /\
  intel_version ("icpc (ICC) 12.1.3 20120212") = Some "12.1.3" /\ intel_version "icc: command line error" = None /\ clang_version "gcc" = None.
Proof. repeat split; reflexivity. Qed.

Print Assumptions C103_gcc.
Print Assumptions C103_intel.
Print Assumptions C103_clang.
Print Assumptions C103_apple.
Print Assumptions C103_vendor_refuted.
Print Assumptions C103_found_refuted.
Print Assumptions C103_found_apple_refuted.
Print Assumptions C103_read_refuted.
