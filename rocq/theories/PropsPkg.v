(** C96: the flags that pkg-config prints. *)
From Coq Require Import List NArith Bool Arith Lia.
From Verif Require Import FnModel FnFacts VerModel VerSpec VerFacts GccSpec PkgModel PkgSpec.
Import ListNotations.
Open Scope N_scope.

Lemma white_iff c : is_space c = true <-> white c.
Proof.
  unfold is_space, white. rewrite orb_true_iff, !andb_true_iff, !N.leb_le. tauto.
Qed.
Lemma white_blanks s : Forall white s -> blanks s.
Proof. intros H. apply Forall_forall. intros c Hc. rewrite Forall_forall in H. apply is_space_iff. apply white_iff. apply H. exact Hc. Qed.
Lemma not_white c : ~ white c -> is_space c = false.
Proof. intros H. destruct (is_space c) eqn:E; [|reflexivity]. apply white_iff in E. contradiction. Qed.
Lemma split_blank_some s : exists w ws, split_blank s = w :: ws.
Proof.
  induction s as [|c s (w & ws & E)]; simpl; [eexists _, _; reflexivity|].
  destruct (N.eqb c c_blank); [eexists _, _; reflexivity|]. rewrite E. eexists _, _. reflexivity.
Qed.
Lemma split_word w s : ~ In c_blank w -> split_blank (w ++ c_blank :: s) = w :: split_blank s.
Proof.
  induction w as [|c w IH]; intros H; simpl; [reflexivity|].
  destruct (N.eqb_spec c c_blank) as [->|]; [exfalso; apply H; left; reflexivity|].
  rewrite IH; [reflexivity|]. intros K. apply H. right. exact K.
Qed.
Lemma split_one w : ~ In c_blank w -> split_blank w = [w].
Proof.
  induction w as [|c w IH]; intros H; simpl; [reflexivity|].
  destruct (N.eqb_spec c c_blank) as [->|]; [exfalso; apply H; left; reflexivity|].
  rewrite IH; [reflexivity|]. intros K. apply H. right. exact K.
Qed.
Lemma split_spaced ws : ws <> [] -> Forall (fun w => ~ In c_blank w) ws -> split_blank (spaced ws) = ws.
Proof.
  intros Hn H. induction H as [|w ws Hw Hws IH]; [congruence|].
  destruct ws as [|w' ws]; [apply split_one; exact Hw|].
  change (spaced (w :: w' :: ws)) with (w ++ c_blank :: spaced (w' :: ws)).
  rewrite split_word by exact Hw. rewrite IH; [reflexivity|discriminate].
Qed.
Lemma spaced_split s : spaced (split_blank s) = s /\ Forall (fun w => ~ In c_blank w) (split_blank s).
Proof.
  induction s as [|c s [IH1 IH2]]; simpl; [split; [reflexivity|repeat constructor; intros []]|].
  destruct (split_blank_some s) as (w & ws & E). rewrite E in *. destruct (N.eqb_spec c c_blank) as [->|Hc].
  - split; [|constructor; [intros []|exact IH2]].
    change (spaced ([] :: w :: ws)) with (c_blank :: spaced (w :: ws)). rewrite IH1. reflexivity.
  - split.
    + destruct ws as [|w' ws]; [simpl in *; rewrite IH1; reflexivity|].
      change (spaced ((c :: w) :: w' :: ws)) with (c :: spaced (w :: w' :: ws)). rewrite IH1. reflexivity.
    + inversion_clear IH2. constructor; [|assumption]. intros [K|K]; [congruence|contradiction].
Qed.

(** The question, and the text without the white space around it, cut at blanks: nothing is lost. *)
Definition C96_exact_claim : Prop :=
  forall out, exists before after, Forall white before /\ Forall white after /\
  out = before ++ spaced (flags out) ++ after /\
  (forall w, In w (flags out) -> ~ In 32 w) /\
  out = before ++ sdl_flags out ++ after /\
  (forall c s, sdl_flags out = c :: s -> ~ white c) /\ (forall c s, sdl_flags out = s ++ [c] -> ~ white c).
Lemma lstrip_head s c t : lstrip s = c :: t -> is_space c = false.
Proof. induction s as [|d s IH]; simpl; [discriminate|]. destruct (is_space d) eqn:E; [exact IH|]. intros [= <- <-]. exact E. Qed.
Theorem C96_exact : C96_exact_claim.
Proof.
  intros out. destruct (strip_split out) as (a & b & Ha & Hb & E). exists a, b.
  assert (forall x, blanks x -> Forall white x) as Hw.
  { intros x Hx. apply Forall_forall. intros c Hc. unfold blanks in Hx. rewrite Forall_forall in Hx. apply white_iff. apply is_space_iff. apply Hx. exact Hc. }
  split; [apply Hw; exact Ha|]. split; [apply Hw; exact Hb|]. unfold flags, sdl_flags, answer.
  destruct (spaced_split (strip out)) as [H1 H2]. rewrite H1. split; [exact E|]. split.
  { intros w Hi. rewrite Forall_forall in H2. apply H2. exact Hi. }
  split; [exact E|]. split.
  - intros c s Es K. apply white_iff in K. unfold strip in Es.
    destruct (lstrip_split (rev (lstrip out))) as (x & Hx & Ex).
    assert (lstrip out = (c :: s) ++ rev x) as El.
    { rewrite <- Es, <- rev_app_distr, <- Ex, rev_involutive. reflexivity. }
    apply lstrip_head in El. congruence.
  - intros c s Es K. apply white_iff in K. unfold strip in Es. apply (f_equal (@rev chr)) in Es.
    rewrite rev_involutive, rev_app_distr in Es. simpl in Es. apply lstrip_head in Es. congruence.
Qed.

(** Simple flags are returned one by one. *)
Definition C96_read_claim : Prop :=
  forall ws out, ws <> [] -> Forall simple ws -> prints ws out -> flags out = ws.
Lemma spaced_ends ws : ws <> [] -> Forall simple ws ->
  exists c n n' d, spaced ws = c :: n /\ spaced ws = n' ++ [d] /\ is_space c = false /\ is_space d = false.
Proof.
  intros Hn H. induction H as [|w ws [Hw Hc] Hws IH]; [congruence|].
  destruct w as [|c w]; [congruence|]. destruct (exists_last (l := c :: w) ltac:(discriminate)) as (w' & d & Ed).
  destruct ws as [|w2 ws].
  - exists c, w, w', d. split; [reflexivity|]. split; [exact Ed|].
    split; apply not_white; apply Hc; [left; reflexivity|]. rewrite Ed. apply in_or_app. right. left. reflexivity.
  - destruct (IH ltac:(discriminate)) as (c2 & n2 & n2' & d2 & E1 & E2 & H1 & H2).
    change (spaced ((c :: w) :: w2 :: ws)) with ((c :: w) ++ 32 :: spaced (w2 :: ws)).
    exists c, (w ++ 32 :: spaced (w2 :: ws)), (((c :: w) ++ [32]) ++ n2'), d2. split; [reflexivity|]. split; [|split].
    + rewrite E2. rewrite <- !app_assoc. reflexivity.
    + apply not_white. apply Hc. left. reflexivity.
    + exact H2.
Qed.
Theorem C96_read : C96_read_claim.
Proof.
  intros ws out Hn Hs (a & b & -> & Ha & Hb). unfold flags, answer.
  destruct (spaced_ends ws Hn Hs) as (c & n & n' & d & E1 & E2 & H1 & H2).
  rewrite (strip_core a (spaced ws) b c n n' d (white_blanks a Ha) (white_blanks b Hb) E1 E2 H1 H2).
  apply split_spaced; [exact Hn|]. eapply Forall_impl; [|exact Hs]. intros w [_ Hw] K. apply (Hw 32 K). right. lia.
Qed.

(** The commands: the package, the question, the components. *)
Definition C96_asked_claim : Prop :=
  forall pkg components,
  cflags_command pkg components = pkg :: [45; 45; 99; 102; 108; 97; 103; 115] :: components /\
  libs_command pkg components = pkg :: [45; 45; 108; 105; 98; 115] :: components.
Theorem C96_asked : C96_asked_claim.
Proof. intros pkg components. split; reflexivity. Qed.

(** FALSE: a package without flags has none; there is one, the empty word, and a compiler takes it as a file. *)
Definition C96_none_claim : Prop := forall out, prints [] out -> forall i, ~ (exists l, items (flags out) = Some l /\ In i l).
Theorem C96_none_refuted : ~ C96_none_claim.
Proof.
  intros H. apply (H [10] ltac:(exists [], [10]; repeat split; repeat constructor; lia) (Input [])). eexists. split; [reflexivity|]. left. reflexivity.
Qed.
(** FALSE: flags with blanks, which pkg-config quotes, are read back. *)
Definition C96_quoted_claim : Prop :=
  forall ws out, ws <> [] -> Forall (fun w => w <> []) ws -> prints (map quote ws) out -> flags out = ws.
Theorem C96_quoted_refuted : ~ C96_quoted_claim.
Proof.
  intros H. specialize (H [[97; 32; 98]] [97; 92; 32; 98; 10] ltac:(discriminate) ltac:(repeat constructor; discriminate)
    ltac:(exists [], [10]; repeat split; repeat constructor; lia)). discriminate.
Qed.

(** "-I/x -Dy \n" *)
Example C96_example :
  let ws := [[45; 73; 47; 120]; [45; 68; 121]] in
  let out := [45; 73; 47; 120; 32; 45; 68; 121; 32; 10] in
  prints ws out /\ Forall simple ws /\ flags out = ws /\ items (flags out) = Some [Include [47; 120]; Macro [121]].
Proof.
  cbv zeta. split; [exists [], [32; 10]; repeat split; repeat constructor; lia|]. split.
  - repeat constructor; try discriminate; intros c Hc K; unfold white in K; simpl in Hc; lia.
  - split; reflexivity.
Qed.

Print Assumptions C96_exact.
Print Assumptions C96_read.
Print Assumptions C96_asked.
Print Assumptions C96_none_refuted.
Print Assumptions C96_quoted_refuted.
