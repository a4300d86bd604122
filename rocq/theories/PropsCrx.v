(** C105: Path.find gives what is below a directory; copy_regex copies what the patterns choose of it. *)
From Coq Require Import List Bool String Ascii Lia.
From Verif Require Import CrxModel CrxSpec.
Import ListNotations.
Open Scope string_scope.

Lemma cat_assoc a : forall b c, (a ++ b) ++ c = a ++ (b ++ c).
Proof. induction a as [|x a IH]; intros b c; cbn; [reflexivity|]. rewrite IH. reflexivity. Qed.
Lemma ends_slash_iff s : ends_slash s = true <-> exists a, s = a ++ "/".
Proof.
  induction s as [|c s IH].
  - split; [discriminate|]. intros [[|] E]; discriminate.
  - destruct s as [|d s].
    + cbn. rewrite Ascii.eqb_eq. split; [intros ->; exists ""; reflexivity|]. intros [[|x [|y a]] E]; cbn in E; [injection E as ->; reflexivity|discriminate|discriminate].
    + change (ends_slash (String c (String d s))) with (ends_slash (String d s)). rewrite IH. split.
      * intros [a E]. exists (String c a). cbn. rewrite <- E. reflexivity.
      * intros [[|x a] E]; [discriminate|]. exists a. injection E as _ E. exact E.
Qed.
Lemma name_no_end n : each (fun c => c <> "/"%char) n -> forall a, n <> a ++ "/".
Proof. intros H a ->. induction a as [|x a IH]; cbn in H; [destruct H as [H _]; exact (H eq_refl)|apply IH; apply H]. Qed.
Lemma join_name root n : proper root -> name_ok n -> join root n = root ++ "/" ++ n.
Proof.
  intros [R1 R2] [N1 N2]. unfold join. destruct n as [|c n]; [destruct (N1 eq_refl)|]. cbn [starts_slash]. destruct N2 as [N2 _]. rewrite <- Ascii.eqb_neq in N2. unfold slash. rewrite N2.
  destruct (String.eqb_spec root "") as [->|_]; [destruct (R1 eq_refl)|]. cbn [orb]. destruct (ends_slash root) eqn:E; [|reflexivity]. apply ends_slash_iff in E. destruct E as [a E]. destruct (R2 a E).
Qed.
Lemma last_char a b c d : (a ++ String c b = d ++ "/") -> exists e, String c b = e ++ "/".
Proof.
  revert d. induction a as [|x a IH]; intros d E; [exists d; exact E|]. destruct d as [|y d]; cbn in E; [injection E as _ E; destruct a; discriminate|]. injection E as _ E. exact (IH d E).
Qed.
Lemma proper_sub root n : proper root -> name_ok n -> proper (root ++ "/" ++ n).
Proof.
  intros [R1 _] [N1 N2]. split; [destruct root; discriminate|]. intros a E. rewrite <- cat_assoc in E. destruct n as [|c n]; [destruct (N1 eq_refl)|].
  apply last_char in E. destruct E as [e E]. exact (name_no_end _ N2 e E).
Qed.
Lemma leads_nonempty t ns k : leads t ns k -> ns <> [].
Proof. induction 1; congruence. Qed.
Lemma names_files t n : names_ok t -> In n (files t) \/ In n (dirs t) -> name_ok n.
Proof.
  induction t as [|m r IH|m s _ r IH]; cbn [names_ok files dirs In]; [tauto| |].
  - intros [A B] [[->|H]|H]; [exact A|apply IH; tauto|apply IH; tauto].
  - intros (A & _ & B) [H|[->|H]]; [apply IH; tauto|exact A|apply IH; tauto].
Qed.
Lemma files_lead t n : In n (files t) -> leads t [n] IsFile.
Proof. induction t as [|m r IH|m s _ r IH]; cbn; [tauto| |]; [intros [->|H]; [apply leads_file|apply leads_past_file; auto]|intros H; apply leads_past_sub; auto]. Qed.
Lemma dirs_lead t n : In n (dirs t) -> leads t [n] IsDir.
Proof. induction t as [|m r IH|m s _ r IH]; cbn; [tauto| |]; [intros H; apply leads_past_file; auto|intros [->|H]; [apply leads_dir|apply leads_past_sub; auto]]. Qed.
Definition found (pattern : string -> bool) (include_dirs : bool) (root : string) (t : tree) (p : string) : Prop :=
  exists ns k, leads t ns k /\ wanted include_dirs k /\ pattern (last ns "") = true /\ p = root ++ "/" ++ String.concat "/" ns.
Lemma here_lead pattern i root t p : proper root -> names_ok t -> In p (here pattern i root t) -> found pattern i root t p.
Proof.
  intros R T H. unfold here in H. apply in_map_iff in H. destruct H as (n & <- & H). apply filter_In in H. destruct H as [H P]. apply in_app_or in H.
  assert (name_ok n) as N by (apply (names_files t n T); destruct H as [H|H]; [left; exact H|right; destruct i; [exact H|destruct H]]).
  destruct H as [H|H].
  - exists [n], IsFile. split; [apply files_lead; exact H|]. split; [discriminate|]. split; [exact P|]. apply join_name; assumption.
  - exists [n], IsDir. destruct i; [|destruct H]. split; [apply dirs_lead; exact H|]. split; [intros _; reflexivity|]. split; [exact P|]. apply join_name; assumption.
Qed.
Lemma found_in pattern i root n s r p : found pattern i (root ++ "/" ++ n) s p -> found pattern i root (Sub n s r) p.
Proof.
  intros (ns & k & L & W & P & ->). exists (n :: ns), k. pose proof (leads_nonempty _ _ _ L) as N. split; [apply leads_in; exact L|]. split; [exact W|].
  destruct ns as [|m ns]; [destruct (N eq_refl)|]. split; [exact P|]. rewrite !cat_assoc. cbn. reflexivity.
Qed.
Lemma below_lead pattern i t : forall root p, proper root -> names_ok t -> In p (below pattern i root t) -> found pattern i root t p.
Proof.
  induction t as [|n r IH|n s IHs r IHr]; intros root p R T H; cbn [below names_ok] in *; [destruct H| |].
  - destruct (IH root p R (proj2 T) H) as (ns & k & L & X). exists ns, k. split; [apply leads_past_file; exact L|exact X].
  - destruct T as (T1 & T2 & T3). rewrite join_name in H by assumption. pose proof (proper_sub root n R T1) as R'.
    apply in_app_or in H. destruct H as [H|H]; [apply found_in, here_lead; assumption|]. apply in_app_or in H. destruct H as [H|H]; [apply found_in, IHs; assumption|].
    destruct (IHr root p R T3 H) as (ns & k & L & X). exists ns, k. split; [apply leads_past_sub; exact L|exact X].
Qed.
Lemma lead_found pattern i t ns k : leads t ns k -> forall root, proper root -> names_ok t -> wanted i k -> pattern (last ns "") = true ->
  (exists n, ns = [n] /\ In (root ++ "/" ++ n) (here pattern i root t)) \/ In (root ++ "/" ++ String.concat "/" ns) (below pattern i root t).
Proof.
  induction 1 as [n r|n s r|n s r ns k L IH|n r ns k L IH|n s r ns k L IH]; intros root R T W P; cbn [names_ok] in T.
  - left. exists n. split; [reflexivity|]. unfold here. rewrite <- join_name; [|exact R|apply T]. apply in_map, filter_In. split; [left; reflexivity|exact P].
  - left. exists n. split; [reflexivity|]. unfold here. rewrite <- join_name; [|exact R|apply T]. apply in_map, filter_In. split; [|exact P]. apply in_or_app. right. rewrite (W eq_refl). left. reflexivity.
  - right. destruct T as (T1 & T2 & T3). pose proof (leads_nonempty _ _ _ L) as N. cbn [below]. rewrite join_name by assumption.
    assert (root ++ "/" ++ String.concat "/" (n :: ns) = (root ++ "/" ++ n) ++ "/" ++ String.concat "/" ns) as -> by (destruct ns; [destruct (N eq_refl)|rewrite !cat_assoc; cbn; reflexivity]).
    destruct (IH (root ++ "/" ++ n) (proper_sub root n R T1) T2 W) as [(m & -> & H)|H]; [destruct ns; [destruct (N eq_refl)|exact P]|..]; apply in_or_app; [left; exact H|right; apply in_or_app; left; exact H].
  - destruct (IH root R (proj2 T) W P) as [(m & -> & H)|H]; [left; exists m; split; [reflexivity|]|right; exact H].
    unfold here in *. apply in_map_iff in H. destruct H as (x & E & H). rewrite <- E. apply in_map. apply filter_In in H. apply filter_In. cbn [files dirs]. split; [right; apply H|apply H].
  - destruct T as (T1 & T2 & T3). destruct (IH root R T3 W P) as [(m & -> & H)|H]; [left; exists m; split; [reflexivity|]|right; cbn [below]; apply in_or_app; right; apply in_or_app; right; exact H].
    unfold here in *. apply in_map_iff in H. destruct H as (x & E & H). rewrite <- E. apply in_map. apply filter_In in H. apply filter_In. cbn [files dirs]. split; [|apply H].
    destruct H as [H _]. apply in_app_or in H. apply in_or_app. destruct H as [H|H]; [left; exact H|right]. destruct i; [right; exact H|exact H].
Qed.
(** What find gives: exactly the files, and with include_dirs the directories, at any depth, whose own name has the pattern. *)
Definition C105_find_claim : Prop := forall pattern include_dirs root t p, proper root -> names_ok t ->
  In p (find pattern include_dirs root t) <->
  exists ns k, leads t ns k /\ wanted include_dirs k /\ pattern (last ns "") = true /\ p = root ++ "/" ++ String.concat "/" ns.
Theorem C105_find : C105_find_claim.
Proof.
  intros pattern i root t p R T. unfold find. rewrite in_app_iff. split.
  - intros [H|H]; [apply here_lead; assumption|apply below_lead; assumption].
  - intros (ns & k & L & W & P & ->). destruct (lead_found pattern i t ns k L root R T W P) as [(n & -> & H)|H]; [left; exact H|right; exact H].
Qed.
(** As many as there are: none twice. *)
Definition C105_number_claim : Prop := forall include_dirs root t, List.length (find (fun _ => true) include_dirs root t) = entries include_dirs t.
Lemma filter_all {A} (l : list A) : filter (fun _ => true) l = l.
Proof. induction l as [|x l IH]; cbn; [reflexivity|]. rewrite IH. reflexivity. Qed.
Theorem C105_number : C105_number_claim.
Proof.
  intros i root t. unfold find. revert root. induction t as [|n r IH|n s IHs r IHr]; intros root; [destruct i; reflexivity| |].
  - specialize (IH root). unfold here in *. cbn [below files dirs entries]. rewrite filter_all in *. rewrite !app_length, !map_length, !app_length in *. cbn [Datatypes.length]. lia.
  - specialize (IHs (join root n)). specialize (IHr root). unfold here in *. cbn [below files dirs entries]. unfold here. rewrite !filter_all in *. rewrite !app_length, !map_length, !app_length in *.
    destruct i; cbn [Datatypes.length] in *; lia.
Qed.

(** What copy_regex copies: what was found and is not excluded, if the pattern is found in its pathname below srcdir, to the changed pathname in dstdir. *)
Definition C105_copies_claim : Prop := forall exclude subn include_dirs srcdir dstdir t src dst, proper srcdir -> names_ok t ->
  In (src, dst) (copies exclude subn include_dirs srcdir dstdir t) <->
  exists ns k new n, leads t ns k /\ wanted include_dirs k /\ src = srcdir ++ "/" ++ String.concat "/" ns /\ exclude src = false /\
    subn (String.concat "/" ns) = (new, S n) /\ dst = join dstdir new.
Lemma drop_app a b : drop (length a) (a ++ b) = b.
Proof. induction a as [|c a IH]; cbn; [destruct b; reflexivity|exact IH]. Qed.
Theorem C105_copies : C105_copies_claim.
Proof.
  intros exclude subn i srcdir dstdir t src dst R T. unfold copies. rewrite in_flat_map. split.
  - intros (p & H & C). apply C105_find in H; [|exact R|exact T]. destruct H as (ns & k & L & W & _ & ->). destruct (exclude _) eqn:X; [destruct C|].
    rewrite <- cat_assoc, drop_app in C. destruct (subn (String.concat "/" ns)) as [new [|n]] eqn:S; [destruct C|]. destruct C as [C|[]]. injection C as <- <-.
    exists ns, k, new, n. rewrite cat_assoc. repeat split; assumption.
  - intros (ns & k & new & n & L & W & E & X & S & ->). exists src. split; [apply C105_find; [exact R|exact T|]; exists ns, k; repeat split; assumption|].
    rewrite X, E. rewrite <- cat_assoc, drop_app, S. left. reflexivity.
Qed.

(** FALSE: the same for all names of directories.  With a slash at the end of srcdir the first character of each name is lost. *)
Definition C105_slash_claim : Prop := forall exclude subn include_dirs srcdir dstdir t src dst, srcdir <> "" -> names_ok t ->
  In (src, dst) (copies exclude subn include_dirs srcdir dstdir t) ->
  exists ns k new n, leads t ns k /\ subn (String.concat "/" ns) = (new, S n) /\ dst = join dstdir new.
Theorem C105_slash_refuted : ~ C105_slash_claim.
Proof.
  intros H. destruct (H (fun _ => false) (fun s => (s, 1)) false "src/" "dst" (File "a.c" End) "src/a.c" "dst/.c") as (ns & k & new & n & L & E & D).
  - discriminate.
  - cbn. repeat split; discriminate.
  - left. reflexivity.
  - inversion L; subst; [|match goal with X : leads End _ _ |- _ => inversion X end]. cbn in E. injection E as <- _. discriminate.
Qed.
(** FALSE: only files are copied.  By default directories are too, which shutil.copy cannot. *)
Definition C105_files_claim : Prop := forall exclude subn t src dst, names_ok t ->
  In (src, dst) (copies exclude subn true "src" "dst" t) -> exists ns, leads t ns IsFile /\ src = "src/" ++ String.concat "/" ns.
Theorem C105_files_refuted : ~ C105_files_claim.
Proof.
  intros H. destruct (H (fun _ => false) (fun s => (s, 1)) (Sub "a" End End) "src/a" "dst/a") as (ns & L & _).
  - cbn. repeat split; discriminate.
  - left. reflexivity.
  - inversion L; subst; match goal with X : leads End _ _ |- _ => inversion X end.
Qed.
(** FALSE: no two sources have the same destination. *)
Definition C105_apart_claim : Prop := forall exclude subn t a b dst, names_ok t ->
  In (a, dst) (copies exclude subn false "src" "dst" t) -> In (b, dst) (copies exclude subn false "src" "dst" t) -> a = b.
Theorem C105_apart_refuted : ~ C105_apart_claim.
Proof.
  intros H. assert ("src/a" = "src/b"); [|discriminate]. apply (H (fun _ => false) (fun s => ("x", 1)) (File "a" (File "b" End)) "src/a" "src/b" "dst/x").
  - cbn. repeat split; discriminate.
  - left. reflexivity.
  - right. left. reflexivity.
Qed.

Definition ex_tree : tree := Sub "lib" (File "b.c" (Sub "in" (File "c.h" End) End)) (File "a.c" (File "x.o" End)).
Example C105_example :
  proper "src" /\ names_ok ex_tree /\ leads ex_tree ["lib"; "in"; "c.h"] IsFile /\
  find (fun _ => true) true "src" ex_tree = ["src/a.c"; "src/x.o"; "src/lib"; "src/lib/b.c"; "src/lib/in"; "src/lib/in/c.h"] /\
  find (fun s => ends_slash (s ++ "/") && negb (s =? "x.o")) false "src" ex_tree = ["src/a.c"; "src/lib/b.c"; "src/lib/in/c.h"] /\
  copies (fun s => s =? "src/x.o") (fun s => (s ++ ".bak", if s =? "a.c" then 0 else 1)) false "src" "build" ex_tree = [("src/lib/b.c", "build/lib/b.c.bak"); ("src/lib/in/c.h", "build/lib/in/c.h.bak")].
Proof.
  split; [split; [discriminate|]; intros [|? [|? [|? [|? ?]]]] E; discriminate|]. split; [cbn; repeat split; discriminate|].
  split; [apply leads_in, leads_past_file, leads_in, leads_file|]. repeat split; reflexivity.
Qed.

Print Assumptions C105_find.
Print Assumptions C105_number.
Print Assumptions C105_copies.
Print Assumptions C105_slash_refuted.
Print Assumptions C105_files_refuted.
Print Assumptions C105_apart_refuted.
