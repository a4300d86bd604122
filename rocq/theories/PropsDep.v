(** Properties of reading compilers' dependency lists (builders/c/gcc: Builder.compile,
    builders/ocaml: Ocamldep.modules). *)
From Coq Require Import String Ascii List NArith Bool Lia.
From Verif Require Import FnModel DepModel DepSpec DepFacts.
Import ListNotations.

Definition text (s : string) : str := map N_of_ascii (list_ascii_of_string s).

(** C56, the claim: whatever the compiler lists is registered, and nothing else. *)
Definition listed_registered : Prop :=
  forall target deps, target <> [] -> Forall (fun d => snd d <> []) deps ->
    read_deps (written target deps) = Some (map snd deps).

(** A header "a b.h" is written a\ b.h and read as the two names a\ and b.h. *)
Theorem C56_refuted : ~ listed_registered.
Proof.
  intros H. specialize (H (text "x.o") [(false, text "x.c"); (false, text "a b.h")]).
  assert (read_deps (written (text "x.o") [(false, text "x.c"); (false, text "a b.h")]) =
    Some [text "x.c"; text "a\"; text "b.h"]) as E by (vm_compute; reflexivity).
  rewrite E in H. discriminate H; [discriminate|]. repeat constructor; discriminate.
Qed.

(** An object file with a blank in its name: the file is not understood at all. *)
Theorem C56_refuted_target : read_deps (written (text "my x.o") [(false, text "x.c")]) = None.
Proof. vm_compute. reflexivity. Qed.

(** A header with $ in its name is registered with $$. *)
Theorem C56_refuted_dollar :
  read_deps (written (text "x.o") [(true, text "a$.h")]) = Some [text "a$$.h"].
Proof. vm_compute. reflexivity. Qed.

(** White space is what Python says it is, and a text is split into its words. *)
Theorem C56_white c : (is_uspace c = true <-> In c white) /\ (is_bspace c = true <-> In c byte_white).
Proof.
  assert (is_bspace c = true <-> In c byte_white) as H.
  { unfold is_bspace, byte_white. rewrite orb_true_iff, andb_true_iff, N.eqb_eq, !N.leb_le. cbn [In]. lia. }
  split; [|exact H]. unfold is_uspace. rewrite !orb_true_iff, H, !andb_true_iff, !N.leb_le, existsb_exists. unfold white, byte_white. split.
  - intros [[[Hc|Hc]|(x & Hx & E)]|Hc]; cbn [In] in *; [intuition|lia|apply N.eqb_eq in E as ->; intuition|lia].
  - cbn [In]. intros Hc. assert ((28 <= c <= 31)%N \/ (8192 <= c <= 8202)%N \/ In c byte_white \/
      In c [133; 160; 5760; 8232; 8233; 8239; 8287; 12288]%N) as Hd by (unfold byte_white; cbn [In]; lia).
    destruct Hd as [Hd|[Hd|[Hd|Hd]]]; [auto|auto|auto|]. left. right. exists c. split; [exact Hd|apply N.eqb_refl].
Qed.
Lemma uspace_true c : In c white -> is_uspace c = true.
Proof. apply C56_white. Qed.
Lemma uspace_false c : ~ In c white -> is_uspace c = false.
Proof. intros H. destruct (is_uspace c) eqn:E; [|reflexivity]. destruct H. apply C56_white, E. Qed.
Lemma gap_split b s : gap b -> split_ [] (b ++ s) = split_ [] s.
Proof. induction 1 as [|c b Hc _ IH]; [reflexivity|]. cbn. rewrite (uspace_true c Hc). exact IH. Qed.
Lemma word_split w s : Forall (fun c => ~ In c white) w -> forall cur, split_ cur (w ++ s) = split_ (cur ++ w) s.
Proof.
  induction 1 as [|c w Hc _ IH]; intros cur; [rewrite app_nil_r; reflexivity|]. cbn. rewrite (uspace_false c Hc), IH, <- app_assoc. reflexivity.
Qed.
Lemma words_split s ws : words s ws -> split s = ws.
Proof.
  unfold split. induction 1 as [b Hb|b w Hb [Hn Hw]|b w c s ws Hb [Hn Hw] Hc Hs IH].
  - rewrite <- (app_nil_r b), (gap_split b [] Hb). reflexivity.
  - rewrite (gap_split b _ Hb), <- (app_nil_r w), (word_split w [] Hw), app_nil_r. cbn. destruct w; [contradiction|reflexivity].
  - rewrite (gap_split b _ Hb), (word_split w _ Hw). cbn [app split_]. rewrite (uspace_true c Hc), IH. destruct w; [contradiction|reflexivity].
Qed.
Lemma split_words s : forall b cur, gap b -> Forall (fun c => ~ In c white) cur -> words (b ++ cur ++ s) (split_ cur s).
Proof.
  induction s as [|c s IH]; intros b cur Hb Hcur.
  - rewrite app_nil_r. cbn. destruct cur as [|x cur]; [rewrite app_nil_r; apply words_none, Hb|].
    apply words_last; [exact Hb|]. split; [discriminate|exact Hcur].
  - cbn [split_]. destruct (is_uspace c) eqn:E.
    + apply C56_white in E. destruct cur as [|x cur].
      * cbn [app]. change (b ++ c :: s) with (b ++ [c] ++ s). rewrite app_assoc. apply (IH (b ++ [c]) []); [|constructor].
        apply Forall_app. split; [exact Hb|]. constructor; [exact E|constructor].
      * apply words_more; [exact Hb|split; [discriminate|exact Hcur]|exact E|]. apply (IH [] []); constructor.
    + change (b ++ cur ++ c :: s) with (b ++ cur ++ [c] ++ s). rewrite (app_assoc cur). apply IH; [exact Hb|].
      apply Forall_app. split; [exact Hcur|]. constructor; [|constructor]. intros H. rewrite (uspace_true c H) in E. discriminate.
Qed.
Theorem C56_words s ws : words s ws <-> split s = ws.
Proof. split; [exact (words_split s ws)|]. intros <-. apply (split_words s [] []); constructor. Qed.

(** Exactly what is registered, for every target without blanks, wherever lines are broken. *)
Theorem C56_exact target deps :
  target <> [] -> nospace target -> one_line target -> Forall (fun d => one_line (snd d)) deps ->
  read_deps (written target deps) = Some (flat_map (fun d => split (munge (snd d))) deps).
Proof. exact (read_written target deps). Qed.

(** The claim holds for names without white space, # and $, not ending in a backslash. *)
Theorem C56_plain target deps :
  plain target -> Forall (fun d => plain (snd d)) deps ->
  (forall n, n = target \/ In n (map snd deps) -> forall s, n <> s ++ [c_bs]) ->
  read_deps (written target deps) = Some (map snd deps).
Proof. exact (read_plain target deps). Qed.

(** ocamldep -modules: exactly the modules are read, if the file's name has no blank. *)
Theorem C56_modules file modules :
  file <> [] -> nospace file ->
  Forall (fun m => m <> [] /\ Forall (fun c => is_uspace c = false) m) modules ->
  read_modules (listed file modules) = Some modules.
Proof. exact (read_listed file modules). Qed.

Example C56_ex :
  let deps := [(false, text "a:b.c"); (true, text "inc/a.h"); (false, text "C:\sys.h")] in
  plain (text "out/x:y.o") /\ Forall (fun d => plain (snd d)) deps /\
  read_deps (written (text "out/x:y.o") deps) = Some [text "a:b.c"; text "inc/a.h"; text "C:\sys.h"] /\
  read_deps (written (text "x.o") []) = Some [].
Proof.
  split; [split; [discriminate|]; repeat constructor; discriminate|].
  split; [repeat constructor; try discriminate|]. split; vm_compute; reflexivity.
Qed.
Example C56_modules_ex : read_modules (listed (text "a.ml") [text "List"; text "Foo"]) = Some [text "List"; text "Foo"].
Proof. vm_compute. reflexivity. Qed.

Print Assumptions C56_white.
Print Assumptions C56_words.
Print Assumptions C56_refuted.
Print Assumptions C56_refuted_target.
Print Assumptions C56_refuted_dollar.
Print Assumptions C56_exact.
Print Assumptions C56_plain.
Print Assumptions C56_modules.
