(** Properties of shell patterns (fnmatch.py, glob.escape). *)
From Coq Require Import List NArith Bool String Ascii Lia.
From Verif Require Import FnModel FnSpec FnFacts.
Import ListNotations.
Open Scope N_scope.

Definition text (s : string) : str := map N_of_ascii (list_ascii_of_string s).

(** C39, the claim. *)
Definition patterns_mean_what_they_say : Prop :=
  forall g name, pattern_ok g -> exists b, fnmatch name (show g) = Some b /\ (b = true <-> lang anything g name).

(** C39 as it holds: for names without a newline.  [pattern_ok] is decided by the
    pattern alone; any nesting of braces, sets and unclosed brackets is covered. *)
Theorem C39_language_partial g name :
  pattern_ok g -> ~ In c_nl name ->
  exists b, fnmatch name (show g) = Some b /\ (b = true <-> lang anything g name).
Proof. exact (fnmatch_lang g name). Qed.

(** For all names. *)
Theorem C39_language_exact g name :
  pattern_ok g ->
  exists b, fnmatch name (show g) = Some b /\
    (b = true <-> lang not_newline g name \/ exists n, name = n ++ [c_nl] /\ lang not_newline g n).
Proof. exact (fnmatch_exact g name). Qed.

(** The pattern * does not match a name with a newline inside. *)
Theorem C39_language_refuted : ~ patterns_mean_what_they_say.
Proof.
  intros H. destruct (H (GCons IStar GNil) [97; 10; 98]) as (b & Hb & He).
  { cbn. tauto. }
  vm_compute in Hb. injection Hb as <-.
  assert (false = true) as Hf; [|discriminate Hf]. apply He.
  exists [97; 10; 98], []. cbn. repeat split; auto.
Qed.

(** C40, the claim. *)
Definition escape_matches_only_itself : Prop :=
  forall s name, exists b, fnmatch name (escape s) = Some b /\ (b = true <-> name = s).

Theorem C40_escape_exact s name :
  exists b, fnmatch name (escape s) = Some b /\ (b = true <-> name = s \/ name = s ++ [c_nl]).
Proof. exact (fnmatch_escape s name). Qed.

Theorem C40_escape_partial s name :
  ~ In c_nl name -> exists b, fnmatch name (escape s) = Some b /\ (b = true <-> name = s).
Proof.
  intros Hn. destruct (fnmatch_escape s name) as (b & Hb & He). exists b. split; [exact Hb|].
  rewrite He. split; [|tauto]. intros [H|H]; [exact H|]. exfalso. apply Hn. rewrite H.
  apply in_or_app. right. left. reflexivity.
Qed.

(** The name a followed by a newline matches the escaped name a. *)
Theorem C40_escape_refuted : ~ escape_matches_only_itself.
Proof.
  intros H. destruct (H [97] [97; 10]) as (b & Hb & He). vm_compute in Hb. injection Hb as <-.
  destruct He as [He _]. specialize (He eq_refl). discriminate.
Qed.

(** C41: after any use of the module, filter keeps the matching names in order; it
    fails exactly if the pattern is rejected. *)
Theorem C41_filter ops names pat l :
  fst (fn_filter (fold_left fn_step ops []) names pat) = Some l <->
  (forall n, exists b, fnmatch n pat = Some b) /\
  l = filter (fun n => match fnmatch n pat with Some b => b | None => false end) names.
Proof. exact (fn_filter_ok ops names pat l). Qed.

Theorem C41_match_cached ops name pat :
  fst (fn_match (fold_left fn_step ops []) name pat) = fnmatch name pat.
Proof. exact (fn_match_ok ops name pat). Qed.

(** a{b,[!x-z\]{c,}}*?[ is such a pattern. *)
Definition ex_glob : glob :=
  GCons (ILit 97)
  (GCons (IAlt (AMore (GCons (ILit 98) GNil)
               (AOne (GCons (ISet true [SRange 120 122; SChar 92])
                     (GCons (IAlt (AMore (GCons (ILit 99) GNil) (AOne GNil))) GNil)))))
  (GCons IStar (GCons IAny (GCons (ILit 91) GNil)))).

Example ex_glob_ok : pattern_ok ex_glob.
Proof. cbn. unfold set_ok, lit_ok. cbn. repeat split; try discriminate; try (intros []); lia. Qed.
Example ex_glob_text : show ex_glob = text "a{b,[!x-z\]{c,}}*?[".
Proof. vm_compute. reflexivity. Qed.
Example ex_glob_yes : fnmatch (text "awcQQ[") (show ex_glob) = Some true.
Proof. vm_compute. reflexivity. Qed.
Example ex_glob_no : fnmatch (text "axcQQ[") (show ex_glob) = Some false.
Proof. vm_compute. reflexivity. Qed.
Example ex_no_newline : ~ In c_nl (text "awcQQ[").
Proof. intros H. vm_compute in H. repeat (destruct H as [H|H]; [discriminate H|]). exact H. Qed.
Example ex_escape : escape (text "a*[b]{c}?") = text "a[*][[]b][{]c}[?]".
Proof. vm_compute. reflexivity. Qed.
Example ex_filter : fst (fn_filter [] [text "b.c"; text "a.h"; text "a.c"; text "b.c"] (text "*.c"))
  = Some [text "b.c"; text "a.c"; text "b.c"].
Proof. vm_compute. reflexivity. Qed.

Print Assumptions C39_language_partial.
Print Assumptions C39_language_exact.
Print Assumptions C39_language_refuted.
Print Assumptions C40_escape_exact.
Print Assumptions C40_escape_partial.
Print Assumptions C40_escape_refuted.
Print Assumptions C41_filter.
Print Assumptions C41_match_cached.
