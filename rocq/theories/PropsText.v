(** Properties of text substitution (builders/text.py). *)
From Coq Require Import String Ascii List NArith Bool Permutation.
From Verif Require Import FnModel PathFacts TextModel TextSpec TextFacts.
Import ListNotations.

Definition text (s : string) : str := map N_of_ascii (list_ascii_of_string s).

(** * C58: substitute *)

(** The claim for arbitrary dictionaries: equal dictionaries (their order does not count for ==,
    nor for the cache) give equal texts. *)
Definition order_irrelevant : Prop :=
  forall code ps ps', Permutation ps ps' -> NoDup (map fst ps) -> substitute code ps = substitute code ps'.
(** {a: b, b: c} and {b: c, a: b}. *)
Theorem C58_refuted : ~ order_irrelevant.
Proof.
  intros H. specialize (H (text "a") [(text "a", text "b"); (text "b", text "c")] [(text "b", text "c"); (text "a", text "b")]
    (perm_swap _ _ _)).
  assert (NoDup (map fst [(text "a", text "b"); (text "b", text "c")])) as Hn.
  { vm_compute. constructor; [intros [E|[]]; discriminate E|]. constructor; [intros []|constructor]. }
  specialize (H Hn). vm_compute in H. discriminate H.
Qed.

(** One pattern: exactly the occurrences found from the left are replaced. *)
Theorem C58_replace s pat txt out :
  pat <> [] -> (substitute s [(pat, txt)] = out <-> replaced pat txt s out).
Proof. exact (replace_exact s pat txt out). Qed.

(** The empty pattern occurs before, between and after all characters. *)
Theorem C58_empty txt : substitute [] [([], txt)] = txt /\
  forall c s, substitute (c :: s) [([], txt)] = txt ++ c :: substitute s [([], txt)].
Proof. split; [apply app_nil_r|reflexivity]. Qed.

(** Placeholders, separated by characters no name contains; texts without the delimiter. *)
Theorem C58_template namechar t ps :
  spaced namechar t ->
  Forall (fun p => ~ In c_at (fst p) /\ forallb namechar (fst p) = true /\ ~ In c_at (snd p)) ps ->
  substitute (render t) (map (fun p => (placeholder (fst p), snd p)) ps) = fill (lookup ps) t.
Proof. exact (substitute_template namechar t ps). Qed.

Lemma lookup_in ps k v : NoDup (map fst ps) -> (lookup ps k = Some v <-> In (k, v) ps).
Proof.
  induction ps as [|[k' v'] ps IH]; intros Hn; [split; [discriminate|intros []]|].
  cbn [map fst] in Hn. apply NoDup_cons_iff in Hn. destruct Hn as [Hk Hn]. unfold lookup. cbn [find fst].
  destruct (str_eqb k' k) eqn:E.
  - apply str_eqb_true in E. subst k'. cbn. split.
    + intros H. injection H as ->. left. reflexivity.
    + intros [H|H]; [injection H as ->; reflexivity|]. destruct Hk. apply (in_map fst) in H. exact H.
  - fold (lookup ps k). rewrite (IH Hn). split; [intros H; right; exact H|].
    intros [H|H]; [|exact H]. injection H as -> _. rewrite str_eqb_refl in E. discriminate.
Qed.
(** Then the order does not matter. *)
Theorem C58_order namechar t ps ps' :
  spaced namechar t ->
  Forall (fun p => ~ In c_at (fst p) /\ forallb namechar (fst p) = true /\ ~ In c_at (snd p)) ps ->
  NoDup (map fst ps) -> Permutation ps ps' ->
  substitute (render t) (map (fun p => (placeholder (fst p), snd p)) ps) =
  substitute (render t) (map (fun p => (placeholder (fst p), snd p)) ps').
Proof.
  intros Ht Hp Hn Hperm. rewrite (C58_template namechar t ps Ht Hp).
  rewrite (C58_template namechar t ps' Ht (Permutation_Forall Hperm Hp)).
  assert (forall k, lookup ps k = lookup ps' k) as E.
  { assert (NoDup (map fst ps')) as Hn' by (exact (Permutation_NoDup (Permutation_map fst Hperm) Hn)).
    intros k. destruct (lookup ps k) as [v|] eqn:Ek.
    - symmetry. apply (lookup_in ps' k v Hn'). apply (Permutation_in _ Hperm). apply (lookup_in ps k v Hn). exact Ek.
    - destruct (lookup ps' k) as [v|] eqn:Ek'; [|reflexivity]. apply (lookup_in ps' k v Hn') in Ek'.
      apply (Permutation_in _ (Permutation_sym Hperm)) in Ek'. apply (lookup_in ps k v Hn) in Ek'. congruence. }
  unfold fill. f_equal. apply flat_map_ext. intros p. rewrite E. reflexivity.
Qed.

Definition is_name (c : chr) : bool :=
  (N.leb 48 c && N.leb c 57) || (N.leb 65 c && N.leb c 90) || (N.leb 97 c && N.leb c 122) || N.eqb c 95.
Definition ex_t : template := (text "a=", [(text "A", text ", "); (text "B", text "; "); (text "A", text ".")]).
Definition ex_ps : list (str * str) := [(text "B", text "A"); (text "A", text "B")].
Example C58_ex :
  spaced is_name ex_t /\
  Forall (fun p => ~ In c_at (fst p) /\ forallb is_name (fst p) = true /\ ~ In c_at (snd p)) ex_ps /\
  NoDup (map fst ex_ps) /\
  substitute (render ex_t) (map (fun p => (placeholder (fst p), snd p)) ex_ps) = text "a=B, A; B." /\
  substitute (text "aXbaab") [(text "ab", text "ba")] = text "aXbaba".
Proof.
  assert (forall s : str, forallb (fun c => negb (N.eqb c c_at)) s = true -> ~ In c_at s) as Hat.
  { intros s H Hi. rewrite forallb_forall in H. specialize (H _ Hi). rewrite N.eqb_refl in H. discriminate. }
  split; [|split; [|split; [|split; vm_compute; reflexivity]]].
  - split; [apply Hat; reflexivity|]. split.
    + repeat constructor; apply Hat; reflexivity.
    + intros l1 p l2 E Hne. unfold ex_t in E. cbn [snd] in E.
      destruct l1 as [|p1 [|p2 [|p3 l1]]].
      * injection E as <- _. exists 32%N. split; [right; left; reflexivity|reflexivity].
      * injection E as _ <- _. exists 32%N. split; [right; left; reflexivity|reflexivity].
      * injection E as _ _ _ E. symmetry in E. contradiction.
      * apply (f_equal (@length _)) in E. cbn in E. rewrite app_length in E. cbn in E. rewrite PeanoNat.Nat.add_comm in E. discriminate E.
  - repeat constructor; try reflexivity; apply Hat; reflexivity.
  - vm_compute. constructor; [intros [E|[]]; discriminate E|]. constructor; [intros []|constructor].
Qed.

(** * C59: autoconf_config_file *)

(** Exactly, for every text: the placeholders of words found from the left. *)
Theorem C59_exact word patterns s o :
  word c_at = false ->
  (autoconf_config_file word patterns s = o <-> filled word (fun k => option_map shown (patterns k)) s o).
Proof. intros H. exact (file_exact word H patterns s o). Qed.

(** The texts of values: bools and None as Python writes them, elements with blanks between them. *)
Theorem C59_shown :
  shown (VBool true) = text "True" /\ shown (VBool false) = text "False" /\ shown VNone = text "None" /\
  (forall s, shown (VStr s) = s) /\ (forall s b, shown (VOther s b) = s) /\
  shown (VIter []) = [] /\ (forall s, shown (VIter [s]) = s) /\
  forall s t l, shown (VIter (s :: t :: l)) = s ++ text " " ++ shown (VIter (t :: l)).
Proof. repeat split. Qed.

(** Templates: filled in, or KeyError if a value is missing. *)
Theorem C59_template word patterns t :
  word c_at = false ->
  ~ In c_at (fst t) -> Forall (fun p => is_word word (fst p) /\ ~ In c_at (snd p)) (snd t) ->
  let values k := option_map shown (patterns k) in
  (autoconf_config_file word patterns (render t) = Some (fill values t) /\ (forall p, In p (snd t) -> patterns (fst p) <> None)) \/
  (autoconf_config_file word patterns (render t) = None /\ exists p, In p (snd t) /\ patterns (fst p) = None).
Proof.
  intros Hw H0 H values. pose proof (filled_template word values t H0 H) as Hf.
  apply (file_exact word Hw patterns) in Hf. rewrite Hf. clear Hf.
  destruct (forallb _ (snd t)) eqn:E.
  - left. split; [reflexivity|]. intros p Hp. rewrite forallb_forall in E. specialize (E p Hp). unfold values in E.
    destruct (patterns (fst p)); [discriminate|discriminate E].
  - right. split; [reflexivity|]. destruct (existsb (fun p => match values (fst p) with Some _ => false | None => true end) (snd t)) eqn:Ex.
    + apply existsb_exists in Ex. destruct Ex as (p & Hp & E'). exists p. split; [exact Hp|]. unfold values in E'.
      destruct (patterns (fst p)); [discriminate E'|reflexivity].
    + exfalso. assert (forallb (fun p => match values (fst p) with Some _ => true | None => false end) (snd t) = true) as E'.
      { apply forallb_forall. intros p Hp. destruct (values (fst p)) eqn:Ev; [reflexivity|].
        assert (existsb (fun p => match values (fst p) with Some _ => false | None => true end) (snd t) = true) as Ex'.
        { apply existsb_exists. exists p. rewrite Ev. split; [exact Hp|reflexivity]. }
        congruence. }
      congruence.
Qed.
Definition ex_values (k : str) : option value :=
  if str_eqb k (text "A") then Some (VIter [text "x"; text "@B@"]) else
  if str_eqb k (text "B") then Some (VOther (text "0") false) else
  if str_eqb k (text "T") then Some (VBool true) else None.
(** Texts are not substituted again, adjacent placeholders and stray delimiters are fine. *)
Example C59_ex :
  is_name c_at = false /\ is_word is_name (text "A") /\
  autoconf_config_file is_name ex_values (text "me@x.y: @A@@B@@T@") = Some (text "me@x.y: x @B@0True") /\
  autoconf_config_file is_name ex_values (text "@A@ @C@") = None.
Proof. split; [reflexivity|]. split; [split; [discriminate|reflexivity]|]. split; vm_compute; reflexivity. Qed.

(** * C60: autoconf_config_header *)
(** The words of the specification. *)
Theorem C60_texts : str_undef = text "#undef" /\ str_define = text "#define " /\ str_open = text "/* #undef " /\ str_close = text " */" /\
  c_at = 64%N /\ c_blank = 32%N.
Proof. repeat split. Qed.

(** The claim: a definition asked for and given is made. *)
Definition given_defined : Prop :=
  forall word patterns key v,
    word c_at = false -> word c_nl = false -> word c_blank = false -> is_word word key -> patterns key = Some v ->
    v <> VNone -> v <> VBool false ->
    autoconf_config_header word patterns (undef_line 0 key) = Written (str_define ++ key ++ c_blank :: shown v).
(** #define B 0 cannot be had. *)
Theorem C60_refuted : ~ given_defined.
Proof.
  intros H. specialize (H is_name ex_values (text "B") (VOther (text "0") false) eq_refl eq_refl eq_refl).
  assert (is_word is_name (text "B")) as Hw by (split; [discriminate|reflexivity]).
  specialize (H Hw eq_refl). vm_compute in H. discriminate H; discriminate.
Qed.

(** Exactly, for every text, line by line: which lines are replaced, KeyError for a placeholder without
    a value, otherwise an error naming the definitions missing. *)
Theorem C60_exact word patterns lines outs :
  word c_at = false -> word c_nl = false -> word c_blank = false ->
  lines <> [] -> Forall (fun l => ~ In c_nl l) lines -> Forall2 (lined word patterns) lines outs ->
  autoconf_config_header word patterns (join_nl lines) = whole outs.
Proof. intros Ha Hn Hb Hne Hl H. exact (header_lines word Ha patterns Hn Hb lines outs Hne H Hl). Qed.
(** Every line is covered. *)
Theorem C60_total word patterns line :
  word c_at = false -> word c_nl = false -> word c_blank = false -> ~ In c_nl line -> exists o, lined word patterns line o.
Proof. intros Ha Hn Hb H. exact (lined_total word Ha patterns Hn Hb line H). Qed.

Example C60_ex :
  autoconf_config_header is_name ex_values (join_nl [text "#undef  A"; text " #undef A"; text "v=@T@"; text "#undef B"; text "#undef T"; []]) =
  Written (join_nl [text "#define A x @B@"; text " #undef A"; text "v=True"; text "/* #undef B */"; text "#define T 1"; []]) /\
  autoconf_config_header is_name ex_values (join_nl [text "#undef C"; text "#undef T"; text "#undef D"]) = Missing [text "C"; text "D"] /\
  autoconf_config_header is_name ex_values (join_nl [text "#undef C"; text "@D@"]) = KeyErr /\
  (exists o, lined is_name ex_values (text "#undef  A") o).
Proof.
  split; [vm_compute; reflexivity|]. split; [vm_compute; reflexivity|]. split; [vm_compute; reflexivity|].
  eexists. apply (lined_define is_name ex_values 1 (text "A") (VIter [text "x"; text "@B@"])); [split; [discriminate|reflexivity]|reflexivity|discriminate|reflexivity].
Qed.

Print Assumptions C58_refuted.
Print Assumptions C58_replace.
Print Assumptions C58_empty.
Print Assumptions C58_template.
Print Assumptions C58_order.
Print Assumptions C59_exact.
Print Assumptions C59_shown.
Print Assumptions C59_template.
Print Assumptions C60_refuted.
Print Assumptions C60_texts.
Print Assumptions C60_exact.
Print Assumptions C60_total.
