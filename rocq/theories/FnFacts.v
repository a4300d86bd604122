(** The translation accepts the language of the pattern. *)
From Coq Require Import List NArith Bool Arith Lia.
From Verif Require Import FnModel FnSpec.
Import ListNotations.
Open Scope N_scope.

Scheme glob_mut := Induction for glob Sort Prop
  with item_mut := Induction for item Sort Prop
  with alts_mut := Induction for alts Sort Prop.
Combined Scheme glob_ind_all from glob_mut, item_mut, alts_mut.

Lemma eqb_no a b : a <> b -> N.eqb a b = false.
Proof. apply N.eqb_neq. Qed.
Lemma eqb_yes a b : a = b -> N.eqb a b = true.
Proof. apply N.eqb_eq. Qed.

(** *** What is emitted *)
Fixpoint rtext (g : glob) : str :=
  match g with
  | GNil => []
  | GCons i g => rtext_item i ++ rtext g
  end
with rtext_item (i : item) : str :=
  match i with
  | ILit c => if N.eqb c c_lbrace then [c] else re_escape c
  | IAny => [c_dot]
  | IStar => [c_dot; c_star]
  | ISet neg ms => set_text ((if neg then [c_bang] else []) ++ show_members ms)
  | IAlt a => [c_lpar] ++ rtext_alts a ++ [c_rpar]
  end
with rtext_alts (a : alts) : str :=
  match a with
  | AOne g => rtext g
  | AMore g a => rtext g ++ [c_bar] ++ rtext_alts a
  end.

(** *** Scanning a set *)
Lemma find_rbrk_app s rest : ~ In c_rbrk s -> find_rbrk (s ++ c_rbrk :: rest) = Some (s, rest).
Proof.
  induction s as [|c s IH]; intros Hn; simpl; [reflexivity|].
  rewrite eqb_no by (intros ->; apply Hn; left; reflexivity).
  rewrite IH by (intros H; apply Hn; right; exact H). reflexivity.
Qed.

Lemma find_rbrk_none s : ~ In c_rbrk s -> find_rbrk s = None.
Proof.
  induction s as [|c s IH]; intros Hn; simpl; [reflexivity|].
  rewrite eqb_no by (intros ->; apply Hn; left; reflexivity).
  rewrite IH by (intros H; apply Hn; right; exact H). reflexivity.
Qed.

Lemma skip_rbrk_none s : ~ In c_rbrk s -> skip_rbrk s = None.
Proof.
  intros Hn. unfold skip_rbrk. destruct s as [|c s]; [reflexivity|].
  rewrite eqb_no by (intros ->; apply Hn; left; reflexivity). apply find_rbrk_none. exact Hn.
Qed.

Lemma scan_set_none s : ~ In c_rbrk s -> scan_set s = None.
Proof.
  intros Hn. unfold scan_set. destruct s as [|c s]; [reflexivity|].
  destruct (N.eqb c c_bang); [|apply skip_rbrk_none; exact Hn].
  rewrite skip_rbrk_none; [reflexivity|]. intros H; apply Hn; right; exact H.
Qed.

Lemma skip_rbrk_app s rest :
  s <> [] -> ~ In c_rbrk (tl s) -> skip_rbrk (s ++ c_rbrk :: rest) = Some (s, rest).
Proof.
  intros Hs Hn. destruct s as [|c s]; [contradiction|]. simpl in *.
  destruct (N.eqb c c_rbrk) eqn:E.
  - rewrite find_rbrk_app by exact Hn. reflexivity.
  - rewrite find_rbrk_app by exact Hn. reflexivity.
Qed.

Lemma members_tail first ms :
  members_ok first ms -> ~ In c_rbrk (tl (show_members ms)).
Proof.
  assert (forall ms, members_ok false ms -> ~ In c_rbrk (show_members ms)) as Haux.
  { clear. induction ms as [|[c|lo hi] ms IH]; simpl; [tauto| |].
    - intros (H1 & H2 & H3) [H|H]; [specialize (H1 H); discriminate|]. exact (IH H3 H).
    - intros (H1 & H2 & H3 & H4 & H5 & H6) [H|[H|[H|H]]].
      + specialize (H1 H); discriminate.
      + discriminate.
      + contradiction.
      + exact (IH H6 H). }
  destruct ms as [|[c|lo hi] ms]; simpl; [tauto| |].
  - intros (H1 & H2 & H3). apply Haux. exact H3.
  - intros (H1 & H2 & H3 & H4 & H5 & H6) [H|[H|H]]; [discriminate|contradiction|].
    exact (Haux _ H6 H).
Qed.

Lemma show_members_nonnil ms : ms <> [] -> show_members ms <> [].
Proof. destruct ms as [|[c|lo hi] ms]; simpl; congruence. Qed.

Lemma scan_set_ok neg ms rest :
  set_ok neg ms ->
  scan_set ((if neg then [c_bang] else []) ++ show_members ms ++ c_rbrk :: rest)
  = Some ((if neg then [c_bang] else []) ++ show_members ms, rest).
Proof.
  intros (Hne & Hok & Hb). pose proof (members_tail _ _ Hok) as Ht.
  pose proof (show_members_nonnil _ Hne) as Hn.
  destruct neg; simpl.
  - rewrite skip_rbrk_app by assumption. reflexivity.
  - pose proof (skip_rbrk_app (show_members ms) rest Hn Ht) as Hs.
    destruct (show_members ms) as [|c s] eqn:E; [contradiction|]. simpl in *.
    rewrite eqb_no; [exact Hs|]. specialize (Hb eq_refl). congruence.
Qed.

(** *** The translation *)
Definition stop (nested : bool) (rest : str) : option chr :=
  match rest with
  | c :: _ => if nested && (N.eqb c c_comma || N.eqb c c_rbrace) then Some c else None
  | [] => None
  end.

(** The text the translation stops at. *)
Definition stops (nested : bool) (rest : str) : Prop :=
  rest = [] \/ nested = true /\ (head rest = Some c_comma \/ head rest = Some c_rbrace).

Lemma in_app_r (A : Type) (a : A) l m : ~ In a (l ++ m) -> ~ In a m.
Proof. intros H1 H2. apply H1. apply in_or_app. right. exact H2. Qed.

Lemma find_rbrk_split s a b : find_rbrk s = Some (a, b) -> s = a ++ c_rbrk :: b.
Proof.
  revert a b. induction s as [|c s IH]; intros a b H; simpl in H; [discriminate|].
  destruct (N.eqb c c_rbrk) eqn:E.
  - apply N.eqb_eq in E. injection H as <- <-. rewrite E. reflexivity.
  - destruct (find_rbrk s) as [[a' b']|]; [|discriminate]. injection H as <- <-.
    simpl. f_equal. apply IH. reflexivity.
Qed.

Lemma skip_rbrk_split s a b : skip_rbrk s = Some (a, b) -> s = a ++ c_rbrk :: b.
Proof.
  destruct s as [|c s]; simpl; [discriminate|].
  destruct (N.eqb c c_rbrk) eqn:E.
  - destruct (find_rbrk s) as [[a' b']|] eqn:F; [|discriminate]. intros H. injection H as <- <-.
    simpl. f_equal. apply find_rbrk_split. exact F.
  - intros H. apply (find_rbrk_split (c :: s)). simpl. rewrite E. exact H.
Qed.

Lemma scan_set_split s a b : scan_set s = Some (a, b) -> s = a ++ c_rbrk :: b.
Proof.
  destruct s as [|c s]; simpl; [discriminate|].
  destruct (N.eqb c c_bang) eqn:E.
  - destruct (skip_rbrk s) as [[a' b']|] eqn:F; [|discriminate]. intros H. injection H as <- <-.
    simpl. f_equal. apply skip_rbrk_split. exact F.
  - intros H. apply (skip_rbrk_split (c :: s)). exact H.
Qed.

(** Without a closing brace, the commas of an opened brace are put back. *)
Record unclosed (s t : str) : Prop := Unclosed {
  uc_false : forall f, (f >= 2 * length s + 1)%nat -> translate_ f false s = Some ([], None, t);
  uc_true :
    (forall f, (f >= 2 * length s + 1)%nat -> translate_ f true s = Some ([], None, t)) \/
    (exists s2 t1 t2, (length s2 < length s)%nat /\ ~ In c_rbrace s2 /\
      (forall f, (f >= 2 * length s + 1)%nat ->
         translate_ f true s = Some (c_comma :: s2, Some c_comma, t1)) /\
      t = t1 ++ c_comma :: t2 /\
      (forall f, (f >= 2 * length s2 + 1)%nat -> translate_ f false s2 = Some ([], None, t2)));
  uc_sub : forall f, (f >= 2 * length s + 2)%nat ->
    exists subs, subexpressions f s = Some ([], false, subs) /\ join c_comma subs = t /\ subs <> []
}.

Definition emit (T : str) (o : option (str * option chr * str)) :=
  match o with Some (r, e, res) => Some (r, e, T ++ res) | None => None end.

Lemma unclosed_sub s t :
  (forall f, (f >= 2 * length s + 1)%nat -> translate_ f false s = Some ([], None, t)) ->
  ((forall f, (f >= 2 * length s + 1)%nat -> translate_ f true s = Some ([], None, t)) \/
    (exists s2 t1 t2, (length s2 < length s)%nat /\ ~ In c_rbrace s2 /\
      (forall f, (f >= 2 * length s + 1)%nat ->
         translate_ f true s = Some (c_comma :: s2, Some c_comma, t1)) /\
      t = t1 ++ c_comma :: t2 /\
      (forall f, (f >= 2 * length s2 + 1)%nat -> translate_ f false s2 = Some ([], None, t2)))) ->
  (forall s2, (length s2 < length s)%nat -> ~ In c_rbrace s2 -> exists t2, unclosed s2 t2) ->
  unclosed s t.
Proof.
  intros H1 H2 IH. split; [exact H1|exact H2|].
  intros f Hf. destruct f as [|f]; [lia|]. cbn [subexpressions].
  destruct H2 as [H2|(s2 & t1 & t2 & Hl & Hn & H2 & Ht & H3)].
  - rewrite H2 by lia. exists [t]. split; [reflexivity|]. split; [reflexivity|discriminate].
  - rewrite H2 by lia. rewrite eqb_yes by reflexivity. cbn [tl].
    destruct (IH s2 Hl Hn) as [t2' [G1 G2 G3]].
    assert (t2' = t2) as ->.
    { specialize (G1 (2 * length s2 + 1)%nat (le_n _)). specialize (H3 (2 * length s2 + 1)%nat (le_n _)).
      congruence. }
    destruct (G3 f ltac:(lia)) as (subs & -> & Hj & Hne).
    exists (t1 :: subs). split; [reflexivity|]. split; [|discriminate].
    destruct subs as [|x subs]; [contradiction|].
    cbn [join]. cbn [join] in Hj. rewrite Hj. symmetry. exact Ht.
Qed.

Lemma unclosed_emit s rest T t :
  (length rest < length s)%nat -> unclosed rest t ->
  (forall s2, (length s2 < length s)%nat -> ~ In c_rbrace s2 -> exists t2, unclosed s2 t2) ->
  (forall f nested, (f >= 2 * length s)%nat ->
     translate_ (S f) nested s = emit T (translate_ f nested rest)) ->
  unclosed s (T ++ t).
Proof.
  intros Hl [U1 U2 U3] IH He. apply unclosed_sub; [| |exact IH].
  - intros f Hf. destruct f as [|f]; [lia|]. rewrite He by lia. rewrite U1 by lia. reflexivity.
  - destruct U2 as [U2|(s2 & t1 & t2 & Hl2 & Hn & U2 & -> & U4)].
    + left. intros f Hf. destruct f as [|f]; [lia|]. rewrite He by lia. rewrite U2 by lia. reflexivity.
    + right. exists s2, (T ++ t1), t2. split; [lia|]. split; [exact Hn|]. split; [|split].
      * intros f Hf. destruct f as [|f]; [lia|]. rewrite He by lia. rewrite U2 by lia. reflexivity.
      * rewrite app_assoc. reflexivity.
      * exact U4.
Qed.

Lemma unclosed_all s : ~ In c_rbrace s -> exists t, unclosed s t.
Proof.
  remember (length s) as n eqn:Hn. revert s Hn.
  induction n as [n IHn] using lt_wf_ind. intros s -> Hs.
  assert (forall s2, (length s2 < length s)%nat -> ~ In c_rbrace s2 -> exists t2, unclosed s2 t2) as IH.
  { intros s2 H1 H2. exact (IHn (length s2) H1 s2 eq_refl H2). }
  destruct s as [|c s].
  { exists []. apply unclosed_sub; [| |exact IH].
    - intros f Hf. destruct f as [|f]; [simpl in Hf; lia|]. reflexivity.
    - left. intros f Hf. destruct f as [|f]; [simpl in Hf; lia|]. reflexivity. }
  assert (c <> c_rbrace) as Hcb by (intros ->; apply Hs; left; reflexivity).
  assert (~ In c_rbrace s) as Hs' by (intros H; apply Hs; right; exact H).
  destruct (N.eq_dec c c_comma) as [->|Hc].
  { destruct (IH s ltac:(simpl; lia) Hs') as [t [U1 U2 U3]].
    exists ([c_comma] ++ t). apply unclosed_sub; [| |exact IH].
    - intros f Hf. destruct f as [|f]; [simpl in Hf; lia|]. simpl in Hf.
      cbn [translate_]. rewrite U1 by lia. reflexivity.
    - right. exists s, [], t. split; [simpl; lia|]. split; [exact Hs'|].
      split; [|split; [reflexivity|exact U1]].
      intros f Hf. destruct f as [|f]; [simpl in Hf; lia|]. reflexivity. }
  assert (forall nested, nested && (N.eqb c c_comma || N.eqb c c_rbrace) = false) as Hgo.
  { intros nested. rewrite !eqb_no by assumption. apply andb_false_r. }
  destruct (N.eq_dec c c_star) as [->|Hc1].
  { destruct (IH s ltac:(simpl; lia) Hs') as [t U]. eexists. eapply unclosed_emit; [|exact U|exact IH|].
    - simpl; lia.
    - intros f nested Hf. cbn [translate_]. rewrite Hgo. reflexivity. }
  destruct (N.eq_dec c c_quest) as [->|Hc2].
  { destruct (IH s ltac:(simpl; lia) Hs') as [t U]. eexists. eapply unclosed_emit; [|exact U|exact IH|].
    - simpl; lia.
    - intros f nested Hf. cbn [translate_]. rewrite Hgo. reflexivity. }
  destruct (N.eq_dec c c_lbrk) as [->|Hc3].
  { destruct (scan_set s) as [[stuff rest]|] eqn:Es.
    - pose proof (scan_set_split _ _ _ Es) as Hsp.
      assert (~ In c_rbrace rest) as Hr.
      { intros H. apply Hs'. rewrite Hsp. apply in_or_app. right. right. exact H. }
      assert (length rest < length (c_lbrk :: s))%nat as Hl.
      { rewrite Hsp. simpl. rewrite app_length. simpl. lia. }
      destruct (IH rest Hl Hr) as [t U]. eexists. eapply unclosed_emit; [exact Hl|exact U|exact IH|].
      intros f nested Hf. cbn [translate_]. rewrite Hgo.
      change (N.eqb c_lbrk c_star) with false. change (N.eqb c_lbrk c_quest) with false.
      change (N.eqb c_lbrk c_lbrk) with true. cbv iota. rewrite Es. reflexivity.
    - destruct (IH s ltac:(simpl; lia) Hs') as [t U]. eexists. eapply unclosed_emit; [|exact U|exact IH|].
      + simpl; lia.
      + intros f nested Hf. cbn [translate_]. rewrite Hgo.
        change (N.eqb c_lbrk c_star) with false. change (N.eqb c_lbrk c_quest) with false.
        change (N.eqb c_lbrk c_lbrk) with true. cbv iota. rewrite Es. reflexivity. }
  destruct (N.eq_dec c c_lbrace) as [->|Hc4].
  { destruct (IH s ltac:(simpl; lia) Hs') as [t [U1 U2 U3]].
    assert (forall f nested, (f >= 2 * length (c_lbrace :: s))%nat ->
      translate_ (S f) nested (c_lbrace :: s) = Some ([], None, c_lbrace :: t)) as He.
    { intros f nested Hf. simpl in Hf. cbn [translate_]. rewrite Hgo.
      change (N.eqb c_lbrace c_star) with false. change (N.eqb c_lbrace c_quest) with false.
      change (N.eqb c_lbrace c_lbrk) with false. change (N.eqb c_lbrace c_lbrace) with true. cbv iota.
      destruct (U3 f ltac:(lia)) as (subs & -> & <- & _).
      destruct f as [|f]; [lia|]. cbn [translate_]. rewrite app_nil_r. reflexivity. }
    exists (c_lbrace :: t). apply unclosed_sub; [| |exact IH].
    - intros f Hf. destruct f as [|f]; [lia|]. apply He. lia.
    - left. intros f Hf. destruct f as [|f]; [lia|]. apply He. lia. }
  destruct (IH s ltac:(simpl; lia) Hs') as [t U]. eexists. eapply unclosed_emit; [|exact U|exact IH|].
  - simpl; lia.
  - intros f nested Hf. cbn [translate_]. rewrite Hgo. rewrite !(eqb_no c) by assumption. reflexivity.
Qed.

(** *** Every well-formed pattern is translated to [rtext] *)
Lemma head_app_nil (A : Type) (l m : list A) : l = [] -> head (l ++ m) = head m.
Proof. intros ->. reflexivity. Qed.

Lemma translate_stop f nested rest :
  stops nested rest -> (f >= 1)%nat ->
  translate_ f nested rest = Some (rest, head rest, []).
Proof.
  intros Hst Hf. destruct f as [|f]; [lia|]. destruct Hst as [->|[-> Hh]]; [reflexivity|].
  destruct rest as [|c rest]; [destruct Hh; discriminate|]. cbn [translate_ head].
  destruct Hh as [H|H]; injection H as ->; reflexivity.
Qed.

Lemma translate_show :
  (forall g nested rest, glob_ok nested g rest -> stops nested rest ->
     forall f, (f >= 2 * length (show g ++ rest) + 1)%nat ->
     translate_ f nested (show g ++ rest) = Some (rest, head rest, rtext g)) /\
  (forall i nested rest, item_ok nested i rest ->
     (forall t k e, (forall f, (f >= 2 * length rest + 1)%nat -> translate_ f nested rest = Some (k, e, t)) ->
     forall f, (f >= 2 * length (show_item i ++ rest) + 1)%nat ->
     translate_ f nested (show_item i ++ rest) = Some (k, e, rtext_item i ++ t))) /\
  (forall a rest, alts_ok a (c_rbrace :: rest) ->
     forall f, (f >= 2 * length (show_alts a ++ c_rbrace :: rest) + 2)%nat ->
     exists subs, subexpressions f (show_alts a ++ c_rbrace :: rest) = Some (rest, true, subs) /\
       join c_bar subs = rtext_alts a /\ subs <> []).
Proof.
  apply glob_ind_all.
  - intros nested rest _ Hst f Hf. apply translate_stop; [exact Hst|]. simpl in Hf. lia.
  - intros i IHi g IHg nested rest [Hi Hg] Hst f Hf. cbn [show rtext] in *.
    rewrite <- app_assoc in *. apply (IHi nested _ Hi).
    + intros f' Hf'. apply IHg; assumption.
    + exact Hf.
  - (* ILit *)
    intros c nested rest (H1 & H2 & H3 & H4 & H5) t k e Hr f Hf.
    cbn [show_item app rtext_item length] in *. destruct f as [|f]; [lia|].
    cbn [translate_].
    assert (nested && (N.eqb c c_comma || N.eqb c c_rbrace) = false) as ->.
    { destruct nested; [|reflexivity]. destruct (H5 eq_refl). rewrite !eqb_no by assumption. reflexivity. }
    rewrite (eqb_no c c_star), (eqb_no c c_quest) by assumption.
    destruct (N.eqb c c_lbrk) eqn:E1.
    { apply N.eqb_eq in E1. subst c. rewrite scan_set_none by (apply H3; reflexivity).
      rewrite Hr by lia. reflexivity. }
    destruct (N.eqb c c_lbrace) eqn:E2.
    { apply N.eqb_eq in E2. subst c. destruct (H4 eq_refl) as [-> Hn].
      destruct (unclosed_all rest Hn) as [t' [U1 U2 U3]].
      specialize (Hr (2 * length rest + 1)%nat (le_n _)).
      rewrite U1 in Hr by lia. injection Hr as <- <- <-.
      destruct (U3 f ltac:(lia)) as (subs & -> & <- & _).
      destruct f as [|f]; [lia|]. cbn [translate_]. rewrite app_nil_r. reflexivity. }
    rewrite Hr by lia. reflexivity.
  - intros nested rest _ t k e Hr f Hf. cbn [show_item app length] in *. destruct f as [|f]; [lia|].
    cbn [translate_]. rewrite andb_false_r.
    change (N.eqb c_quest c_star) with false. change (N.eqb c_quest c_quest) with true. cbv iota.
    rewrite Hr by lia. reflexivity.
  - intros nested rest _ t k e Hr f Hf. cbn [show_item app length] in *. destruct f as [|f]; [lia|].
    cbn [translate_]. rewrite andb_false_r.
    change (N.eqb c_star c_star) with true. cbv iota.
    rewrite Hr by lia. reflexivity.
  - intros neg ms nested rest Hok t k e Hr f Hf. cbn [item_ok] in Hok. cbn [show_item rtext_item] in *.
    rewrite <- !app_assoc in *. cbn [app] in *. destruct f as [|f]; [lia|].
    cbn [translate_]. rewrite andb_false_r.
    change (N.eqb c_lbrk c_star) with false. change (N.eqb c_lbrk c_quest) with false.
    change (N.eqb c_lbrk c_lbrk) with true. cbv iota.
    rewrite scan_set_ok by exact Hok. rewrite Hr; [reflexivity|].
    simpl in Hf. rewrite !app_length in Hf. simpl in Hf. lia.
  - intros a IHa nested rest Hok t k e Hr f Hf. cbn [item_ok app] in Hok. cbn [show_item rtext_item] in *.
    rewrite <- !app_assoc in *. cbn [app] in *. destruct f as [|f]; [lia|].
    cbn [translate_]. rewrite andb_false_r.
    change (N.eqb c_lbrace c_star) with false. change (N.eqb c_lbrace c_quest) with false.
    change (N.eqb c_lbrace c_lbrk) with false. change (N.eqb c_lbrace c_lbrace) with true. cbv iota.
    destruct (IHa rest Hok f) as (subs & -> & <- & _).
    { simpl in Hf. lia. }
    rewrite Hr; [cbn [app]; rewrite <- app_assoc; reflexivity|].
    simpl in Hf. rewrite !app_length in Hf. simpl in Hf. lia.
  - intros g IHg rest Hok f Hf. cbn [show_alts rtext_alts alts_ok] in *. destruct f as [|f]; [lia|].
    cbn [subexpressions]. rewrite (IHg true (c_rbrace :: rest) Hok); [|right; split; [reflexivity|right; reflexivity]|lia].
    cbn [head tl]. change (N.eqb c_rbrace c_comma) with false. cbv iota.
    exists [rtext g]. split; [reflexivity|]. split; [reflexivity|discriminate].
  - intros g IHg a IHa rest [Hg Ha] f Hf. cbn [show_alts rtext_alts] in *. destruct f as [|f]; [lia|].
    rewrite <- !app_assoc in *. cbn [app] in *.
    cbn [subexpressions]. rewrite (IHg true _ Hg); [|right; split; [reflexivity|left; reflexivity]|lia].
    cbn [head tl]. change (N.eqb c_comma c_comma) with true. cbv iota.
    destruct (IHa rest Ha f) as (subs & -> & Hj & Hne).
    { rewrite app_length in Hf. simpl in Hf. lia. }
    exists (rtext g :: subs). split; [reflexivity|]. split; [|discriminate].
    destruct subs as [|x subs]; [contradiction|].
    cbn [join] in *. rewrite Hj. reflexivity.
Qed.

(** *** Parsing the text back *)
Definition cmember (m : smember) : member :=
  match m with SChar c => MChar c | SRange lo hi => MRange lo hi end.

Fixpoint comp (g : glob) (q : regex) : regex :=
  match g with
  | GNil => q
  | GCons i g => RCat (citem i) (comp g q)
  end
with citem (i : item) : regex :=
  match i with
  | ILit c => RLit c
  | IAny => RAny
  | IStar => RAnyStar
  | ISet neg ms => RSet neg (map cmember ms)
  | IAlt a => calts a
  end
with calts (a : alts) : regex :=
  match a with
  | AOne g => comp g REps
  | AMore g a => RAlt (comp g REps) (calts a)
  end.

Definition enc (c : chr) : str := if N.eqb c c_bs then [c_bs; c_bs] else [c].

Lemma double_bs_cons c s : double_bs (c :: s) = enc c ++ double_bs s.
Proof. unfold enc. simpl. destruct (N.eqb c c_bs); reflexivity. Qed.

Lemma set_char_enc c s : set_char (enc c ++ s) = Some (c, s).
Proof.
  unfold enc. destruct (N.eqb c c_bs) eqn:E.
  - apply N.eqb_eq in E. subst c. reflexivity.
  - simpl. rewrite E. reflexivity.
Qed.

(** The first character of an encoded one tells brackets and minus signs. *)
Lemma enc_head c : exists d l, enc c = d :: l /\
  (c <> c_rbrk -> N.eqb d c_rbrk = false) /\ (c = c_rbrk -> N.eqb d c_rbrk = true) /\
  (c <> c_minus -> N.eqb d c_minus = false).
Proof.
  unfold enc. destruct (N.eqb c c_bs) eqn:E.
  - apply N.eqb_eq in E. subst c. exists c_bs, [c_bs]. repeat split; intros; reflexivity || discriminate.
  - exists c, []. repeat split; intros; try (apply eqb_no; assumption). apply eqb_yes; assumption.
Qed.

Lemma parse_set_step f first c s :
  (c = c_rbrk -> first = true) ->
  parse_set (S f) first (enc c ++ s) =
  match s with
  | d :: s2 =>
      if N.eqb d c_minus then
        match s2 with
        | [] => None
        | e :: s3 =>
            if N.eqb e c_rbrk then Some ([MChar c; MChar c_minus], s3)
            else match set_char s2 with
                 | None => None
                 | Some (hi, s4) =>
                     if N.ltb hi c then None
                     else match parse_set f false s4 with
                          | Some (ms, r) => Some (MRange c hi :: ms, r)
                          | None => None
                          end
                 end
        end
      else match parse_set f false s with
           | Some (ms, r) => Some (MChar c :: ms, r)
           | None => None
           end
  | [] => None
  end.
Proof.
  intros Hf. pose proof (set_char_enc c s) as Hsc.
  destruct (enc_head c) as (d & l & He & Hd1 & Hd2 & _). rewrite He in *. cbn [app] in *.
  cbn [parse_set].
  assert (N.eqb d c_rbrk && negb first = false) as ->.
  { destruct (N.eq_dec c c_rbrk) as [Hc|Hc].
    - rewrite (Hf Hc). apply andb_false_r.
    - rewrite (Hd1 Hc). reflexivity. }
  rewrite Hsc. reflexivity.
Qed.

Lemma parse_members ms : forall first f rest,
  members_ok first ms -> (ms = [] -> first = false) ->
  (f > length (double_bs (show_members ms)))%nat ->
  parse_set f first (double_bs (show_members ms) ++ c_rbrk :: rest) = Some (map cmember ms, rest).
Proof.
  induction ms as [|m ms IH]; intros first f rest Hok Hne Hf.
  { destruct f as [|f]; [simpl in Hf; lia|]. rewrite (Hne eq_refl). reflexivity. }
  destruct f as [|f]; [lia|].
  destruct m as [c|lo hi].
  - destruct Hok as (H1 & H2 & H3). cbn [show_members flat_map show_member app] in *.
    fold (show_members ms) in *. rewrite double_bs_cons in *. rewrite <- app_assoc.
    rewrite parse_set_step by exact H1.
    assert (length (enc c) >= 1)%nat as Hle by (unfold enc; destruct (N.eqb c c_bs); simpl; lia).
    rewrite app_length in Hf.
    destruct ms as [|m ms].
    { cbn [show_members flat_map double_bs app]. change (N.eqb c_rbrk c_minus) with false. cbv iota.
      destruct f as [|f]; [lia|]. reflexivity. }
    assert (parse_set f false (double_bs (show_members (m :: ms)) ++ c_rbrk :: rest)
            = Some (map cmember (m :: ms), rest)) as Hrec.
    { apply IH; [exact H3|reflexivity|lia]. }
    destruct m as [d|lo hi].
    + destruct (N.eq_dec d c_minus) as [->|Hd].
      * destruct H3 as (_ & H4 & _). destruct (H4 eq_refl) as [H5|H5]; [discriminate|]. subst ms.
        reflexivity.
      * cbn [show_members flat_map show_member app] in *. fold (show_members ms) in *.
        rewrite double_bs_cons in *. rewrite <- app_assoc in *.
        destruct (enc_head d) as (x & l & He & _ & _ & Hx). rewrite He in *. cbn [app] in *.
        rewrite (Hx Hd). rewrite Hrec. reflexivity.
    + destruct H3 as (_ & H4 & _).
      cbn [show_members flat_map show_member app] in *. fold (show_members ms) in *.
      rewrite double_bs_cons in *. rewrite <- app_assoc in *.
      destruct (enc_head lo) as (x & l & He & _ & _ & Hx). rewrite He in *. cbn [app] in *.
      rewrite (Hx H4). rewrite Hrec. reflexivity.
  - destruct Hok as (H1 & H2 & H3 & H4 & H5 & H6).
    cbn [show_members flat_map show_member app] in *. fold (show_members ms) in *.
    rewrite !double_bs_cons in *. rewrite <- !app_assoc.
    rewrite parse_set_step by exact H1.
    change (enc c_minus) with [c_minus]. cbn [app]. change (N.eqb c_minus c_minus) with true. cbv iota.
    pose proof (set_char_enc hi (double_bs (show_members ms) ++ c_rbrk :: rest)) as Hsc.
    destruct (enc_head hi) as (x & l & He & Hx & _ & _). rewrite He in *. cbn [app] in *.
    rewrite (Hx H4). rewrite Hsc.
    assert (N.ltb hi lo = false) as -> by (apply N.ltb_ge; exact H5).
    rewrite IH; [reflexivity|exact H6|reflexivity|].
    rewrite !app_length in Hf. cbn [length] in Hf. rewrite app_length in Hf. lia.
Qed.

Lemma parse_set_caret f s : parse_set f true (c_bs :: c_caret :: s) = parse_set f true (c_caret :: s).
Proof. destruct f as [|f]; reflexivity. Qed.

(** The text between the brackets. *)
Lemma parse_seq_set neg ms k q m f :
  set_ok neg ms ->
  (forall f', (f' >= 2 * length k + 2)%nat -> parse_seq f' k = Some (q, m)) ->
  (f >= 2 * length (set_text ((if neg then [c_bang] else []) ++ show_members ms) ++ k) + 2)%nat ->
  parse_seq f (set_text ((if neg then [c_bang] else []) ++ show_members ms) ++ k)
  = Some (RCat (RSet neg (map cmember ms)) q, m).
Proof.
  intros (Hne & Hok & Hb) Hk Hf.
  destruct f as [|f]; [lia|].
  destruct neg.
  - unfold set_text in *. cbn [app] in *. rewrite double_bs_cons in *.
    change (enc c_bang) with [c_bang] in *. cbn [app] in *.
    change (N.eqb c_bang c_bang) with true in *. cbv iota in *. cbn [app] in *.
    rewrite <- app_assoc in *. cbn [app] in *.
    cbn [parse_seq].
    change (N.eqb c_lbrk c_bar || N.eqb c_lbrk c_rpar) with false.
    change (N.eqb c_lbrk c_dot) with false. change (N.eqb c_lbrk c_bs) with false.
    change (N.eqb c_lbrk c_lbrk) with true. change (N.eqb c_caret c_caret) with true. cbv iota.
    rewrite parse_members; [|exact Hok|intros; contradiction|rewrite app_length; simpl; lia].
    rewrite Hk; [reflexivity|]. cbn [length] in Hf. rewrite app_length in Hf. simpl in Hf. lia.
  - cbn [app] in *. specialize (Hb eq_refl).
    assert (exists x l, set_text (show_members ms) ++ k = c_lbrk :: x :: l /\ N.eqb x c_caret = false /\
       forall f', (f' >= S (length (x :: l)))%nat ->
       parse_set f' true (x :: l) = Some (map cmember ms, k)) as (x & l & Hx & Hxc & Hp).
    { unfold set_text. cbn [app].
      pose proof (fun f' => parse_members ms true f' k Hok ltac:(intros; contradiction)) as Hpm.
      pose proof (show_members_nonnil _ Hne) as Hnn.
      destruct (show_members ms) as [|c s]; [contradiction|].
      rewrite double_bs_cons in *. cbn [head] in Hb.
      unfold enc in *. destruct (N.eqb c c_bs) eqn:E.
      - cbn [app] in *. change (N.eqb c_bs c_bang) with false. change (N.eqb c_bs c_caret) with false.
        cbv iota. cbn [app]. eexists _, _. split; [rewrite <- app_assoc; reflexivity|].
        split; [reflexivity|]. cbn [app]. intros f' Hf'. apply Hpm. simpl in *.
        rewrite app_length in Hf'. simpl in Hf'. lia.
      - cbn [app] in *. rewrite (eqb_no c c_bang) by congruence.
        destruct (N.eqb c c_caret) eqn:E2.
        + apply N.eqb_eq in E2. subst c. cbn [app]. eexists _, _.
          split; [rewrite <- app_assoc; reflexivity|]. split; [reflexivity|]. cbn [app].
          intros f' Hf'. rewrite parse_set_caret. apply Hpm. simpl in *.
          rewrite app_length in Hf'. simpl in Hf'. lia.
        + cbn [app]. eexists _, _.
          split; [rewrite <- app_assoc; reflexivity|]. split; [exact E2|]. cbn [app].
          intros f' Hf'. apply Hpm. simpl in *.
          rewrite app_length in Hf'. simpl in Hf'. lia. }
    rewrite Hx. cbn [parse_seq].
    change (N.eqb c_lbrk c_bar || N.eqb c_lbrk c_rpar) with false.
    change (N.eqb c_lbrk c_dot) with false. change (N.eqb c_lbrk c_bs) with false.
    change (N.eqb c_lbrk c_lbrk) with true. cbv iota. rewrite Hxc.
    rewrite (Hp (S (length (x :: l))) (le_n _)).
    rewrite Hk; [reflexivity|]. rewrite app_length in Hf.
    assert (length (set_text (show_members ms)) >= 1)%nat by (unfold set_text; simpl; lia). lia.
Qed.

Lemma special_facts c : special c = false ->
  N.eqb c c_bar = false /\ N.eqb c c_rpar = false /\ N.eqb c c_dot = false /\ N.eqb c c_bs = false /\
  N.eqb c c_lbrk = false /\ N.eqb c c_lpar = false /\ N.eqb c c_dollar = false /\
  N.eqb c c_lbrace = false /\ N.eqb c c_star = false /\ N.eqb c c_plus = false /\
  N.eqb c c_quest = false /\ N.eqb c c_caret = false.
Proof.
  unfold special. intros H.
  assert (forall d, In d specials -> N.eqb c d = false) as Hd.
  { intros d Hd. destruct (N.eqb c d) eqn:E; [|reflexivity].
    assert (existsb (N.eqb c) specials = true) as Ht by (apply existsb_exists; exists d; split; assumption).
    congruence. }
  repeat split; apply Hd; unfold specials; simpl; tauto.
Qed.

Lemma special_alnum c : special c = true -> alnum c = false.
Proof.
  unfold special. intros H. apply existsb_exists in H as (d & Hd & E). apply N.eqb_eq in E. subst d.
  unfold specials in Hd. simpl in Hd.
  repeat (destruct Hd as [Hd|Hd]; [subst c; reflexivity|]). contradiction.
Qed.

(** No closing brace in the text without one in the pattern. *)
Lemma double_bs_in c s : In c (double_bs s) -> In c s.
Proof.
  induction s as [|d s IH]; simpl; [tauto|].
  destruct (N.eqb d c_bs) eqn:E; simpl.
  - apply N.eqb_eq in E. subst d. intros [H|[H|H]]; auto.
  - intros [H|H]; auto.
Qed.

Lemma set_text_in s : In c_rbrace (set_text s) -> In c_rbrace s.
Proof.
  unfold set_text. intros H. apply double_bs_in.
  cbn [app] in H. destruct H as [H|H]; [discriminate|].
  apply in_app_or in H as [H|H]; [|destruct H as [H|[]]; discriminate].
  destruct (double_bs s) as [|c l]; [destruct H|].
  destruct (N.eqb c c_bang) eqn:E1.
  { destruct H as [H|H]; [discriminate|]. right. exact H. }
  destruct (N.eqb c c_caret) eqn:E2.
  { destruct H as [H|H]; [discriminate|]. exact H. }
  exact H.
Qed.

Lemma rtext_in :
  (forall g, In c_rbrace (rtext g) -> In c_rbrace (show g)) /\
  (forall i, In c_rbrace (rtext_item i) -> In c_rbrace (show_item i)) /\
  (forall a : alts, True).
Proof.
  apply glob_ind_all; try (intros; exact I).
  - tauto.
  - intros i IHi g IHg H. cbn [rtext show] in *. apply in_app_or in H. apply in_or_app.
    destruct H; [left; auto|right; auto].
  - intros c H. cbn [rtext_item show_item] in *. destruct (N.eqb c c_lbrace) eqn:E; [exact H|].
    unfold re_escape in H. destruct (special c); [|exact H].
    destruct H as [H|H]; [discriminate|exact H].
  - cbn. intros [H|[]]; discriminate.
  - cbn. intros [H|[H|[]]]; discriminate.
  - intros neg ms H. cbn [rtext_item show_item] in *. apply set_text_in in H.
    right. cbn [app]. apply in_app_or in H as [H|H]; apply in_or_app; [left; exact H|right; apply in_or_app; left; exact H].
  - intros a _ _. cbn [show_item]. rewrite app_assoc. apply in_or_app. right. left. reflexivity.
Qed.

Lemma quantifier_no s : ~ In c_rbrace s -> quantifier s = false.
Proof.
  intros Hn. unfold quantifier. destruct s as [|c s]; [reflexivity|].
  destruct (N.eqb c c_rbrace); [reflexivity|].
  assert (forall l, (forall x, In x l -> In x (c :: s)) ->
     forall x, In x (skip_digits l) -> In x (c :: s)) as Hsk.
  { induction l as [|d l IH]; intros Hl x Hx; simpl in Hx; [destruct Hx|].
    destruct (digit d); [|apply Hl; exact Hx].
    apply IH; [|exact Hx]. intros y Hy. apply Hl. right. exact Hy. }
  set (s2 := match skip_digits (c :: s) with
             | d :: s' => if N.eqb d c_comma then skip_digits s' else skip_digits (c :: s)
             | [] => [] end).
  assert (forall x, In x s2 -> In x (c :: s)) as H2.
  { unfold s2. pose proof (Hsk (c :: s) (fun x H => H)) as H1.
    destruct (skip_digits (c :: s)) as [|d s']; [intros x []|].
    destruct (N.eqb d c_comma); [|exact H1].
    apply Hsk. intros x Hx. apply H1. right. exact Hx. }
  destruct s2 as [|d s2']; [reflexivity|]. apply eqb_no. intros ->. apply Hn. apply H2. left. reflexivity.
Qed.

Lemma head_rtext :
  (forall g k, head k <> Some c_star -> head (rtext g ++ k) <> Some c_star) /\
  (forall i k, head (rtext_item i ++ k) <> Some c_star) /\
  (forall a : alts, True).
Proof.
  apply glob_ind_all; try (intros; exact I).
  - intros k H. exact H.
  - intros i IHi g IHg k H. cbn [rtext]. rewrite <- app_assoc. apply IHi.
  - intros c k. cbn [rtext_item]. destruct (N.eqb c c_lbrace) eqn:E.
    { apply N.eqb_eq in E. subst c. discriminate. }
    unfold re_escape. destruct (special c) eqn:Es; [discriminate|].
    destruct (special_facts c Es) as (_ & _ & _ & _ & _ & _ & _ & _ & H & _).
    apply N.eqb_neq in H. cbn. congruence.
  - discriminate.
  - discriminate.
  - discriminate.
  - discriminate.
Qed.

Lemma parse_rtext :
  (forall g nested rest, glob_ok nested g rest -> forall k q m,
     head k <> Some c_star -> (nested = false -> ~ In c_rbrace k) ->
     (forall f, (f >= 2 * length k + 2)%nat -> parse_seq f k = Some (q, m)) ->
     forall f, (f >= 2 * length (rtext g ++ k) + 2)%nat ->
     parse_seq f (rtext g ++ k) = Some (comp g q, m)) /\
  (forall i nested rest, item_ok nested i rest -> forall k q m,
     head k <> Some c_star -> (nested = false -> ~ In c_rbrace rest -> ~ In c_rbrace k) ->
     (forall f, (f >= 2 * length k + 2)%nat -> parse_seq f k = Some (q, m)) ->
     forall f, (f >= 2 * length (rtext_item i ++ k) + 2)%nat ->
     parse_seq f (rtext_item i ++ k) = Some (RCat (citem i) q, m)) /\
  (forall a rest, alts_ok a rest -> forall k f,
     (f >= 2 * length (rtext_alts a ++ c_rpar :: k) + 3)%nat ->
     parse_alt f (rtext_alts a ++ c_rpar :: k) = Some (calts a, c_rpar :: k)).
Proof.
  apply glob_ind_all.
  - intros nested rest _ k q m _ _ Hk f Hf. apply Hk. exact Hf.
  - intros i IHi g IHg nested rest [Hi Hg] k q m Hh Hn Hk f Hf.
    cbn [rtext comp] in *. rewrite <- app_assoc in *.
    apply (IHi nested _ Hi).
    + apply (proj1 head_rtext). exact Hh.
    + intros Hne Hr Hin. apply in_app_or in Hin as [Hin|Hin]; [|exact (Hn Hne Hin)].
      apply Hr. apply in_or_app. left. apply (proj1 rtext_in). exact Hin.
    + apply (IHg nested rest Hg); assumption.
    + exact Hf.
  - intros c nested rest Hok k q m Hh Hn Hk f Hf. cbn [rtext_item citem] in *.
    destruct Hok as (H1 & H2 & H3 & H4 & H5).
    destruct (N.eqb c c_lbrace) eqn:E.
    { apply N.eqb_eq in E. subst c. cbn [app length] in *. destruct f as [|f]; [lia|].
      destruct (H4 eq_refl) as [Hne Hr].
      cbn [parse_seq]. change (N.eqb c_lbrace c_bar || N.eqb c_lbrace c_rpar) with false.
      change (N.eqb c_lbrace c_dot) with false. change (N.eqb c_lbrace c_bs) with false.
      change (N.eqb c_lbrace c_lbrk) with false. change (N.eqb c_lbrace c_lpar) with false.
      change (N.eqb c_lbrace c_dollar) with false. change (N.eqb c_lbrace c_lbrace) with true. cbv iota.
      rewrite quantifier_no by (apply Hn; assumption). rewrite Hk by lia. reflexivity. }
    unfold re_escape in *. destruct (special c) eqn:Es.
    + cbn [app length] in *. destruct f as [|f]; [lia|].
      cbn [parse_seq]. change (N.eqb c_bs c_bar || N.eqb c_bs c_rpar) with false.
      change (N.eqb c_bs c_dot) with false. change (N.eqb c_bs c_bs) with true. cbv iota.
      rewrite (special_alnum c Es). rewrite Hk by lia. reflexivity.
    + cbn [app length] in *. destruct f as [|f]; [lia|].
      destruct (special_facts c Es) as (F1 & F2 & F3 & F4 & F5 & F6 & F7 & F8 & F9 & F10 & F11 & F12).
      cbn [parse_seq]. rewrite F1, F2, F3, F4, F5, F6, F7, F8, F9, F10, F11, F12. cbn [orb].
      rewrite Hk by lia. reflexivity.
  - intros nested rest _ k q m Hh _ Hk f Hf. cbn [rtext_item citem app length] in *.
    destruct f as [|f]; [lia|]. cbn [parse_seq].
    change (N.eqb c_dot c_bar || N.eqb c_dot c_rpar) with false.
    change (N.eqb c_dot c_dot) with true. cbv iota.
    destruct k as [|d k].
    + rewrite Hk by (simpl in *; lia). reflexivity.
    + rewrite (eqb_no d c_star) by (simpl in Hh; congruence). rewrite Hk by lia. reflexivity.
  - intros nested rest _ k q m Hh _ Hk f Hf. cbn [rtext_item citem app length] in *.
    destruct f as [|f]; [lia|]. cbn [parse_seq].
    change (N.eqb c_dot c_bar || N.eqb c_dot c_rpar) with false.
    change (N.eqb c_dot c_dot) with true. change (N.eqb c_star c_star) with true. cbv iota.
    rewrite Hk by lia. reflexivity.
  - intros neg ms nested rest Hok k q m Hh _ Hk f Hf. cbn [rtext_item citem item_ok] in *.
    apply parse_seq_set; assumption.
  - intros a IHa nested rest Hok k q m Hh _ Hk f Hf. cbn [rtext_item citem item_ok] in *.
    rewrite <- !app_assoc in *. cbn [app length] in *. destruct f as [|f]; [lia|].
    cbn [parse_seq].
    change (N.eqb c_lpar c_bar || N.eqb c_lpar c_rpar) with false.
    change (N.eqb c_lpar c_dot) with false. change (N.eqb c_lpar c_bs) with false.
    change (N.eqb c_lpar c_lbrk) with false. change (N.eqb c_lpar c_lpar) with true. cbv iota.
    rewrite (IHa _ Hok) by lia. change (N.eqb c_rpar c_rpar) with true. cbv iota.
    rewrite Hk; [reflexivity|]. rewrite app_length in Hf. simpl in Hf. lia.
  - intros g IHg rest Hok k f Hf. cbn [rtext_alts calts alts_ok] in *. destruct f as [|f]; [lia|].
    cbn [parse_alt]. rewrite (IHg true rest Hok (c_rpar :: k) REps (c_rpar :: k)).
    + reflexivity.
    + discriminate.
    + discriminate.
    + intros f' Hf'. destruct f' as [|f']; [lia|]. reflexivity.
    + lia.
  - intros g IHg a IHa rest [Hg Ha] k f Hf. cbn [rtext_alts calts] in *. destruct f as [|f]; [lia|].
    rewrite <- !app_assoc in *. cbn [app] in *.
    cbn [parse_alt]. rewrite (IHg true _ Hg (c_bar :: rtext_alts a ++ c_rpar :: k) REps (c_bar :: rtext_alts a ++ c_rpar :: k)).
    + change (N.eqb c_bar c_bar) with true. cbv iota. rewrite (IHa rest Ha); [reflexivity|].
      rewrite app_length in Hf. simpl in Hf. lia.
    + discriminate.
    + discriminate.
    + intros f' Hf'. destruct f' as [|f']; [lia|]. reflexivity.
    + lia.
Qed.

Lemma compile_show g : pattern_ok g -> compile (show g) = Some (comp g (RCat RDollar REps)).
Proof.
  intros Hok. unfold compile, translate.
  pose proof (proj1 translate_show g false [] Hok (or_introl eq_refl)) as Ht.
  rewrite app_nil_r in Ht. rewrite Ht by (unfold fuel_for; lia).
  unfold re_compile.
  destruct (2 * length (rtext g ++ [c_dollar]) + 3)%nat as [|f] eqn:Ef; [lia|].
  cbn [parse_alt].
  rewrite (proj1 parse_rtext g false [] Hok [c_dollar] (RCat RDollar REps) []).
  - reflexivity.
  - discriminate.
  - intros _ [H|[]]. discriminate.
  - intros f' Hf'. destruct f' as [|[|f']]; simpl in Hf'; try lia. reflexivity.
  - lia.
Qed.

(** *** Meaning *)
Lemma any_star_in s r : In r (any_star s) <-> exists a, s = a ++ r /\ forall c, In c a -> not_newline c.
Proof.
  revert r. induction s as [|c s IH]; intros r.
  - simpl. split.
    + intros [<-|[]]. exists []. split; [reflexivity|]. intros c [].
    + intros (a & Ha & _). symmetry in Ha. apply app_eq_nil in Ha as [_ ->]. left. reflexivity.
  - cbn [any_star]. split.
    + intros [<-|H].
      * exists []. split; [reflexivity|]. intros d [].
      * destruct (N.eqb c c_nl) eqn:E; [destruct H|]. apply IH in H as (a & -> & Ha).
        exists (c :: a). split; [reflexivity|]. intros d [<-|Hd]; [|exact (Ha d Hd)].
        apply N.eqb_neq. exact E.
    + intros ([|d a] & Ha & Hc).
      * left. exact Ha.
      * injection Ha as <- ->. right. rewrite (eqb_no c c_nl) by (apply Hc; left; reflexivity).
        apply IH. exists a. split; [reflexivity|]. intros d Hd. apply Hc. right. exact Hd.
Qed.

Lemma in_member_ok c m : in_member c (cmember m) = true <-> in_smember c m.
Proof.
  destruct m as [d|lo hi]; simpl.
  - apply N.eqb_eq.
  - rewrite andb_true_iff, !N.leb_le. tauto.
Qed.

Lemma rests_comp :
  (forall g q s r, In r (rests (comp g q) s) <->
     exists a b, s = a ++ b /\ lang not_newline g a /\ In r (rests q b)) /\
  (forall i s r, In r (rests (citem i) s) <-> exists a, s = a ++ r /\ lang_item not_newline i a) /\
  (forall al s r, In r (rests (calts al) s) <-> exists a, s = a ++ r /\ lang_alts not_newline al a).
Proof.
  apply glob_ind_all.
  - intros q s r. simpl. split.
    + intros H. exists [], s. auto.
    + intros (a & b & -> & -> & H). exact H.
  - intros i IHi g IHg q s r. cbn [comp rests lang]. rewrite in_flat_map. split.
    + intros (x & Hx & Hr). apply IHi in Hx as (a & -> & Ha).
      apply IHg in Hr as (b & c & -> & Hb & Hr).
      exists (a ++ b), c. rewrite app_assoc. split; [reflexivity|]. split; [|exact Hr].
      exists a, b. auto.
    + intros (ab & c & -> & (a & b & -> & Ha & Hb) & Hr).
      exists (b ++ c). split.
      * apply IHi. exists a. rewrite app_assoc. auto.
      * apply IHg. exists b, c. auto.
  - intros c s r. cbn [citem rests lang_item]. destruct s as [|d s].
    + split; [intros []|]. intros (a & H & ->). discriminate.
    + destruct (N.eqb c d) eqn:E; split.
      * apply N.eqb_eq in E. intros [<-|[]]. exists [c]. rewrite E. auto.
      * intros (a & H & ->). injection H as _ ->. left. reflexivity.
      * intros [].
      * intros (a & H & ->). injection H as H _. apply N.eqb_neq in E. congruence.
  - intros s r. cbn [citem rests lang_item]. destruct s as [|d s].
    + split; [intros []|]. intros (a & H & c & -> & _). discriminate.
    + destruct (N.eqb d c_nl) eqn:E; split.
      * intros [].
      * intros (a & H & c & -> & Hc). injection H as -> _. apply N.eqb_eq in E. contradiction.
      * intros [<-|[]]. exists [d]. split; [reflexivity|]. exists d. split; [reflexivity|].
        apply N.eqb_neq. exact E.
      * intros (a & H & c & -> & _). injection H as _ ->. left. reflexivity.
  - intros s r. cbn [citem rests lang_item]. apply any_star_in.
  - intros neg ms s r. cbn [citem rests lang_item].
    assert (forall d, xorb neg (existsb (in_member d) (map cmember ms)) = true <->
      (neg = false <-> exists m, In m ms /\ in_smember d m)) as Hx.
    { intros d. assert (existsb (in_member d) (map cmember ms) = true <-> exists m, In m ms /\ in_smember d m) as He.
      { rewrite existsb_exists. split.
        - intros (x & Hx & Hd). apply in_map_iff in Hx as (m & <- & Hm). exists m.
          split; [exact Hm|]. apply in_member_ok. exact Hd.
        - intros (m & Hm & Hd). exists (cmember m). split; [apply in_map; exact Hm|].
          apply in_member_ok. exact Hd. }
      destruct neg, (existsb (in_member d) (map cmember ms)); simpl; intuition congruence. }
    destruct s as [|d s].
    + split; [intros []|]. intros (a & H & c & -> & _). discriminate.
    + destruct (xorb neg (existsb (in_member d) (map cmember ms))) eqn:E; split.
      * intros [<-|[]]. exists [d]. split; [reflexivity|]. exists d. split; [reflexivity|].
        apply Hx. exact E.
      * intros (a & H & c & -> & _). injection H as _ ->. left. reflexivity.
      * intros [].
      * intros (a & H & c & -> & Hc). injection H as <- _. apply Hx in Hc. congruence.
  - intros a IHa s r. cbn [citem lang_item]. apply IHa.
  - intros g IHg s r. cbn [calts lang_alts]. rewrite IHg. split.
    + intros (a & b & -> & Ha & Hr). simpl in Hr. destruct Hr as [->|[]]. exists a. auto.
    + intros (a & -> & Ha). exists a, r. simpl. auto.
  - intros g IHg al IHa s r. cbn [calts rests lang_alts]. rewrite in_app_iff, IHa, IHg. split.
    + intros [(a & b & -> & Ha & Hr)|(a & -> & Ha)].
      * simpl in Hr. destruct Hr as [->|[]]. exists a. auto.
      * exists a. auto.
    + intros (a & -> & [Ha|Ha]).
      * left. exists a, r. simpl. auto.
      * right. exists a. auto.
Qed.

(** Exactly what fnmatch does: wildcards do not match a newline, and one newline at
    the end of the name is ignored. *)
Lemma fnmatch_exact g name :
  pattern_ok g ->
  exists b, fnmatch name (show g) = Some b /\
    (b = true <-> lang not_newline g name \/ exists n, name = n ++ [c_nl] /\ lang not_newline g n).
Proof.
  intros Hok. unfold fnmatch. rewrite (compile_show g Hok). eexists. split; [reflexivity|].
  unfold re_match.
  assert ((exists r, In r (rests (comp g (RCat RDollar REps)) name)) <->
    lang not_newline g name \/ (exists n, name = n ++ [c_nl] /\ lang not_newline g n)) as H.
  { split.
    - intros (r & Hr). apply (proj1 rests_comp) in Hr as (a & b & -> & Ha & Hb).
      destruct b as [|c [|d b]]; simpl in Hb.
      + left. rewrite app_nil_r. exact Ha.
      + destruct (N.eqb c c_nl) eqn:E; [|destruct Hb]. apply N.eqb_eq in E. subst c.
        right. exists a. auto.
      + destruct Hb.
    - intros [Ha|(n & -> & Ha)].
      + exists []. apply (proj1 rests_comp). exists name, []. rewrite app_nil_r. simpl. auto.
      + exists [c_nl]. apply (proj1 rests_comp). exists n, [c_nl]. simpl. auto. }
  rewrite <- H. destruct (rests (comp g (RCat RDollar REps)) name) as [|x l].
  - split; [discriminate|]. intros (r & []).
  - split; [|reflexivity]. intros _. exists x. left. reflexivity.
Qed.

(** On names without a newline, wildcards match anything. *)
Lemma lang_wild :
  (forall g s, ~ In c_nl s -> lang not_newline g s <-> lang anything g s) /\
  (forall i s, ~ In c_nl s -> lang_item not_newline i s <-> lang_item anything i s) /\
  (forall a s, ~ In c_nl s -> lang_alts not_newline a s <-> lang_alts anything a s).
Proof.
  apply glob_ind_all; cbn [lang lang_item lang_alts].
  - tauto.
  - intros i IHi g IHg s Hs. split; intros (a & b & -> & Ha & Hb); exists a, b;
      (split; [reflexivity|]);
      assert (~ In c_nl a) as H1 by (intros H; apply Hs; apply in_or_app; auto);
      assert (~ In c_nl b) as H2 by (intros H; apply Hs; apply in_or_app; auto);
      (split; [apply (IHi a H1); exact Ha|apply (IHg b H2); exact Hb]).
  - tauto.
  - intros s Hs. split; intros (c & -> & H); exists c; (split; [reflexivity|]).
    + exact I.
    + intros ->. apply Hs. left. reflexivity.
  - intros s Hs. split; intros H c Hc; [exact I|]. intros ->. exact (Hs Hc).
  - tauto.
  - intros a IHa s Hs. exact (IHa s Hs).
  - intros g IHg s Hs. exact (IHg s Hs).
  - intros g IHg a IHa s Hs. rewrite (IHg s Hs), (IHa s Hs). tauto.
Qed.

Lemma fnmatch_lang g name :
  pattern_ok g -> ~ In c_nl name ->
  exists b, fnmatch name (show g) = Some b /\ (b = true <-> lang anything g name).
Proof.
  intros Hok Hn. destruct (fnmatch_exact g name Hok) as (b & Hb & He).
  exists b. split; [exact Hb|]. rewrite He. rewrite <- (proj1 lang_wild g name Hn). split.
  - intros [H|(n & -> & _)]; [exact H|]. exfalso. apply Hn. apply in_or_app. right. left. reflexivity.
  - tauto.
Qed.

(** *** Escaping *)
Fixpoint lits (s : str) : glob :=
  match s with
  | [] => GNil
  | c :: s' => GCons (if magic c then ISet false [SChar c] else ILit c) (lits s')
  end.

Lemma show_lits s : show (lits s) = escape s.
Proof.
  induction s as [|c s IH]; [reflexivity|]. cbn [lits show escape]. rewrite IH.
  destruct (magic c); reflexivity.
Qed.

Lemma lits_ok s rest : glob_ok false (lits s) rest.
Proof.
  revert rest. induction s as [|c s IH]; intros rest; [exact I|]. cbn [lits glob_ok].
  split; [|apply IH]. destruct (magic c) eqn:E.
  - assert (c <> c_bang) as Hb by (intros ->; discriminate).
    cbn [item_ok]. unfold set_ok. split; [discriminate|]. split.
    + cbn. auto.
    + intros _. cbn. congruence.
  - unfold magic in E. rewrite !orb_false_iff, !N.eqb_neq in E.
    destruct E as [[[E1 E2] E3] E4]. cbn [item_ok]. unfold lit_ok. repeat split; congruence.
Qed.

Lemma lang_lits w s name : lang w (lits s) name <-> name = s.
Proof.
  revert name. induction s as [|c s IH]; intros name; cbn [lits lang]; [tauto|].
  assert (forall a, lang_item w (if magic c then ISet false [SChar c] else ILit c) a <-> a = [c]) as Hi.
  { intros a. destruct (magic c); cbn; [|tauto]. split.
    - intros (d & -> & [H _]). destruct (H eq_refl) as (m & [<-|[]] & Hm). cbn in Hm. congruence.
    - intros ->. exists c. split; [reflexivity|]. split; [|reflexivity]. intros _.
      exists (SChar c). split; [left; reflexivity|reflexivity]. }
  split.
  - intros (a & b & -> & Ha & Hb). apply Hi in Ha. apply IH in Hb. subst. reflexivity.
  - intros ->. exists [c], s. split; [reflexivity|]. split; [apply Hi; reflexivity|apply IH; reflexivity].
Qed.

Lemma fnmatch_escape s name :
  exists b, fnmatch name (escape s) = Some b /\ (b = true <-> name = s \/ name = s ++ [c_nl]).
Proof.
  destruct (fnmatch_exact (lits s) name (lits_ok s [])) as (b & Hb & He).
  rewrite show_lits in Hb. exists b. split; [exact Hb|]. rewrite He. rewrite lang_lits. split.
  - intros [H|(n & H & Hn)]; [tauto|]. apply lang_lits in Hn. subst. tauto.
  - intros [H|H]; [tauto|]. right. exists s. split; [exact H|]. apply lang_lits. reflexivity.
Qed.

(** *** The cache *)
Definition cache_sound (c : fncache) : Prop := forall p r, cache_get c p = Some r -> compile p = Some r.

Lemma str_eqb_eq a b : str_eqb a b = true <-> a = b.
Proof. unfold str_eqb. destruct (list_eq_dec N.eq_dec a b); intuition discriminate. Qed.

Lemma compile_pattern_ok c pat :
  cache_sound c -> fst (compile_pattern c pat) = compile pat /\ cache_sound (snd (compile_pattern c pat)).
Proof.
  intros Hc. unfold compile_pattern. destruct (cache_get c pat) as [r|] eqn:E.
  - split; [symmetry; apply Hc; exact E|exact Hc].
  - destruct (compile pat) as [r|] eqn:F; split; try reflexivity; try exact Hc.
    intros p r'. cbn [snd cache_get]. destruct (str_eqb pat p) eqn:G; [|apply Hc].
    apply str_eqb_eq in G. subst p. intros H. injection H as <-. exact F.
Qed.

Lemma fn_step_sound c o : cache_sound c -> cache_sound (fn_step c o).
Proof.
  intros Hc. destruct o as [name pat|names pat]; cbn [fn_step]; unfold fn_match, fn_filter.
  all: destruct (compile_pattern_ok c pat Hc) as [_ H]; destruct (compile_pattern c pat) as [[r|] c'];
    exact H.
Qed.

Lemma fn_reach_sound ops : cache_sound (fold_left fn_step ops []).
Proof.
  assert (forall c, cache_sound c -> cache_sound (fold_left fn_step ops c)) as H.
  { induction ops as [|o ops IH]; intros c Hc; [exact Hc|]. cbn [fold_left]. apply IH.
    apply fn_step_sound. exact Hc. }
  apply H. intros p r. discriminate.
Qed.

Lemma filter_fold r names acc :
  fold_left (fun result name => if re_match r name then result ++ [name] else result) names acc
  = acc ++ filter (re_match r) names.
Proof.
  revert acc. induction names as [|n names IH]; intros acc; cbn [fold_left filter].
  - rewrite app_nil_r. reflexivity.
  - rewrite IH. destruct (re_match r n); [|reflexivity]. rewrite <- app_assoc. reflexivity.
Qed.

Lemma fn_filter_ok ops names pat l :
  fst (fn_filter (fold_left fn_step ops []) names pat) = Some l <->
  (forall n, exists b, fnmatch n pat = Some b) /\
  l = filter (fun n => match fnmatch n pat with Some b => b | None => false end) names.
Proof.
  pose proof (compile_pattern_ok _ pat (fn_reach_sound ops)) as [Hf _].
  unfold fn_filter. destruct (compile_pattern (fold_left fn_step ops []) pat) as [o c].
  cbn [fst] in Hf. subst o. unfold fnmatch. destruct (compile pat) as [r|]; cbn [fst].
  - rewrite filter_fold. cbn [app]. split.
    + intros H. injection H as <-. split; [intros n; eexists; reflexivity|reflexivity].
    + intros [_ ->]. reflexivity.
  - split; [discriminate|]. intros [H _]. destruct (H []) as [b Hb]. discriminate.
Qed.

Lemma fn_match_ok ops name pat :
  fst (fn_match (fold_left fn_step ops []) name pat) = fnmatch name pat.
Proof.
  pose proof (compile_pattern_ok _ pat (fn_reach_sound ops)) as [Hf _].
  unfold fn_match. destruct (compile_pattern (fold_left fn_step ops []) pat) as [o c].
  cbn [fst] in Hf. subst o. unfold fnmatch. destruct (compile pat); reflexivity.
Qed.
