(** Proofs about text substitution. *)
From Coq Require Import List NArith Bool Arith Lia.
From Verif Require Import FnModel PathModel PathFacts TextModel TextSpec.
Import ListNotations.
Open Scope N_scope.

(** * replace *)
Section Replace.
  Variables pat text : str.
  Lemma replace_skip a : forall b, replace_ pat text (length a) (a ++ b) = replace_ pat text O b.
  Proof. induction a as [|c a IH]; intros b; [reflexivity|]. simpl. apply IH. Qed.
  Lemma replace_hit b : pat <> [] -> replace_ pat text O (pat ++ b) = text ++ replace_ pat text O b.
  Proof.
    intros Hn. assert (exists c p, pat = c :: p) as (c & p & Ep) by (destruct pat; [congruence|eexists; eexists; reflexivity]).
    assert (pat ++ b = c :: (p ++ b)) as E by (rewrite Ep; reflexivity). rewrite E. cbn [replace_]. rewrite <- E, startswith_app.
    f_equal. replace (length pat - 1)%nat with (length p) by (rewrite Ep; simpl; lia). apply replace_skip.
  Qed.
  Lemma replace_miss c s : startswith (c :: s) pat = false -> replace_ pat text O (c :: s) = c :: replace_ pat text O s.
  Proof. intros E. cbn [replace_]. rewrite E. reflexivity. Qed.
  Lemma replaced_cons c s o :
    (forall b, c :: s <> pat ++ b) -> replaced pat text s o -> replaced pat text (c :: s) (c :: o).
  Proof.
    intros Hn H. destruct H as [s Ho|a b o Hl H].
    - apply rep_none. intros [|c' a'] b' E; [exact (Hn b' E)|]. injection E as _ E. exact (Ho a' b' E).
    - apply (rep_first pat text (c :: a) b o); [|exact H].
      intros [|c' a'] b' E; [destruct (Hn b' E)|]. injection E as _ E. simpl. apply le_n_S. exact (Hl a' b' E).
  Qed.
  Lemma replace_replaced s : pat <> [] -> replaced pat text s (replace_ pat text O s).
  Proof.
    intros Hp. remember (length s) as n eqn:En. assert (length s <= n)%nat as Hl by lia. clear En. revert s Hl.
    induction n as [|n IH]; intros s Hl.
    - destruct s; [|simpl in Hl; lia]. apply rep_none. intros a b E. destruct a; [|discriminate].
      destruct pat; [congruence|discriminate].
    - destruct s as [|c s].
      { apply rep_none. intros a b E. destruct a; [|discriminate]. destruct pat; [congruence|discriminate]. }
      destruct (startswith (c :: s) pat) eqn:E.
      + destruct (startswith_true _ _ E) as [b Eb]. rewrite Eb. rewrite (replace_hit b Hp).
        apply (rep_first pat text [] b); [intros; simpl; lia|]. apply IH.
        assert (length (c :: s) = length (pat ++ b)) as El by (rewrite Eb; reflexivity).
        rewrite app_length in El. simpl in El, Hl. destruct pat; [congruence|]. simpl in El. lia.
      + rewrite (replace_miss _ _ E). apply replaced_cons; [|apply IH; simpl in Hl; lia].
        intros b Eb. rewrite Eb, startswith_app in E. discriminate.
  Qed.
  Lemma app_eq_len (A : Type) (a a' b b' : list A) : a ++ b = a' ++ b' -> length a = length a' -> a = a' /\ b = b'.
  Proof.
    revert a'. induction a as [|x a IH]; intros [|y a'] E L; try discriminate; [split; [reflexivity|exact E]|].
    injection E as -> E. injection L as L. destruct (IH a' E L) as [-> ->]. split; reflexivity.
  Qed.
  Lemma replaced_unique s o1 : replaced pat text s o1 -> forall o2, replaced pat text s o2 -> o1 = o2.
  Proof.
    induction 1 as [s Hn|a b o Hl H IH]; intros o2 H2.
    - inversion H2 as [s' _ Es Eo|a b o Hl H Es Eo]; subst; [reflexivity|]. exfalso. exact (Hn a b eq_refl).
    - inversion H2 as [s' Hn Es Eo|a' b' o' Hl' H' Es Eo]; subst; [exfalso; exact (Hn a b eq_refl)|].
      destruct (app_eq_len _ a' a _ _ Es) as [-> Eb].
      { pose proof (Hl _ _ (eq_sym Es)). pose proof (Hl' _ _ Es). lia. }
      apply app_inv_head in Eb. subst b'. rewrite (IH o' H'). reflexivity.
  Qed.
End Replace.

Lemma replace_exact s pat text out : pat <> [] -> (replace s pat text = out <-> replaced pat text s out).
Proof.
  intros Hp. assert (replace s pat text = replace_ pat text O s) as E by (destruct pat; [congruence|reflexivity]).
  rewrite E. pose proof (replace_replaced pat text s Hp) as H. split; [intros <-; exact H|].
  intros H'. exact (replaced_unique pat text s _ H _ H').
Qed.

(** * Templates *)
Lemma app_at_inj a b x y : ~ In c_at a -> ~ In c_at b -> a ++ c_at :: x = b ++ c_at :: y -> a = b /\ x = y.
Proof.
  revert b. induction a as [|c a IH]; intros [|d b] Ha Hb E.
  - injection E as ->. split; reflexivity.
  - injection E as E _. destruct Hb. left. symmetry. exact E.
  - injection E as E _. destruct Ha. left. exact E.
  - injection E as -> E. destruct (IH b) as [-> ->]; [intros Hi; apply Ha; right; exact Hi|
      intros Hi; apply Hb; right; exact Hi|exact E|split; reflexivity].
Qed.
Lemma placeholder_app w r : placeholder w ++ r = c_at :: w ++ c_at :: r.
Proof. unfold placeholder. simpl. rewrite <- app_assoc. reflexivity. Qed.
Lemma placeholder_inj w w' r r' : ~ In c_at w -> ~ In c_at w' -> placeholder w ++ r = placeholder w' ++ r' -> w = w' /\ r = r'.
Proof. rewrite !placeholder_app. intros H H' E. injection E as E. exact (app_at_inj _ _ _ _ H H' E). Qed.

Definition flat (ps : list (str * str)) : str := flat_map (fun p => placeholder (fst p) ++ snd p) ps.

Section Merge.
  Variable namechar : chr -> bool.
  Variables k txt : str.
  Hypothesis k_at : ~ In c_at k.
  Hypothesis k_name : forallb namechar k = true.
  Hypothesis txt_at : ~ In c_at txt.

  Definition has_break (s : str) : Prop := exists c, In c s /\ namechar c = false.
  Fixpoint parted (ps : list (str * str)) : Prop :=
    match ps with
    | [] => True
    | p :: ps' => ~ In c_at (fst p) /\ ~ In c_at (snd p) /\ (ps' <> [] -> has_break (snd p)) /\ parted ps'
    end.
  Fixpoint merge (l0 : str) (ps : list (str * str)) : str * list (str * str) :=
    match ps with
    | [] => (l0, [])
    | p :: ps' => if str_eqb (fst p) k then merge (l0 ++ txt ++ snd p) ps'
                  else let t := merge (snd p) ps' in (l0, (fst p, fst t) :: snd t)
    end.
  Lemma merge_app ps : forall x l0, merge (x ++ l0) ps = (x ++ fst (merge l0 ps), snd (merge l0 ps)).
  Proof.
    induction ps as [|p ps IH]; intros x l0; [reflexivity|]. cbn [merge]. destruct (str_eqb (fst p) k).
    - rewrite <- app_assoc. apply IH.
    - reflexivity.
  Qed.
  Let P := placeholder k.
  Lemma P_nil : P <> [].
  Proof. discriminate. Qed.
  Lemma pass l : forall r, ~ In c_at l -> replace_ P txt O (l ++ r) = l ++ replace_ P txt O r.
  Proof.
    induction l as [|c l IH]; intros r Hl; [reflexivity|].
    change ((c :: l) ++ r) with (c :: (l ++ r)). rewrite replace_miss.
    - rewrite IH; [reflexivity|]. intros Hi. apply Hl. right. exact Hi.
    - destruct (startswith (c :: l ++ r) P) eqn:E; [|reflexivity]. exfalso.
      destruct (startswith_true _ _ E) as [b Eb]. unfold P, placeholder in Eb. injection Eb as Eb _.
      apply Hl. left. exact Eb.
  Qed.
  Lemma startswith_false s p : (forall b, s <> p ++ b) -> startswith s p = false.
  Proof. intros H. destruct (startswith s p) eqn:E; [|reflexivity]. destruct (startswith_true _ _ E) as [b Eb]. destruct (H b Eb). Qed.
  Lemma flat_cons p ps : flat (p :: ps) = placeholder (fst p) ++ snd p ++ flat ps.
  Proof. unfold flat. cbn [flat_map]. rewrite <- app_assoc. reflexivity. Qed.
  Lemma flat_shape ps : ps <> [] -> exists r, flat ps = c_at :: r.
  Proof. destruct ps as [|p ps]; [congruence|]. intros _. rewrite flat_cons, placeholder_app. eexists. reflexivity. Qed.
  Lemma at_in (a b : str) : In c_at (a ++ c_at :: b).
  Proof. apply in_or_app. right. left. reflexivity. Qed.
  Lemma closing l ps : ~ In c_at l -> (ps <> [] -> has_break l) -> forall b, c_at :: l ++ flat ps <> P ++ b.
  Proof.
    intros Hl Hb b E. unfold P in E. rewrite placeholder_app in E. injection E as E.
    destruct ps as [|p ps].
    - unfold flat in E. simpl in E. rewrite app_nil_r in E. apply Hl. rewrite E. apply at_in.
    - destruct (flat_shape (p :: ps)) as [r Er]; [discriminate|]. rewrite Er in E.
      destruct (app_at_inj _ _ _ _ Hl k_at E) as [-> _].
      destruct Hb as (c & Hc & Hf); [discriminate|]. rewrite forallb_forall in k_name. rewrite (k_name c Hc) in Hf. discriminate.
  Qed.
  Lemma replace_flat ps : parted ps -> forall l0, l0 ++ replace_ P txt O (flat ps) = render (merge l0 ps).
  Proof.
    induction ps as [|[w l] ps IH]; intros Hp l0; [reflexivity|].
    destruct Hp as (Hw & Hl & Hb & Hp). cbn [fst snd] in Hw, Hl, Hb. rewrite flat_cons. cbn [fst snd merge].
    destruct (str_eqb w k) eqn:E.
    - apply str_eqb_true in E. subst w. fold P. rewrite (replace_hit P txt _ P_nil), (pass l _ Hl).
      rewrite <- (IH Hp), <- !app_assoc. reflexivity.
    - apply str_eqb_false in E. rewrite placeholder_app. rewrite replace_miss.
      + rewrite (pass w _ Hw). rewrite replace_miss by (apply startswith_false; apply closing; assumption).
        rewrite (pass l _ Hl). rewrite (IH Hp l).
        unfold render. cbn [fst snd flat_map]. rewrite <- !app_assoc, placeholder_app. reflexivity.
      + apply startswith_false. intros b Eb. rewrite <- placeholder_app in Eb.
        destruct (placeholder_inj _ _ _ _ Hw k_at Eb). contradiction.
  Qed.
  Lemma merge_fst ps : forall l0, exists x, fst (merge l0 ps) = l0 ++ x.
  Proof.
    induction ps as [|p ps IH]; intros l0; cbn [merge]; [exists []; symmetry; apply app_nil_r|].
    destruct (str_eqb (fst p) k); [|exists []; symmetry; apply app_nil_r].
    destruct (IH (l0 ++ txt ++ snd p)) as [x ->]. exists ((txt ++ snd p) ++ x). rewrite <- !app_assoc. reflexivity.
  Qed.
  Lemma notin_app (a b : str) : ~ In c_at a -> ~ In c_at b -> ~ In c_at (a ++ b).
  Proof. intros Ha Hb Hi. apply in_app_or in Hi. tauto. Qed.
  Lemma merge_parted ps : parted ps -> forall l0, ~ In c_at l0 ->
    ~ In c_at (fst (merge l0 ps)) /\ parted (snd (merge l0 ps)).
  Proof.
    induction ps as [|[w l] ps IH]; intros Hp l0 H0; [split; [exact H0|exact I]|].
    destruct Hp as (Hw & Hl & Hb & Hp). cbn [fst snd] in Hw, Hl, Hb. cbn [merge fst snd].
    destruct (str_eqb w k).
    - apply (IH Hp). apply notin_app; [exact H0|]. apply notin_app; assumption.
    - cbn [fst snd]. split; [exact H0|]. destruct (IH Hp l Hl) as [H1 H2]. cbn [parted fst snd].
      split; [exact Hw|]. split; [exact H1|]. split; [|exact H2].
      intros Hne. destruct (merge_fst ps l) as [x Ex]. rewrite Ex.
      destruct Hb as (c & Hc & Hf).
      { intros ->. apply Hne. reflexivity. }
      exists c. split; [apply in_or_app; left; exact Hc|exact Hf].
  Qed.
  Lemma fill_nil_lookup rest (p : str * str) : str_eqb (fst p) k = false -> lookup ((k, txt) :: rest) (fst p) = lookup rest (fst p).
  Proof.
    intros E. unfold lookup. cbn [find fst]. destruct (str_eqb k (fst p)) eqn:E2; [|reflexivity].
    apply str_eqb_true in E2. rewrite <- E2, str_eqb_refl in E. discriminate.
  Qed.
  Lemma lookup_same rest : lookup ((k, txt) :: rest) k = Some txt.
  Proof. unfold lookup. cbn [find fst]. rewrite str_eqb_refl. reflexivity. Qed.
  Lemma fill_cons v l0 (p : str * str) ps : fill v (l0, p :: ps) =
    l0 ++ (match v (fst p) with Some x => x | None => placeholder (fst p) end) ++ fill v (snd p, ps).
  Proof. unfold fill. cbn [fst snd flat_map]. rewrite <- app_assoc. reflexivity. Qed.
  Lemma fill_head v x l0 ps : fill v (x ++ l0, ps) = x ++ fill v (l0, ps).
  Proof. unfold fill. cbn [fst snd]. rewrite <- app_assoc. reflexivity. Qed.
  Lemma merge_fill rest ps : forall l0, fill (lookup rest) (merge l0 ps) = fill (lookup ((k, txt) :: rest)) (l0, ps).
  Proof.
    induction ps as [|p ps IH]; intros l0; [reflexivity|]. cbn [merge]. rewrite fill_cons. destruct (str_eqb (fst p) k) eqn:E.
    - rewrite IH, !fill_head. apply str_eqb_true in E. rewrite E, lookup_same. reflexivity.
    - rewrite (fill_nil_lookup rest p E). rewrite fill_cons. cbn [fst snd]. rewrite <- IH.
      destruct (merge (snd p) ps). reflexivity.
  Qed.
End Merge.

Lemma spaced_parted namechar t : spaced namechar t -> parted namechar (snd t).
Proof.
  destruct t as [l0 ps]. intros (_ & H & Hs). cbn [snd] in *.
  induction ps as [|p ps IH]; [exact I|]. apply Forall_cons_iff in H. destruct H as [[H1 H2] H].
  cbn [parted]. split; [exact H1|]. split; [exact H2|]. split.
  - intros Hne. exact (Hs [] p ps eq_refl Hne).
  - apply IH; [exact H|]. intros l1 q l2 E. exact (Hs (p :: l1) q l2 (f_equal (cons p) E)).
Qed.

Lemma fill_none t : fill (lookup []) t = render t.
Proof. reflexivity. Qed.

Lemma substitute_parted namechar ps : forall l0 qs,
  Forall (fun p => ~ In c_at (fst p) /\ forallb namechar (fst p) = true /\ ~ In c_at (snd p)) ps ->
  ~ In c_at l0 -> parted namechar qs ->
  substitute (render (l0, qs)) (map (fun p => (placeholder (fst p), snd p)) ps) = fill (lookup ps) (l0, qs).
Proof.
  induction ps as [|[k txt] ps IH]; intros l0 qs Hps H0 Hq; [reflexivity|].
  apply Forall_cons_iff in Hps. destruct Hps as [(Hk & Hn & Ht) Hps]. cbn [fst snd] in Hk, Hn, Ht.
  unfold substitute. cbn [map fold_left fst snd]. fold (substitute (replace (render (l0, qs)) (placeholder k) txt)
    (map (fun p => (placeholder (fst p), snd p)) ps)).
  assert (replace (render (l0, qs)) (placeholder k) txt = render (merge k txt l0 qs)) as E.
  { rewrite <- (replace_flat namechar k txt Hk Hn qs Hq l0).
    unfold replace. cbn [placeholder]. fold (placeholder k). unfold render. cbn [fst snd]. fold (flat qs). apply (pass k txt l0 _ H0). }
  rewrite E. destruct (merge_parted namechar k txt Ht qs Hq l0 H0) as [H1 H2].
  etransitivity; [|exact (merge_fill k txt ps qs l0)]. destruct (merge k txt l0 qs) as [l1 qs1]. apply IH; assumption.
Qed.
Lemma substitute_template namechar t ps :
  spaced namechar t ->
  Forall (fun p => ~ In c_at (fst p) /\ forallb namechar (fst p) = true /\ ~ In c_at (snd p)) ps ->
  substitute (render t) (map (fun p => (placeholder (fst p), snd p)) ps) = fill (lookup ps) t.
Proof.
  intros Hs Hp. pose proof (spaced_parted _ _ Hs) as H. destruct t as [l0 qs]. apply (substitute_parted namechar); [exact Hp|exact (proj1 Hs)|exact H].
Qed.

(** * @word@ *)
Section Words.
  Variable word : chr -> bool.
  Hypothesis word_at : word c_at = false.

  Lemma is_word_at w : is_word word w -> ~ In c_at w.
  Proof. intros [_ H] Hi. rewrite forallb_forall in H. rewrite (H _ Hi) in word_at. discriminate. Qed.

  Lemma word_run_spec s : forall w r, word_run word s = (w, r) ->
    s = w ++ r /\ forallb word w = true /\ match r with [] => True | c :: _ => word c = false end.
  Proof.
    induction s as [|c s IH]; intros w r E.
    - injection E as <- <-. repeat split.
    - cbn [word_run] in E. destruct (word c) eqn:Ec.
      + destruct (word_run word s) as [w' r'] eqn:E'. injection E as <- <-.
        destruct (IH w' r' eq_refl) as (-> & Hw & Hr). cbn [app forallb]. rewrite Ec, Hw. repeat split. exact Hr.
      + injection E as <- <-. repeat split. exact Ec.
  Qed.
  Lemma word_run_app w r : forallb word w = true -> match r with [] => True | c :: _ => word c = false end ->
    word_run word (w ++ r) = (w, r).
  Proof.
    induction w as [|c w IH]; intros Hw Hr.
    - destruct r as [|c r]; [reflexivity|]. cbn. rewrite Hr. reflexivity.
    - cbn [forallb] in Hw. apply andb_true_iff in Hw. destruct Hw as [Hc Hw].
      cbn [app word_run]. rewrite Hc, (IH Hw Hr). reflexivity.
  Qed.

  Lemma token_some s w r : token word s = Some (w, r) <-> is_word word w /\ s = placeholder w ++ r.
  Proof.
    split.
    - destruct s as [|c s]; [discriminate|]. cbn [token]. destruct (N.eqb c c_at) eqn:Ec; [|discriminate].
      apply N.eqb_eq in Ec. destruct (word_run word s) as [w' r'] eqn:E.
      destruct (word_run_spec _ _ _ E) as (-> & Hw & _).
      destruct w' as [|w0 w']; [discriminate|]. destruct r' as [|d r']; [discriminate|].
      destruct (N.eqb d c_at) eqn:Ed; [|discriminate]. apply N.eqb_eq in Ed. intros H. injection H as <- <-.
      rewrite placeholder_app, Ec, Ed. split; [split; [discriminate|exact Hw]|reflexivity].
    - intros [[Hn Hw] ->]. rewrite placeholder_app. cbn [token]. rewrite N.eqb_refl.
      rewrite (word_run_app w (c_at :: r) Hw word_at). destruct w; [congruence|]. rewrite N.eqb_refl. reflexivity.
  Qed.
  Lemma token_none s : token word s = None <-> forall w r, is_word word w -> s <> placeholder w ++ r.
  Proof.
    split.
    - intros E w r Hw Es. assert (token word s = Some (w, r)) as E' by (apply token_some; split; assumption). congruence.
    - intros H. destruct (token word s) as [[w r]|] eqn:E; [|reflexivity]. apply token_some in E. destruct E as [Hw E].
      destruct (H w r Hw E).
  Qed.

  Variable patterns : str -> option value.
  Definition shown_at (k : str) : option str := option_map shown (patterns k).

  Lemma filled_cons values c s o :
    (forall w r, is_word word w -> c :: s <> placeholder w ++ r) -> filled word values s o ->
    filled word values (c :: s) (option_map (cons c) o).
  Proof.
    intros Hn H. destruct H as [s Ho|a w b o Hw Hl H].
    - apply filled_none. intros [|c' a'] w' b' Hw' E; [exact (Hn w' b' Hw' E)|]. injection E as _ E. exact (Ho a' w' b' Hw' E).
    - assert (filled word values ((c :: a) ++ placeholder w ++ b)
        (match values w, o with Some v, Some t => Some ((c :: a) ++ v ++ t) | _, _ => None end)) as Hf.
      2: destruct (values w); [destruct o|]; exact Hf.
      apply (filled_first word values (c :: a) w b o); [exact Hw| |exact H].
      intros [|c' a'] w' b' Hw' E; [destruct (Hn w' b' Hw' E)|]. injection E as _ E. simpl. apply le_n_S. exact (Hl a' w' b' Hw' E).
  Qed.
  Lemma file_filled fuel : forall s, (length s < fuel)%nat -> filled word shown_at s (file_ word patterns fuel s).
  Proof.
    induction fuel as [|fuel IH]; intros s Hf; [lia|]. destruct s as [|c s].
    - apply filled_none. intros [|] w b _ E; discriminate.
    - cbn [file_]. destruct (token word (c :: s)) as [[w r]|] eqn:E.
      + apply token_some in E. destruct E as [Hw E].
        assert (length (c :: s) = length (placeholder w ++ r)) as El by (rewrite E; reflexivity).
        rewrite app_length in El. cbn in El. simpl in Hf.
        assert (filled word shown_at r (file_ word patterns fuel r)) as Hr by (apply IH; lia).
        pose proof (filled_first word shown_at [] w r _ Hw (fun _ _ _ _ _ => Nat.le_0_l _) Hr) as H. cbn [app] in H.
        rewrite <- E in H. unfold shown_at in H at 2. destruct (patterns w); exact H.
      + apply filled_cons; [apply token_none; exact E|]. apply IH. simpl in Hf. lia.
  Qed.
  Lemma filled_unique values s o1 : filled word values s o1 -> forall o2, filled word values s o2 -> o1 = o2.
  Proof.
    induction 1 as [s Hn|a w b o Hw Hl H IH]; intros o2 H2.
    - inversion H2 as [s' _ Es Eo|a w b o Hw Hl H Es Eo]; subst; [reflexivity|]. exfalso. exact (Hn a w b Hw eq_refl).
    - inversion H2 as [s' Hn Es Eo|a' w' b' o' Hw' Hl' H' Es Eo]; subst; [exfalso; exact (Hn a w b Hw eq_refl)|].
      destruct (app_eq_len _ a' a _ _ Es) as [-> Eb].
      { pose proof (Hl _ _ _ Hw' (eq_sym Es)). pose proof (Hl' _ _ _ Hw Es). lia. }
      destruct (placeholder_inj _ _ _ _ (is_word_at _ Hw') (is_word_at _ Hw) Eb) as [-> ->].
      rewrite (IH o' H'). reflexivity.
  Qed.
  Lemma file_exact s o : autoconf_config_file word patterns s = o <-> filled word shown_at s o.
  Proof.
    assert (filled word shown_at s (autoconf_config_file word patterns s)) as H by (apply file_filled; lia).
    split; [intros <-; exact H|]. intros H'. exact (filled_unique _ _ _ H _ H').
  Qed.

  (** Templates without stray delimiters. *)
  Lemma filled_lit values l s o : ~ In c_at l -> filled word values s o -> filled word values (l ++ s) (option_map (app l) o).
  Proof.
    intros Hl H. induction l as [|c l IH].
    - destruct o; exact H.
    - assert (~ In c_at l) as Hl' by (intros Hi; apply Hl; right; exact Hi).
      replace (option_map (app (c :: l)) o) with (option_map (cons c) (option_map (app l) o)) by (destruct o; reflexivity).
      apply filled_cons; [|exact (IH Hl')]. intros w r _ E. rewrite placeholder_app in E. injection E as E _. apply Hl. left. exact E.
  Qed.
  Lemma filled_template values t :
    ~ In c_at (fst t) -> Forall (fun p => is_word word (fst p) /\ ~ In c_at (snd p)) (snd t) ->
    filled word values (render t)
      (if forallb (fun p => match values (fst p) with Some _ => true | None => false end) (snd t) then Some (fill values t) else None).
  Proof.
    destruct t as [l0 ps]. cbn [fst snd]. intros H0 H. revert l0 H0. induction ps as [|[w l] ps IH]; intros l0 H0.
    - cbn [forallb]. unfold render, fill. cbn [fst snd flat_map]. apply (filled_lit values l0 [] (Some []) H0).
      apply filled_none. intros [|] w b _ E; discriminate.
    - apply Forall_cons_iff in H. destruct H as [[Hw Hl] H]. cbn [fst snd] in Hw, Hl.
      pose proof (IH H l Hl) as Hf.
      pose proof (filled_first word values [] w _ _ Hw (fun _ _ _ _ _ => Nat.le_0_l _) Hf) as Hf2. cbn [app] in Hf2.
      apply (filled_lit values l0 _ _ H0) in Hf2.
      replace (render (l0, (w, l) :: ps)) with (l0 ++ placeholder w ++ render (l, ps))
        by (unfold render; cbn [fst snd flat_map]; rewrite <- app_assoc; reflexivity).
      cbn [forallb fst]. rewrite fill_cons. cbn [fst snd]. destruct (values w) as [v|]; cbn [andb]; [|exact Hf2].
      destruct (forallb _ ps); exact Hf2.
  Qed.

  (** * The header *)
  Hypothesis word_nl : word c_nl = false.
  Hypothesis word_blank : word c_blank = false.

  Lemma blanks_spec s : forall n r, blanks s = (n, r) -> s = repeat c_blank n ++ r /\ match r with [] => True | c :: _ => c <> c_blank end.
  Proof.
    induction s as [|c s IH]; intros n r E.
    - injection E as <- <-. split; [reflexivity|exact I].
    - cbn [blanks] in E. destruct (N.eqb c c_blank) eqn:Ec.
      + apply N.eqb_eq in Ec. destruct (blanks s) as [n' r'] eqn:E'. injection E as <- <-.
        destruct (IH n' r' eq_refl) as [-> Hr]. rewrite Ec. split; [reflexivity|exact Hr].
      + injection E as <- <-. split; [reflexivity|]. apply N.eqb_neq. exact Ec.
  Qed.
  Lemma blanks_app n r : match r with [] => True | c :: _ => c <> c_blank end -> blanks (repeat c_blank n ++ r) = (n, r).
  Proof.
    intros Hr. induction n as [|n IH].
    - destruct r as [|c r]; [reflexivity|]. cbn. apply N.eqb_neq in Hr. rewrite Hr. reflexivity.
    - cbn [repeat app blanks]. rewrite N.eqb_refl, IH. reflexivity.
  Qed.
  Lemma undef_some s k r : undef word s = Some (k, r) <->
    is_word word k /\ line_end r = true /\ exists more, s = undef_line more k ++ r.
  Proof.
    split.
    - unfold undef. destruct (startswith s str_undef) eqn:Es; [|discriminate].
      destruct (startswith_true _ _ Es) as [s1 ->]. rewrite skipn_app_len. destruct (blanks s1) as [[|n] s2] eqn:Eb; [discriminate|].
      destruct (blanks_spec _ _ _ Eb) as [-> Hb]. destruct (word_run word s2) as [w r'] eqn:Ew.
      destruct (word_run_spec _ _ _ Ew) as (-> & Hw & Hr). destruct w as [|w0 w]; [discriminate|].
      destruct (line_end r') eqn:El; [|discriminate]. intros H. injection H as <- <-.
      split; [split; [discriminate|exact Hw]|]. split; [exact El|]. exists n. unfold undef_line.
      rewrite <- !app_assoc. cbn [repeat app]. rewrite <- !app_assoc. reflexivity.
    - intros ([Hn Hw] & Hl & more & ->). unfold undef, undef_line. rewrite <- app_assoc, startswith_app, skipn_app_len.
      change ((c_blank :: repeat c_blank more ++ k) ++ r) with (repeat c_blank (S more) ++ k ++ r) || idtac.
      replace ((c_blank :: repeat c_blank more ++ k) ++ r) with (repeat c_blank (S more) ++ k ++ r)
        by (cbn [repeat app]; rewrite <- !app_assoc; reflexivity).
      rewrite blanks_app.
      + rewrite word_run_app; [|exact Hw|].
        * destruct k; [congruence|]. rewrite Hl. reflexivity.
        * destruct r as [|c r]; [exact I|]. cbn in Hl. apply N.eqb_eq in Hl. rewrite Hl. exact word_nl.
      + destruct k as [|c k]; [congruence|]. cbn [app]. intros ->. cbn [forallb] in Hw. rewrite word_blank in Hw. discriminate.
  Qed.

  Local Notation header := (header_ word patterns).
  Lemma token_length s w r : token word s = Some (w, r) -> (length r < length s)%nat.
  Proof. intros E. apply token_some in E. destruct E as [_ ->]. rewrite placeholder_app. cbn. rewrite app_length. cbn. lia. Qed.
  Lemma undef_length s k r : undef word s = Some (k, r) -> (length r < length s)%nat.
  Proof. intros E. apply undef_some in E. destruct E as (_ & _ & more & ->). unfold undef_line. rewrite !app_length. cbn. lia. Qed.
  Lemma header_fuel f1 : forall f2 b s, (length s < f1)%nat -> (length s < f2)%nat -> header f1 b s = header f2 b s.
  Proof.
    induction f1 as [|f1 IH]; intros [|f2] b s H1 H2; [lia|lia|lia|]. cbn [header_].
    destruct s as [|c s]; [reflexivity|].
    destruct (if b then undef word (c :: s) else None) as [[k r]|] eqn:E.
    - assert (undef word (c :: s) = Some (k, r)) as Eu by (destruct b; [exact E|discriminate]).
      apply undef_length in Eu. rewrite (IH f2 false r) by lia. reflexivity.
    - destruct (token word (c :: s)) as [[w r]|] eqn:Et.
      + apply token_length in Et. rewrite (IH f2 false r) by lia. reflexivity.
      + simpl in H1, H2. rewrite (IH f2 (N.eqb c c_nl) s) by lia. reflexivity.
  Qed.
  Definition H (b : bool) (s : str) : option (str * list str) := header (S (length s)) b s.
  Lemma H_fuel f b s : (length s < f)%nat -> header f b s = H b s.
  Proof. intros Hf. apply header_fuel; lia. Qed.
  Definition andthen (o : option (str * list str)) (o' : option (str * list str)) : option (str * list str) :=
    match o, o' with
    | Some (t, ms), Some (t', ms') => Some (t ++ t', ms ++ ms')
    | _, _ => None
    end.
  Lemma H_nil b : H b [] = Some ([], []).
  Proof. reflexivity. Qed.
  Lemma H_undef c s k r : undef word (c :: s) = Some (k, r) ->
    H true (c :: s) = andthen (Some (define_line patterns k, match patterns k with Some _ => [] | None => [k] end)) (H false r).
  Proof.
    intros E. unfold H at 1. cbn [header_]. rewrite E. apply undef_length in E. rewrite (H_fuel _ false r E).
    unfold andthen. destruct (H false r) as [[t ms]|]; [|reflexivity]. destruct (patterns k); reflexivity.
  Qed.
  Lemma H_token (b : bool) c s w r : (if b then undef word (c :: s) else None) = None -> token word (c :: s) = Some (w, r) ->
    H b (c :: s) = andthen (option_map (fun t => (t, [])) (shown_at w)) (H false r).
  Proof.
    intros Eu E. unfold H at 1. cbn [header_]. rewrite Eu, E. apply token_length in E. rewrite (H_fuel _ false r E).
    unfold shown_at, andthen. destruct (patterns w); [|reflexivity]. cbn. destruct (H false r) as [[t ms]|]; reflexivity.
  Qed.
  Lemma H_char (b : bool) c s : (if b then undef word (c :: s) else None) = None -> token word (c :: s) = None ->
    H b (c :: s) = andthen (Some ([c], [])) (H (N.eqb c c_nl) s).
  Proof.
    intros Eu E. unfold H at 1. cbn [header_]. rewrite Eu, E. rewrite (H_fuel _ _ s) by (simpl; lia).
    unfold andthen. destruct (H _ s) as [[t ms]|]; reflexivity.
  Qed.
  Lemma H_bol s : undef word s = None -> H true s = H false s.
  Proof.
    intros E. destruct s as [|c s]; [reflexivity|]. unfold H. cbn [header_]. rewrite E. reflexivity.
  Qed.
  Lemma andthen_assoc a b c : andthen a (andthen b c) = andthen (andthen a b) c.
  Proof.
    unfold andthen. destruct a as [[t ms]|]; [|reflexivity]. destruct b as [[t' ms']|]; [|reflexivity].
    destruct c as [[t2 ms2]|]; [|reflexivity]. rewrite !app_assoc. reflexivity.
  Qed.

  Lemma andthen_nil a : a = andthen (Some ([], [])) a.
  Proof. destruct a as [[t ms]|]; reflexivity. Qed.

  (** Lines end a match. *)
  Lemma is_word_nl w : is_word word w -> ~ In c_nl w.
  Proof. intros [_ Hw] Hi. rewrite forallb_forall in Hw. rewrite (Hw _ Hi) in word_nl. discriminate. Qed.
  (* Two ways to cut a text at the end of its first line. *)
  Lemma cut_line a b x r : line_end r = true -> ~ In c_nl a -> ~ In c_nl b -> a ++ r = b ++ x -> exists y, a = b ++ y /\ x = y ++ r.
  Proof.
    intros Hr Ha Hb. revert b Hb. induction a as [|c a IH]; intros b Hb E.
    - destruct b as [|d b]; [exists []; split; [reflexivity|symmetry; exact E]|].
      cbn [app] in E. subst r. cbn in Hr. apply N.eqb_eq in Hr. destruct Hb. left. exact Hr.
    - destruct b as [|d b]; [exists (c :: a); split; [reflexivity|symmetry; exact E]|].
      injection E as -> E. destruct (IH (fun Hi => Ha (or_intror Hi)) b (fun Hi => Hb (or_intror Hi)) E) as (y & -> & ->).
      exists y. split; reflexivity.
  Qed.
  Lemma placeholder_nl w : is_word word w -> ~ In c_nl (placeholder w).
  Proof.
    intros Hw [E|Hi]; [discriminate E|]. apply in_app_or in Hi. destruct Hi as [Hi|[E|[]]]; [exact (is_word_nl w Hw Hi)|discriminate E].
  Qed.
  Lemma token_line s r : line_end r = true -> ~ In c_nl s ->
    token word (s ++ r) = match token word s with Some (w, x) => Some (w, x ++ r) | None => None end \/ s = [].
  Proof.
    intros Hr Hs. destruct s as [|c s]; [right; reflexivity|]. left. destruct (token word (c :: s)) as [[w x]|] eqn:E.
    - apply token_some in E. destruct E as [Hw E]. rewrite E. apply token_some. split; [exact Hw|]. rewrite app_assoc. reflexivity.
    - apply token_none. intros w x Hw Ex. destruct (cut_line _ _ _ _ Hr Hs (placeholder_nl w Hw) Ex) as (y & Ey & _).
      rewrite token_none in E. exact (E w y Hw Ey).
  Qed.
  Lemma H_plain s : forall r, line_end r = true -> ~ In c_nl s ->
    H false (s ++ r) = andthen (option_map (fun t => (t, [])) (autoconf_config_file word patterns s)) (H false r).
  Proof.
    remember (length s) as n eqn:En. assert (length s <= n)%nat as Hl by lia. clear En. revert s Hl.
    induction n as [|n IH]; intros s Hl r Hr Hs.
    - destruct s; [|simpl in Hl; lia]. apply andthen_nil.
    - destruct s as [|c s]; [apply andthen_nil|].
      destruct (token_line (c :: s) r Hr Hs) as [Et|Et]; [|discriminate].
      assert (forall x, (length x < length (c :: s))%nat -> file_ word patterns (length (c :: s)) x = autoconf_config_file word patterns x) as Hfu.
      { intros x Hx. pose proof (file_filled _ x Hx) as H1. apply file_exact in H1. symmetry. exact H1. }
      unfold autoconf_config_file. cbn [file_]. destruct (token word (c :: s)) as [[w x]|] eqn:E.
      + pose proof (token_length _ _ _ E) as Hx. change ((c :: s) ++ r) with (c :: (s ++ r)) in *.
        rewrite (H_token false _ _ _ _ eq_refl Et). rewrite (Hfu x Hx).
        apply token_some in E. destruct E as [Hw E].
        rewrite IH; [| lia | exact Hr |].
        * rewrite andthen_assoc. f_equal. unfold shown_at. destruct (patterns w) as [v|]; [|reflexivity].
          destruct (autoconf_config_file word patterns x); reflexivity.
        * intros Hi. apply Hs. rewrite E. apply in_or_app. right. exact Hi.
      + change ((c :: s) ++ r) with (c :: (s ++ r)) in *. rewrite (H_char false _ _ eq_refl Et).
        rewrite (Hfu s) by (simpl; lia).
        assert (N.eqb c c_nl = false) as -> by (apply N.eqb_neq; intros ->; apply Hs; left; reflexivity).
        rewrite IH; [| simpl in Hl; lia | exact Hr | intros Hi; apply Hs; right; exact Hi].
        rewrite andthen_assoc. f_equal. destruct (autoconf_config_file word patterns s); reflexivity.
  Qed.
  Lemma undef_line_nl more k : is_word word k -> ~ In c_nl (undef_line more k).
  Proof.
    intros Hk Hi. unfold undef_line in Hi. apply in_app_or in Hi. destruct Hi as [Hi|[E|Hi]]; [|discriminate E|].
    - cbv [str_undef In c_nl] in Hi. repeat (destruct Hi as [E|Hi]; [discriminate E|]). exact Hi.
    - apply in_app_or in Hi. destruct Hi as [Hi|Hi]; [apply repeat_spec in Hi; discriminate Hi|exact (is_word_nl k Hk Hi)].
  Qed.
  Lemma define_line_truth key v : patterns key = Some v -> ~ falsy v -> forall t, text_of v t ->
    define_line patterns key = str_define ++ key ++ c_blank :: t.
  Proof.
    intros E Hf t Ht. unfold define_line. rewrite E. destruct v as [s|l|b| |s tr]; cbn in Hf, Ht |- *.
    - subst t. destruct s; [congruence|reflexivity].
    - subst t. destruct (join_blank l); [congruence|reflexivity].
    - subst t. destruct b; [reflexivity|congruence].
    - destruct Ht.
    - subst t. destruct tr; [reflexivity|congruence].
  Qed.
  Lemma define_line_false key v : patterns key = Some v -> falsy v -> define_line patterns key = str_open ++ key ++ str_close.
  Proof.
    intros E Hf. unfold define_line. rewrite E. destruct v as [s|l|b| |s tr]; cbn in Hf |- *; try rewrite Hf; reflexivity.
  Qed.
  Lemma H_line s o r : lined word patterns s o -> line_end r = true -> ~ In c_nl s -> H true (s ++ r) = andthen o (H false r).
  Proof.
    intros Hl Hr Hs.
    assert (forall more key, is_word word key -> s = undef_line more key ->
      H true (s ++ r) = andthen (Some (define_line patterns key, match patterns key with Some _ => [] | None => [key] end)) (H false r)) as Hu.
    { intros more key Hk ->. assert (undef word (undef_line more key ++ r) = Some (key, r)) as E.
      { apply undef_some. split; [exact Hk|]. split; [exact Hr|]. exists more. reflexivity. }
      destruct (undef_line more key ++ r) as [|c s'] eqn:Es; [discriminate E|]. apply H_undef. exact E. }
    destruct Hl as [more key v t Hk Hp Hf Ht|more key v Hk Hp Hf|more key Hk Hp|s o Hn Hf].
    - rewrite (Hu more key Hk eq_refl), Hp. rewrite (define_line_truth key v Hp Hf t Ht). reflexivity.
    - rewrite (Hu more key Hk eq_refl), Hp. rewrite (define_line_false key v Hp Hf). reflexivity.
    - rewrite (Hu more key Hk eq_refl), Hp. unfold define_line. rewrite Hp. reflexivity.
    - rewrite H_bol.
      + rewrite (H_plain s r Hr Hs). apply file_exact in Hf. rewrite Hf. reflexivity.
      + destruct (undef word (s ++ r)) as [[k x]|] eqn:E; [|reflexivity]. exfalso. apply undef_some in E.
        destruct E as (Hk & Hx & more & E). destruct (cut_line _ _ _ _ Hr Hs (undef_line_nl more k Hk) E) as (y & -> & ->).
        destruct y as [|c y]; [rewrite app_nil_r in Hn; exact (Hn more k Hk eq_refl)|].
        cbn in Hx. apply N.eqb_eq in Hx. apply Hs. apply in_or_app. right. left. exact Hx.
  Qed.
  Lemma H_nl r : H false (c_nl :: r) = andthen (Some ([c_nl], [])) (H true r).
  Proof. apply (H_char false c_nl r eq_refl). reflexivity. Qed.

  Fixpoint joined (outs : list (option (str * list str))) : option (str * list str) :=
    match outs with
    | [] => Some ([], [])
    | [o] => o
    | o :: outs' => andthen o (andthen (Some ([c_nl], [])) (joined outs'))
    end.
  Lemma H_lines l ls : forall o outs, lined word patterns l o -> Forall2 (lined word patterns) ls outs ->
    Forall (fun l => ~ In c_nl l) (l :: ls) -> H true (join_nl (l :: ls)) = joined (o :: outs).
  Proof.
    revert l. induction ls as [|l' ls IH]; intros l o outs Ho Hs Hn; inversion Hs; subst; clear Hs.
    - cbn [join_nl joined]. rewrite <- (app_nil_r l). apply Forall_cons_iff in Hn.
      rewrite (H_line l o [] Ho eq_refl (proj1 Hn)). rewrite H_nil. unfold andthen. destruct o as [[t ms]|]; [|reflexivity].
      rewrite !app_nil_r. reflexivity.
    - change (join_nl (l :: l' :: ls)) with (l ++ c_nl :: join_nl (l' :: ls)). apply Forall_cons_iff in Hn. destruct Hn as [Hl Hn].
      rewrite (H_line l o (c_nl :: join_nl (l' :: ls)) Ho eq_refl Hl), H_nl. rewrite (IH l' y l'0); [reflexivity|assumption|assumption|exact Hn].
  Qed.
  Lemma joined_whole outs :
    joined outs = if existsb (fun o => match o with None => true | _ => false end) outs then None
      else Some (join_nl (map (fun o => match o with Some p => fst p | None => [] end) outs),
                 flat_map (fun o => match o with Some p => snd p | None => [] end) outs).
  Proof.
    induction outs as [|o outs IH]; [reflexivity|]. destruct outs as [|o' outs].
    - cbn. destruct o as [[t ms]|]; [|reflexivity]. cbn. rewrite app_nil_r. reflexivity.
    - change (joined (o :: o' :: outs)) with (andthen o (andthen (Some ([c_nl], [])) (joined (o' :: outs)))). rewrite IH.
      set (outs1 := o' :: outs). cbn [existsb map flat_map]. destruct o as [[t ms]|]; [|reflexivity]. cbn [orb].
      destruct (existsb _ outs1); [reflexivity|]. unfold andthen. cbn [app fst snd]. reflexivity.
  Qed.
  Lemma header_lines lines outs :
    lines <> [] -> Forall2 (lined word patterns) lines outs -> Forall (fun l => ~ In c_nl l) lines ->
    autoconf_config_header word patterns (join_nl lines) = whole outs.
  Proof.
    intros Hne Hs Hn. destruct lines as [|l ls]; [congruence|]. inversion Hs as [|? o ? outs' Ho Ht]; subst.
    unfold autoconf_config_header. change (header (S (length (join_nl (l :: ls)))) true (join_nl (l :: ls)))
      with (H true (join_nl (l :: ls))). rewrite (H_lines l ls o outs' Ho Ht Hn), joined_whole. unfold whole.
    destruct (existsb _ (o :: outs')); [reflexivity|]. destruct (flat_map _ (o :: outs')); reflexivity.
  Qed.
  (** Every line is of some kind. *)
  Lemma lined_total s : ~ In c_nl s -> exists o, lined word patterns s o.
  Proof.
    intros Hs. destruct (undef word s) as [[k r]|] eqn:E.
    - apply undef_some in E. destruct E as (Hk & Hl & more & ->). destruct r as [|c r].
      + rewrite app_nil_r. destruct (patterns k) as [v|] eqn:Ep; [|eexists; apply lined_missing; assumption].
        assert (falsy v \/ ~ falsy v /\ exists t, text_of v t) as [Hf|[Hf [t Ht]]].
        { destruct v as [s|l|b| |s tr]; cbn.
          - destruct s; [left; reflexivity|right; split; [discriminate|eexists; reflexivity]].
          - destruct (join_blank l); [left; reflexivity|right; split; [discriminate|eexists; reflexivity]].
          - destruct b; [right; split; [discriminate|eexists; reflexivity]|left; reflexivity].
          - left; exact I.
          - destruct tr; [right; split; [discriminate|eexists; reflexivity]|left; reflexivity]. }
        * eexists. eapply lined_undef; eassumption.
        * eexists. eapply lined_define; eassumption.
      + exfalso. cbn in Hl. apply N.eqb_eq in Hl. apply Hs. apply in_or_app. right. left. exact Hl.
    - eexists. apply lined_other; [|apply file_exact; reflexivity].
      intros more key Hk ->. assert (undef word (undef_line more key) = Some (key, [])) as E'; [|congruence].
      apply undef_some. split; [exact Hk|]. split; [reflexivity|]. exists more. rewrite app_nil_r. reflexivity.
  Qed.
End Words.
