(** C98: which lines stand for a function or class. *)
From Coq Require Import List NArith Bool Arith Lia.
From Verif Require Import FnModel VerModel SrcModel SrcSpec.
Import ListNotations.
Open Scope nat_scope.

Lemma after_iff p : forall s r, after p s = Some r <-> s = p ++ r.
Proof.
  induction p as [|c p IH]; intros s r; simpl.
  - split; [intros [= ->]; reflexivity|intros ->; reflexivity].
  - destruct s as [|d s]; [split; [discriminate|discriminate]|]. destruct (N.eqb_spec c d) as [->|Hn].
    + rewrite IH. split; [intros ->; reflexivity|intros [= ->]; reflexivity].
    + split; [discriminate|]. intros [= K _]. congruence.
Qed.
Lemma lstrip_split s : s = leading s ++ lstrip s /\ blank (leading s) /\ (forall c r, lstrip s = c :: r -> is_space c = false).
Proof.
  induction s as [|c s (IH1 & IH2 & IH3)]; simpl.
  - split; [reflexivity|]. split; [intros c []|discriminate].
  - destruct (is_space c) eqn:E.
    + split; [simpl; f_equal; exact IH1|]. split; [|exact IH3]. intros d [<-|Hd]; [exact E|apply IH2; exact Hd].
    + split; [reflexivity|]. split; [intros d []|]. intros d r [= <- <-]. exact E.
Qed.
Lemma lstrip_blank ws c r : blank ws -> is_space c = false -> lstrip (ws ++ c :: r) = c :: r /\ leading (ws ++ c :: r) = ws.
Proof.
  intros Hb Hc. induction ws as [|d ws IH]; simpl.
  - rewrite Hc. split; reflexivity.
  - rewrite (Hb d (or_introl eq_refl)). destruct IH as [IH1 IH2]; [intros e He; apply Hb; right; exact He|]. rewrite IH1, IH2. split; reflexivity.
Qed.
Lemma def_line_iff l : def_line l = true <-> is_def l.
Proof.
  unfold def_line, is_def. destruct (lstrip_split l) as (E & B & _). split.
  - destruct (after w_def (lstrip l)) as [[|c r]|] eqn:A; try discriminate. intros H. apply after_iff in A.
    exists (leading l), c, r. split; [exact B|]. split; [exact H|]. rewrite <- A. exact E.
  - intros (ws & c & r & Hb & Hc & ->). destruct (lstrip_blank ws 100%N ([101; 102]%N ++ c :: r) Hb eq_refl) as [K _].
    unfold chr in *. change (w_def ++ c :: r) with (100%N :: [101; 102]%N ++ c :: r). unfold chr in *. rewrite K. simpl. exact Hc.
Qed.
Lemma at_line_iff l : at_line l = true <-> is_decorator l.
Proof.
  unfold at_line, is_decorator. destruct (lstrip_split l) as (E & B & _). split.
  - destruct (lstrip l) as [|c r] eqn:A; try discriminate. intros H. apply N.eqb_eq in H. subst c. exists (leading l), r. split; assumption.
  - intros (ws & r & Hb & ->). destruct (lstrip_blank ws 64%N r Hb eq_refl) as [K _]. unfold chr in *. rewrite K. reflexivity.
Qed.
Lemma lambda_line_iff l : forall prev, lambda_line prev l = true <->
  exists pre c rest, ~ In 10%N pre /\ (pre = [] -> prev = false) /\ (forall pre' d, pre = pre' ++ [d] -> is_word d = false) /\
  (c = 58%N \/ is_space c = true) /\ l = pre ++ w_lambda ++ c :: rest.
Proof.
  induction l as [|x l IH]; intros prev; [split; [discriminate|]|].
  - intros ([|y pre] & c & rest & _ & _ & _ & _ & E); discriminate.
  - cbn [lambda_line]. rewrite orb_true_iff, andb_true_iff. split.
    + intros [[Hp H]|H].
      * destruct (after w_lambda (x :: l)) as [[|d r]|] eqn:A; try discriminate. apply after_iff in A.
        exists [], d, r. split; [intros []|]. split; [intros _; destruct prev; [discriminate|reflexivity]|].
        split; [intros [|? ?] ? K; discriminate|]. split; [|exact A].
        apply orb_true_iff in H. destruct H as [H|H]; [left; apply N.eqb_eq; exact H|right; exact H].
      * destruct (N.eqb_spec x 10) as [|Hx]; [discriminate|]. apply IH in H. destruct H as (pre & c & rest & H1 & H2 & H3 & H4 & ->).
        exists (x :: pre), c, rest. split; [intros [K|K]; [congruence|contradiction]|]. split; [discriminate|]. split; [|split; [exact H4|reflexivity]].
        intros [|y pre'] d K; injection K as K1 K2; [subst; apply H2; reflexivity|]. eapply H3. exact K2.
    + intros (pre & c & rest & H1 & H2 & H3 & H4 & E). destruct pre as [|y pre].
      * left. split; [rewrite H2 by reflexivity; reflexivity|]. assert (after w_lambda (x :: l) = Some (c :: rest)) as -> by (apply after_iff; exact E).
        apply orb_true_iff. destruct H4 as [->|H4]; [left; reflexivity|right; exact H4].
      * right. injection E as <- E. destruct (N.eqb_spec x 10) as [->|Hx]; [exfalso; apply H1; left; reflexivity|]. apply IH.
        exists pre, c, rest. split; [intros K; apply H1; right; exact K|]. split; [intros ->; apply (H3 [] x); reflexivity|].
        split; [|split; assumption]. intros pre' d ->. apply (H3 (x :: pre') d). reflexivity.
Qed.
Lemma opens_iff l : opens l = true <-> opening l.
Proof.
  unfold opens, opening. rewrite !orb_true_iff, def_line_iff, at_line_iff, lambda_line_iff. unfold has_lambda. split.
  - intros [[H|H]|H]; [left; exact H| |right; right; exact H]. right; left. destruct H as (pre & c & r & H1 & _ & H). exists pre, c, r. tauto.
  - intros [H|[H|H]]; [left; left; exact H| |right; exact H]. left; right. destruct H as (pre & c & r & H1 & H). exists pre, c, r. tauto.
Qed.
Lemma up_iff lines : forall n k, n < length lines -> (up lines n = Found k <->
  k <= n /\ (k = 0 \/ exists l, nth_error lines k = Some l /\ opening l) /\
  forall i l, k < i <= n -> nth_error lines i = Some l -> ~ opening l).
Proof.
  induction n as [|n IH]; intros k Hn; cbn [up].
  - split; [intros [= <-]; split; [lia|]; split; [left; reflexivity|]; intros i l Hi; lia|].
    intros (H & _). f_equal. lia.
  - destruct (nth_error lines (S n)) as [l|] eqn:E; [|apply nth_error_None in E; lia]. destruct (opens l) eqn:O.
    + apply opens_iff in O. split.
      * intros [= <-]. split; [lia|]. split; [right; exists l; split; assumption|]. intros i l' Hi; lia.
      * intros (H1 & H2 & H3). f_equal. destruct (Nat.eq_dec k (S n)) as [->|Hk]; [reflexivity|]. exfalso. apply (H3 (S n) l ltac:(lia) E O).
    + rewrite IH by lia. assert (~ opening l) as NO by (intros K; apply opens_iff in K; congruence). split.
      * intros (H1 & H2 & H3). split; [lia|]. split; [exact H2|]. intros i l' Hi E'. destruct (Nat.eq_dec i (S n)) as [->|Hi']; [congruence|].
        apply (H3 i l'); [lia|exact E'].
      * intros (H1 & H2 & H3). assert (k <> S n) as Hk.
        { intros ->. destruct H2 as [K|(l' & E' & O')]; [lia|]. congruence. }
        split; [lia|]. split; [exact H2|]. intros i l' Hi. apply H3. lia.
Qed.

(** The line found for a function is the last one, not after the first line of its code, that opens a function, or else the
    first line of the file. *)
Definition C98_code_claim : Prop :=
  forall lines first k, 0 < first <= length lines ->
  (find_code lines first = Found k <->
   k < first /\ (k = 0 \/ exists l, nth_error lines k = Some l /\ opening l) /\
   forall i l, k < i < first -> nth_error lines i = Some l -> ~ opening l).
Theorem C98_code : C98_code_claim.
Proof.
  intros lines first k Hf. unfold find_code. destruct lines as [|a lines]; [simpl in Hf; lia|].
  rewrite up_iff by lia. split; intros (H1 & H2 & H3); (split; [lia|]; split; [exact H2|]; intros i l Hi; apply H3; lia).
Qed.
(** Something is found, unless the file is too short. *)
Definition C98_found_claim : Prop :=
  forall lines first, 0 < first ->
  (first <= length lines -> exists k, find_code lines first = Found k) /\
  (lines = [] -> find_code lines first = IOError) /\
  (0 < length lines < first -> find_code lines first = IndexError).
Theorem C98_found : C98_found_claim.
Proof.
  intros lines first Hf. split; [|split].
  - intros Hl. unfold find_code. destruct lines as [|a lines]; [simpl in Hl; lia|].
    assert (forall n, n < length (a :: lines) -> exists k, up (a :: lines) n = Found k) as K; [|apply K; lia].
    induction n as [|n IH]; intros Hn; [exists 0; reflexivity|]. cbn [up].
    destruct (nth_error (a :: lines) (S n)) as [l|] eqn:E; [|apply nth_error_None in E; lia].
    destruct (opens l); [eauto|apply IH; lia].
  - intros ->. reflexivity.
  - intros Hl. unfold find_code. destruct lines as [|a lines]; [simpl in Hl; lia|].
    destruct first as [|[|n]]; [lia|simpl in Hl; lia|]. replace (S (S n) - 1) with (S n) by lia. cbn [up].
    assert (nth_error (a :: lines) (S n) = None) as -> by (apply nth_error_None; lia). reflexivity.
Qed.

(** A function whose first line opens it is found there.  Its text starts with this line, and is the same whatever comes
    before it in the file. *)
Definition C98_own_claim : Prop :=
  (forall lines first l, 0 < first -> nth_error lines (first - 1) = Some l -> opening l -> find_code lines first = Found (first - 1)) /\
  (forall block l rest, opening l -> forall pre,
   get_source block (pre ++ l :: rest) (S (length pre)) = inl (concat (firstn (block (l :: rest)) (l :: rest)))).
Lemma own_line lines first l : 0 < first -> nth_error lines (first - 1) = Some l -> opening l -> find_code lines first = Found (first - 1).
Proof.
  intros Hf E O. assert (first <= length lines) by (assert (first - 1 < length lines) by (apply nth_error_Some; congruence); lia).
  apply C98_code; [lia|]. split; [lia|]. split; [right; exists l; auto|]. intros; lia.
Qed.
Theorem C98_own : C98_own_claim.
Proof.
  split; [exact own_line|].
  intros block l rest O pre. unfold get_source. rewrite (own_line _ _ l); [|lia| |exact O]; replace (S (length pre) - 1) with (length pre) by lia.
  - unfold source. rewrite skipn_app, skipn_all, Nat.sub_diag. reflexivity.
  - rewrite nth_error_app2, Nat.sub_diag by lia. reflexivity.
Qed.

Lemma class_match_iff name l ws : is_name name -> (class_match name l = Some ws <-> class_line name ws l).
Proof.
  intros [Hn Hw]. assert (forall c, is_word c = true -> is_space c = false) as Hws.
  { intros c H. unfold is_word, is_space in *. repeat rewrite ?orb_true_iff, ?andb_true_iff, ?N.leb_le, ?N.eqb_eq in H.
    destruct (((9 <=? c) && (c <=? 13)) || ((28 <=? c) && (c <=? 32)))%N eqn:E; [|reflexivity].
    repeat rewrite ?orb_true_iff, ?andb_true_iff, ?N.leb_le in E. lia. }
  destruct name as [|x name]; [contradiction|]. unfold class_match, class_line.
  destruct (lstrip_split l) as (E & B & _). split.
  - destruct (after w_class (lstrip l)) as [r|] eqn:A; [|discriminate]. apply after_iff in A.
    destruct (lstrip_split r) as (E' & B' & _).
    destruct (after (x :: name) (lstrip r)) as [rest|] eqn:A'; [|discriminate]. apply after_iff in A'. intros H.
    assert (ws = leading l /\ (forall c rest', rest = c :: rest' -> is_word c = false)) as [-> K].
    { destruct rest as [|c rest]; [injection H as <-; split; [reflexivity|discriminate]|].
      destruct (is_word c) eqn:Wc; [discriminate|]. injection H as <-. split; [reflexivity|]. intros d r' [= <- <-]. exact Wc. }
    exists (leading r), rest. split; [exact B|]. split; [exact B'|]. split; [exact K|].
    rewrite <- A', <- E', <- A. exact E.
  - intros (sp & rest & Hb & Hsp & K & ->).
    unfold chr in *.
    change (w_class ++ sp ++ (x :: name) ++ rest) with (99%N :: ([108; 97; 115; 115]%N ++ sp ++ (x :: name) ++ rest)).
    destruct (lstrip_blank ws 99%N ([108; 97; 115; 115]%N ++ sp ++ (x :: name) ++ rest) Hb eq_refl) as [K1 K2]. unfold chr in *. rewrite K1, K2.
    change (after w_class (99%N :: [108; 97; 115; 115]%N ++ sp ++ (x :: name) ++ rest)) with (Some (sp ++ x :: (name ++ rest))).
    destruct (lstrip_blank sp x (name ++ rest) Hsp (Hws x (Hw x (or_introl eq_refl)))) as [K3 _]. unfold chr in *. rewrite K3.
    assert (after (x :: name) (x :: name ++ rest) = Some rest) as -> by (apply after_iff; reflexivity).
    destruct rest as [|c rest]; [reflexivity|]. rewrite (K c rest eq_refl). reflexivity.
Qed.

Definition finish (cands : list (str * nat)) : res :=
  match cands with [] => IOError | a :: l => Found (snd (least a l)) end.
Lemma class_top name c l ws : class_line name ws (c :: l) -> (c = 99%N <-> ws = []).
Proof.
  intros (sp & rest & Hb & _ & _ & E). destruct ws as [|d ws]; simpl in E; injection E as -> _; [tauto|].
  split; [|discriminate]. intros ->. specialize (Hb _ (or_introl eq_refl)). discriminate.
Qed.
Lemma class_line_unique name ws ws' l : is_name name -> class_line name ws l -> class_line name ws' l -> ws = ws'.
Proof. intros Hn H H'. apply class_match_iff in H; [|exact Hn]. apply class_match_iff in H'; [|exact Hn]. congruence. Qed.
Lemma scan_cases name : is_name name -> forall lines i cands,
  (exists j l, nth_error lines j = Some l /\ class_line name [] l /\
     (forall j' l', j' < j -> nth_error lines j' = Some l' -> ~ class_line name [] l') /\ scan name lines i cands = Found (i + j)) \/
  ((forall j l, nth_error lines j = Some l -> ~ class_line name [] l) /\
   exists more, scan name lines i cands = finish (cands ++ more) /\
     forall ws n, In (ws, n) more <-> exists j l, n = i + j /\ nth_error lines j = Some l /\ class_line name ws l).
Proof.
  intros Hn. induction lines as [|l lines IH]; intros i cands.
  - right. split; [intros [|j] l; discriminate|]. exists []. rewrite app_nil_r. split; [reflexivity|].
    intros ws n. split; [intros []|]. intros ([|j] & l & _ & K & _); discriminate.
  - cbn [scan]. destruct (class_match name l) as [ws|] eqn:M.
    + apply class_match_iff in M; [|exact Hn]. destruct l as [|c l'].
      { destruct M as (sp & rest & _ & _ & _ & E). destruct ws; discriminate. }
      pose proof (class_top _ _ _ _ M) as T. destruct (N.eqb_spec c 99) as [Hc|Hc].
      * left. exists 0, (c :: l'). split; [reflexivity|]. rewrite <- (proj1 T Hc). split; [exact M|].
        split; [intros; lia|]. f_equal. lia.
      * assert (ws <> []) as Hw by tauto. destruct (IH (S i) (cands ++ [(ws, i)])) as [(j & l & E & C & F & ->)|(F & more & -> & A)].
        -- left. exists (S j), l. split; [exact E|]. split; [exact C|]. split; [|f_equal; lia].
           intros [|j'] l'' Hj E''; [|apply (F j' l''); [lia|exact E'']]. injection E'' as <-. intros C'. apply Hw. eapply class_line_unique; eassumption.
        -- right. split.
           { intros [|j] l'' E''; [|apply (F j l''); exact E'']. injection E'' as <-. intros C'. apply Hw. eapply class_line_unique; eassumption. }
           exists ((ws, i) :: more). rewrite <- app_assoc. split; [reflexivity|]. intros ws' n. split.
           ++ intros [[= <- <-]|K]; [exists 0, (c :: l'); split; [lia|split; [reflexivity|exact M]]|].
              apply A in K. destruct K as (j & l'' & -> & E & C). exists (S j), l''. split; [lia|split; [exact E|exact C]].
           ++ intros ([|j] & l'' & -> & E & C); [left|right; apply A; exists j, l''; split; [lia|split; [exact E|exact C]]].
              injection E as <-. rewrite (class_line_unique _ _ _ _ Hn C M). f_equal. lia.
    + assert (forall ws, ~ class_line name ws l) as NC by (intros ws C; apply class_match_iff in C; [congruence|exact Hn]).
      destruct (IH (S i) cands) as [(j & l' & E & C & F & ->)|(F & more & -> & A)].
      * left. exists (S j), l'. split; [exact E|]. split; [exact C|]. split; [|f_equal; lia].
        intros [|j'] l'' Hj E''; [injection E'' as <-; apply NC|apply (F j' l''); [lia|exact E'']].
      * right. split; [intros [|j] l'' E''; [injection E'' as <-; apply NC|apply (F j l''); exact E'']|].
        exists more. split; [reflexivity|]. intros ws n. rewrite A. split.
        -- intros (j & l'' & -> & E & C). exists (S j), l''. split; [lia|split; [exact E|exact C]].
        -- intros ([|j] & l'' & -> & E & C); [injection E as <-; destruct (NC _ C)|]. exists j, l''. split; [lia|split; [exact E|exact C]].
Qed.
Lemma least_in l : forall a, In (least a l) (a :: l).
Proof.
  induction l as [|b l IH]; intros a; [left; reflexivity|]. cbn [least]. destruct (IH (if less b a then b else a)) as [<-|K].
  - destruct (less b a); [right; left; reflexivity|left; reflexivity].
  - right; right; exact K.
Qed.

(** The first line at the left margin is found. *)
Definition C98_class_top_claim : Prop :=
  forall lines name k l, is_name name -> nth_error lines k = Some l -> class_line name [] l ->
  (forall j l', j < k -> nth_error lines j = Some l' -> ~ class_line name [] l') -> find_class lines name = Found k.
Theorem C98_class_top : C98_class_top_claim.
Proof.
  intros lines name k l Hn E C F. unfold find_class.
  destruct (scan_cases name Hn lines 0 []) as [(j & l' & E' & C' & F' & ->)|(F' & _)]; [|destruct (F' k l E C)].
  f_equal. simpl. destruct (Nat.lt_trichotomy j k) as [K|[K|K]]; [destruct (F j l' K E' C')|exact K|destruct (F' k l K E C)].
Qed.
(** What is found is always a line with the class, and if there is one, one is found. *)
Definition C98_class_line_claim : Prop :=
  forall lines name, is_name name ->
  (forall k, find_class lines name = Found k -> exists l ws, nth_error lines k = Some l /\ class_line name ws l) /\
  ((forall k l ws, nth_error lines k = Some l -> ~ class_line name ws l) -> find_class lines name = IOError) /\
  (forall k l ws, nth_error lines k = Some l -> class_line name ws l -> exists k', find_class lines name = Found k').
Theorem C98_class_line : C98_class_line_claim.
Proof.
  intros lines name Hn. unfold find_class.
  destruct (scan_cases name Hn lines 0 []) as [(j & l' & E' & C' & F' & ->)|(F' & more & -> & A)]; simpl app.
  - split; [|split].
    + intros k [= <-]. exists l', []. split; assumption.
    + intros K. destruct (K j l' [] E' C').
    + eauto.
  - destruct more as [|a more]; simpl.
    + split; [discriminate|]. split; [reflexivity|]. intros k l ws E C. exfalso. apply (A ws k). exists k, l. auto.
    + split; [|split].
      * intros k [= <-]. pose proof (least_in more a) as K. destruct (least a more) as [ws n]. apply A in K. destruct K as (j & l & -> & E & C).
        exists l, ws. split; assumption.
      * intros K. destruct a as [ws n]. destruct (proj1 (A ws n) (or_introl eq_refl)) as (j & l & _ & E & C). destruct (K j l ws E C).
      * eauto.
Qed.
(** So the only such line is found. *)
Definition C98_class_only_claim : Prop :=
  forall lines name k l ws, is_name name -> nth_error lines k = Some l -> class_line name ws l ->
  (forall j l' ws', nth_error lines j = Some l' -> class_line name ws' l' -> j = k) -> find_class lines name = Found k.
Theorem C98_class_only : C98_class_only_claim.
Proof.
  intros lines name k l ws Hn E C U. destruct (C98_class_line lines name Hn) as (H1 & _ & H3).
  destruct (H3 k l ws E C) as [k' K]. rewrite K. f_equal. destruct (H1 k' K) as (l' & ws' & E' & C'). exact (U k' l' ws' E' C').
Qed.

Lemma ltb_blanks a : forall b, str_ltb (blanks a) (blanks b) = (a <? b).
Proof.
  induction a as [|a IH]; intros [|b]; try reflexivity. unfold blanks in *. cbn [repeat str_ltb].
  rewrite IH, N.ltb_irrefl, N.eqb_refl. reflexivity.
Qed.
Lemma less_blanks k n k' n' : less (blanks k, n) (blanks k', n') = true <-> k < k' \/ (k = k' /\ n < n').
Proof.
  unfold less. cbn [fst snd]. rewrite !ltb_blanks, orb_true_iff, andb_true_iff, negb_true_iff, !Nat.ltb_lt, Nat.ltb_ge. lia.
Qed.
Lemma least_blanks l : forall a, (forall ws n, In (ws, n) (a :: l) -> exists k, ws = blanks k) ->
  exists k n, least a l = (blanks k, n) /\ forall k' n', In (blanks k', n') (a :: l) -> k < k' \/ (k = k' /\ n <= n').
Proof.
  assert (forall x y, blanks x = blanks y -> x = y) as inj by (intros x y H; apply (f_equal (@length chr)) in H; unfold blanks in H; rewrite !repeat_length in H; exact H).
  induction l as [|b l IH]; intros a H.
  - destruct a as [ws n]. destruct (H ws n (or_introl eq_refl)) as [k ->]. exists k, n. split; [reflexivity|].
    intros k' n' [[= K <-]|[]]. apply inj in K. lia.
  - cbn [least]. destruct (IH (if less b a then b else a)) as (k & n & E & M).
    { intros ws n [K|K]; [|apply (H ws n); right; right; exact K]. apply (H ws n). destruct (less b a); [right; left; exact K|left; exact K]. }
    exists k, n. split; [exact E|]. destruct a as [wa na], b as [wb nb].
    destruct (H wa na (or_introl eq_refl)) as [ka ->]. destruct (H wb nb (or_intror (or_introl eq_refl))) as [kb ->].
    pose proof (less_blanks kb nb ka na) as L. intros k' n' K.
    destruct (less (blanks kb, nb) (blanks ka, na)).
    + destruct K as [[= K <-]|[[= K <-]|K]].
      * apply inj in K. subst k'. specialize (M kb nb (or_introl eq_refl)). lia.
      * apply inj in K. subst k'. apply M. left. reflexivity.
      * apply M. right. exact K.
    + assert (~ (kb < ka \/ kb = ka /\ nb < na)) as L' by (intros Q; apply L in Q; discriminate). destruct K as [[= K <-]|[[= K <-]|K]].
      * apply inj in K. subst k'. apply M. left. reflexivity.
      * apply inj in K. subst k'. specialize (M ka na (or_introl eq_refl)). lia.
      * apply M. right. exact K.
Qed.
(** If classes are indented by blanks, the one indented least is found, and of those the first. *)
Definition C98_class_least_claim : Prop :=
  forall lines name k, is_name name -> find_class lines name = Found k ->
  (forall j l ws, nth_error lines j = Some l -> class_line name ws l -> exists n, ws = blanks n) ->
  exists l n, nth_error lines k = Some l /\ class_line name (blanks n) l /\
  forall j l' n', nth_error lines j = Some l' -> class_line name (blanks n') l' -> n < n' \/ (n = n' /\ k <= j).
Theorem C98_class_least : C98_class_least_claim.
Proof.
  intros lines name k Hn H B. unfold find_class in H.
  destruct (scan_cases name Hn lines 0 []) as [(j & l' & E' & C' & F' & K)|(F' & more & K & A)]; rewrite K in H; clear K.
  - injection H as <-. exists l', 0. split; [exact E'|]. split; [exact C'|]. intros i l n E C. destruct n as [|n]; [|lia]. right. split; [reflexivity|].
    simpl. destruct (Nat.le_gt_cases j i) as [K|K]; [exact K|]. destruct (F' i l K E C).
  - simpl in H. destruct more as [|a more]; [discriminate|]. injection H as <-.
    destruct (least_blanks more a) as (n & m & E & M).
    { intros ws n K. apply A in K. destruct K as (j & l & _ & E & C). exact (B j l ws E C). }
    pose proof (least_in more a) as K. rewrite E in *. apply A in K. destruct K as (j & l & -> & E' & C'). exists l, n. split; [exact E'|]. split; [exact C'|].
    intros i l' n' E'' C''. apply M. apply A. exists i, l'. auto.
Qed.

(** "def f():", "    pass", "async def g():" *)
Definition l_def : str := ([100; 101; 102; 32; 102; 40; 41; 58; 10])%N.
Definition l_pass : str := ([32; 32; 32; 32; 112; 97; 115; 115; 10])%N.
Definition l_async : str := ([97; 115; 121; 110; 99; 32; 100; 101; 102; 32; 103; 40; 41; 58; 10])%N.
(** FALSE: a function declared with async def is found at its first line.  What is found is the function before it, whose
    text is digested in its place. *)
Definition C98_async_claim : Prop :=
  forall lines first l l', nth_error lines (first - 1) = Some l -> l = ([97; 115; 121; 110; 99; 32])%N ++ l' -> is_def l' -> 0 < first -> find_code lines first = Found (first - 1).
Theorem C98_async_refuted : ~ C98_async_claim.
Proof.
  intros H. specialize (H [l_def; l_pass; l_async] 3 l_async ([100; 101; 102; 32; 103; 40; 41; 58; 10])%N eq_refl eq_refl).
  assert (Found 0 = Found 2); [|discriminate]. apply H; [|lia].
  exists [], 32%N, ([103; 40; 41; 58; 10])%N. split; [intros c []|]. split; reflexivity.
Qed.
(** FALSE: a line with the word lambda is enough.  "f = lambda*a: a" is not recognised. *)
Definition l_lambda : str := ([102; 32; 61; 32] ++ w_lambda ++ [42; 97; 58; 32; 97; 10])%N.
Definition C98_lambda_claim : Prop :=
  forall lines first l pre c rest, nth_error lines (first - 1) = Some l -> l = pre ++ (32%N :: w_lambda) ++ c :: rest -> is_word c = false ->
  0 < first -> find_code lines first = Found (first - 1).
Theorem C98_lambda_refuted : ~ C98_lambda_claim.
Proof.
  intros H. specialize (H [l_pass; l_lambda] 2 l_lambda ([102; 32; 61])%N 42%N ([97; 58; 32; 97; 10])%N eq_refl eq_refl eq_refl ltac:(lia)). discriminate.
Qed.
(** FALSE: what is found is a class statement.  "classA = 1" is taken for one of A. *)
Definition C98_statement_claim : Prop :=
  forall lines name k l, is_name name -> find_class lines name = Found k -> nth_error lines k = Some l ->
  exists ws c sp rest, blank ws /\ is_space c = true /\ l = ws ++ w_class ++ c :: sp ++ name ++ rest.
Definition l_assign : str := (w_class ++ [65; 32; 61; 32; 49; 10])%N.
Definition l_class : str := (w_class ++ [32; 65; 58; 10])%N.
Lemma name_A : is_name [65%N]. Proof. split; [discriminate|]. intros c [<-|[]]. reflexivity. Qed.
Theorem C98_statement_refuted : ~ C98_statement_claim.
Proof.
  intros H. destruct (H [l_assign; l_class] [65%N] 0 l_assign name_A eq_refl eq_refl) as (ws & c & sp & rest & Hb & Hc & E).
  destruct ws as [|d ws]; [|injection E as <- _; specialize (Hb _ (or_introl eq_refl)); discriminate].
  injection E as <- _. discriminate.
Qed.
(** FALSE: the class that is indented least is found, however it is indented.  Two tabs come before one blank. *)
Definition C98_least_claim : Prop :=
  forall lines name k l ws j l' ws', is_name name -> find_class lines name = Found k -> nth_error lines k = Some l -> class_line name ws l ->
  nth_error lines j = Some l' -> class_line name ws' l' -> length ws <= length ws'.
Theorem C98_least_refuted : ~ C98_least_claim.
Proof.
  intros H. specialize (H [[32]%N ++ l_class; [9; 9]%N ++ l_class] [65%N] 1 ([9; 9]%N ++ l_class) [9; 9]%N 0 ([32]%N ++ l_class) [32]%N name_A eq_refl eq_refl).
  assert (2 <= 1); [|lia]. apply H.
  - exists [32%N], [58; 10]%N. split; [intros c [<-|[<-|[]]]; reflexivity|]. split; [intros c [<-|[]]; reflexivity|]. split; [intros c r [= <- <-]; reflexivity|reflexivity].
  - reflexivity.
  - exists [32%N], [58; 10]%N. split; [intros c [<-|[]]; reflexivity|]. split; [intros c [<-|[]]; reflexivity|]. split; [intros c r [= <- <-]; reflexivity|reflexivity].
Qed.

Example C98_example :
  opening l_def /\ find_code [l_pass; l_def; l_pass] 2 = Found 1 /\ find_code [l_pass; l_def; l_pass] 3 = Found 1 /\ find_code [l_pass] 1 = Found 0 /\
  find_code [l_pass] 5 = IndexError /\ get_source (fun _ => 2) [l_pass; l_def; l_pass; l_async] 2 = inl (l_def ++ l_pass) /\
  class_line [65%N] [] l_class /\ find_class [l_pass; blanks 4 ++ l_class; l_class; l_class] [65%N] = Found 2 /\
  find_class [l_pass; blanks 8 ++ l_class; blanks 4 ++ l_class; blanks 4 ++ l_class] [65%N] = Found 2 /\
  find_class [l_pass; l_def] [65%N] = IOError /\ find_class [w_class ++ [32; 65; 66; 58]%N] [65%N] = IOError.
Proof.
  split.
  - left. exists [], 32%N, [102; 40; 41; 58; 10]%N. split; [intros c []|]. split; reflexivity.
  - repeat (split; [first [reflexivity|idtac]|]); try reflexivity.
    exists [32%N], [58; 10]%N. split; [intros c []|]. split; [intros c [<-|[]]; reflexivity|]. split; [intros c r [= <- <-]; reflexivity|reflexivity].
Qed.

Print Assumptions C98_code.
Print Assumptions C98_found.
Print Assumptions C98_own.
Print Assumptions C98_class_top.
Print Assumptions C98_class_line.
Print Assumptions C98_class_only.
Print Assumptions C98_class_least.
Print Assumptions C98_async_refuted.
Print Assumptions C98_lambda_refuted.
Print Assumptions C98_statement_refuted.
Print Assumptions C98_least_refuted.
