(** Reading dependency files. *)
From Coq Require Import List NArith Bool Arith Lia.
From Verif Require Import FnModel DepModel DepSpec.
Import ListNotations.
Open Scope N_scope.

(** *** The regular expressions *)
Lemma at_end_nl s : at_end (s ++ [c_nl]) = match s with [] => true | _ => false end.
Proof. destruct s as [|c [|d s]]; reflexivity. Qed.

Lemma dots_free s r : ~ In c_nl s -> dots (s ++ r) = (length s + dots r)%nat.
Proof.
  induction s as [|c s IH]; intros H; [reflexivity|]. simpl.
  destruct (N.eqb c c_nl) eqn:E; [apply N.eqb_eq in E; subst; destruct H; left; reflexivity|].
  rewrite IH; [reflexivity|]. intros K. apply H. right. exact K.
Qed.

(** A line: up to the end or the newline at the end. *)
Lemma line_whole s e : ~ In c_nl s -> e = [] \/ e = [c_nl] -> line_ (dots (s ++ e)) (s ++ e) = Some s.
Proof.
  intros Hs He. rewrite dots_free by exact Hs.
  assert (dots e = O) as -> by (destruct He as [->| ->]; reflexivity). rewrite Nat.add_0_r.
  assert (skipn (length s) (s ++ e) = e) as Hk by (rewrite skipn_app, skipn_all, Nat.sub_diag; reflexivity).
  assert (firstn (length s) (s ++ e) = s) as Hf by (rewrite firstn_app, firstn_all, Nat.sub_diag; apply app_nil_r).
  destruct s as [|c s]; cbn [length line_]; cbn [length] in Hk, Hf; rewrite Hk, Hf;
    destruct He as [->| ->]; reflexivity.
Qed.

Lemma run_all p s r : Forall (fun c => p c = true) s -> run p (s ++ r) = (length s + run p r)%nat.
Proof. induction 1 as [|c s Hc Hs IH]; [reflexivity|]. simpl. rewrite Hc, IH. reflexivity. Qed.

Lemma skipn_exact {A} (a b : list A) : skipn (length a) (a ++ b) = b.
Proof. rewrite skipn_app, skipn_all, Nat.sub_diag. reflexivity. Qed.

Definition nospace (s : str) : Prop := Forall (fun c => is_bspace c = false) s.

(** A rule for a target without blanks: what follows the colon. *)
Lemma rule_match_ok t s r :
  t <> [] -> nospace t -> (s = [] \/ exists s', s = c_space :: s') -> ~ In c_nl s ->
  r = match s with [] => None | _ :: s' => Some s' end ->
  forall e, e = [] \/ e = [c_nl] -> rule_match (t ++ c_colon :: s ++ e) = Some r.
Proof.
  intros Ht Hn Hs Hnl -> e He. unfold rule_match.
  replace (t ++ c_colon :: s ++ e) with ((t ++ [c_colon]) ++ s ++ e) by (rewrite <- app_assoc; reflexivity).
  rewrite run_all.
  2: { apply Forall_app. split; [|constructor; [reflexivity|constructor]].
       eapply Forall_impl; [|exact Hn]. intros c Hc. simpl in Hc. rewrite Hc. reflexivity. }
  assert (run (fun c => negb (is_bspace c)) (s ++ e) = O) as ->.
  { destruct Hs as [->|[s' ->]]; [|reflexivity]. destruct He as [->| ->]; reflexivity. }
  rewrite Nat.add_0_r, app_length, Nat.add_1_r. cbn [target_match].
  replace (S (length t)) with (length (t ++ [c_colon])) by (rewrite app_length, Nat.add_1_r; reflexivity).
  rewrite skipn_exact.
  assert (target_match (length t) ((t ++ [c_colon]) ++ s ++ e) =
    Some match s with [] => None | _ :: s' => Some s' end) as Hm.
  { destruct t as [|t0 t]; [contradiction|]. rewrite <- app_assoc.
    replace (length (t0 :: t)) with (S (length t)) by reflexivity. cbn [target_match].
    replace (S (length t)) with (length (t0 :: t)) by reflexivity.
    rewrite skipn_exact. cbn [app]. rewrite N.eqb_refl.
    assert (tail_match (s ++ e) = Some match s with [] => None | _ :: s' => Some s' end) as ->; [|reflexivity].
    destruct Hs as [->|[s' ->]].
    - destruct He as [->| ->]; reflexivity.
    - unfold tail_match. cbn [app]. rewrite N.eqb_refl, line_whole; [reflexivity| |exact He].
      intros K. apply Hnl. right. exact K. }
  destruct (s ++ e) as [|c u] eqn:Eu; [exact Hm|].
  assert (N.eqb c c_colon = false) as ->; [|exact Hm].
  destruct Hs as [->|[s' ->]].
  - destruct He as [->| ->]; [discriminate|]. injection Eu as <- <-. reflexivity.
  - injection Eu as <- <-. reflexivity.
Qed.

(** A target containing a blank is not understood. *)
Lemma target_match_none n s : ~ In c_colon (firstn (S n) s) -> target_match n s = None.
Proof.
  induction n as [|n IH]; intros H; [reflexivity|]. cbn [target_match].
  assert (target_match n s = None) as Hn.
  { apply IH. intros K. apply H. rewrite <- (firstn_skipn (S n) (firstn (S (S n)) s)), firstn_firstn.
    apply in_or_app. left. replace (Nat.min (S n) (S (S n))) with (S n) by lia. exact K. }
  destruct (skipn (S n) s) as [|c s'] eqn:E; [exact Hn|].
  destruct (N.eqb c c_colon) eqn:Ec; [|exact Hn]. apply N.eqb_eq in Ec. subst c.
  destruct H. rewrite <- (firstn_skipn (S n) s), E.
  rewrite firstn_app. apply in_or_app. right.
  assert (length (firstn (S n) s) = S n) as ->.
  { rewrite firstn_length. apply Nat.min_l.
    assert (length (skipn (S n) s) = S (length s')) as Hl by (rewrite E; reflexivity).
    rewrite skipn_length in Hl. lia. }
  replace (S (S n) - S n)%nat with 1%nat by lia. left. reflexivity.
Qed.

(** *** Words *)
Lemma split_cur cur s : cur <> [] -> Forall (fun c => is_uspace c = false) s ->
  forall r, split_ cur (s ++ r) = split_ (cur ++ s) r.
Proof.
  intros Hc Hs r. revert cur Hc. induction Hs as [|c s Hx Hs IH]; intros cur Hc; [rewrite app_nil_r; reflexivity|].
  cbn [app split_]. rewrite Hx, IH.
  - rewrite <- app_assoc. reflexivity.
  - destruct cur; discriminate.
Qed.

Lemma split_word w r : w <> [] -> Forall (fun c => is_uspace c = false) w ->
  (r = [] \/ exists c r', r = c :: r' /\ is_uspace c = true) -> split (w ++ r) = w :: split r.
Proof.
  intros Hw Hs Hr. unfold split. destruct w as [|c w]; [contradiction|]. inversion Hs as [|? ? Hc Hs']; subst.
  cbn [app split_]. rewrite Hc. cbn [app]. rewrite (split_cur [c] w) by (discriminate || exact Hs'). cbn [app].
  destruct Hr as [->|(d & r' & -> & Hd)]; [reflexivity|]. cbn [split_]. rewrite Hd. reflexivity.
Qed.

Lemma split_spaces s r : Forall (fun c => is_uspace c = true) s -> split (s ++ r) = split r.
Proof. unfold split. induction 1 as [|c s Hc Hs IH]; [reflexivity|]. cbn [app split_]. rewrite Hc. exact IH. Qed.

(** Splitting at a blank. *)
Lemma split_app_space a r : forall c, is_uspace c = true -> split (a ++ c :: r) = split a ++ split r.
Proof.
  intros c Hc. unfold split.
  assert (forall cur, split_ cur (a ++ c :: r) = split_ cur a ++ split_ [] r) as H; [|apply H].
  induction a as [|x a IH]; intros cur; cbn [app split_].
  - rewrite Hc. destruct cur; reflexivity.
  - destruct (is_uspace x); [|apply IH]. destruct cur; [apply IH|]. rewrite IH. reflexivity.
Qed.

(** *** Line breaks *)
Lemma join_free s r : ~ In c_bs s -> join_lines (s ++ r) = s ++ join_lines r.
Proof.
  induction s as [|c s IH]; intros H; [reflexivity|]. simpl.
  destruct (N.eqb c c_bs) eqn:E; [apply N.eqb_eq in E; subst; destruct H; left; reflexivity|].
  rewrite IH; [reflexivity|]. intros K. apply H. right. exact K.
Qed.

(** Text without newlines that does not end in a backslash stays. *)
Lemma join_keeps s r : ~ In c_nl s -> (forall s', s <> s' ++ [c_bs]) -> join_lines (s ++ r) = s ++ join_lines r.
Proof.
  induction s as [|c s IH]; intros Hs Hb; [reflexivity|].
  assert (join_lines (s ++ r) = s ++ join_lines r) as E.
  { apply IH; [intros K; apply Hs; right; exact K|]. intros s' ->. apply (Hb (c :: s')). reflexivity. }
  cbn [app join_lines]. destruct (N.eqb c c_bs) eqn:Ec; [|rewrite E; reflexivity].
  destruct s as [|d s]; [apply N.eqb_eq in Ec; subst; destruct (Hb []); reflexivity|].
  cbn [app]. destruct (N.eqb d c_nl) eqn:Ed.
  - apply N.eqb_eq in Ed. subst. destruct Hs. right. left. reflexivity.
  - f_equal. exact E.
Qed.

(** The file with lines joined. *)
Definition joined (deps : list (bool * str)) : str :=
  flat_map (fun d : bool * str => (if fst d then [c_space; c_space] else [c_space]) ++ munge (snd d)) deps.

Lemma munge_in c bs s : In c (munge_ bs s) -> In c s \/ c = c_bs.
Proof.
  revert bs. induction s as [|x s IH]; intros bs; cbn [munge_]; [intros []|].
  destruct (N.eqb x c_bs); [intros [->|H]; [left; left; reflexivity|destruct (IH _ H); [left; right|right]; assumption]|].
  destruct (N.eqb x 32 || N.eqb x 9).
  - intros H. apply in_app_or in H as [H|[->|H]].
    + right. apply repeat_spec in H. exact H.
    + left. left. reflexivity.
    + destruct (IH _ H); [left; right|right]; assumption.
  - destruct (N.eqb x 35).
    + intros [<-|[->|H]]; [right; reflexivity|left; left; reflexivity|]. destruct (IH _ H); [left; right|right]; assumption.
    + destruct (N.eqb x c_dollar).
      * intros [->|[->|H]]; [left; left; reflexivity|left; left; reflexivity|]. destruct (IH _ H); [left; right|right]; assumption.
      * intros [->|H]; [left; left; reflexivity|]. destruct (IH _ H); [left; right|right]; assumption.
Qed.

Lemma munge_nl s : ~ In c_nl s -> ~ In c_nl (munge s).
Proof. intros H K. apply munge_in in K as [K|K]; [contradiction|discriminate]. Qed.

Lemma munge_plain s : Forall (fun c => is_uspace c = false /\ c <> 35 /\ c <> c_dollar) s -> munge s = s.
Proof.
  unfold munge. generalize O as bs. intros bs H. revert bs. induction H as [|c s (Hc & H1 & H2) Hs IH]; intros bs; [reflexivity|].
  cbn [munge_]. rewrite IH. destruct (N.eqb c c_bs); [reflexivity|].
  destruct (N.eqb c 32) eqn:E1; [apply N.eqb_eq in E1; subst; discriminate|].
  destruct (N.eqb c 9) eqn:E2; [apply N.eqb_eq in E2; subst; discriminate|]. cbn [orb].
  apply N.eqb_neq in H1, H2. rewrite H1, H2, IH. reflexivity.
Qed.

Lemma munge_end s : (forall s', s <> s' ++ [c_bs]) -> forall s', munge s <> s' ++ [c_bs].
Proof.
  unfold munge. generalize O as bs. induction s as [|c s IH]; intros bs Hs s'; [destruct s'; discriminate|].
  assert (forall bs s', munge_ bs s <> s' ++ [c_bs]) as IH'.
  { intros bs'. apply IH. intros u ->. apply (Hs (c :: u)). reflexivity. }
  assert (forall pre bs, s <> [] -> pre ++ munge_ bs s <> s' ++ [c_bs]) as Hpre.
  { intros pre bs' Hne E. destruct (munge_ bs' s) as [|x l] eqn:Em using rev_ind.
    - destruct s as [|y s]; [contradiction|]. cbn [munge_] in Em.
      destruct (N.eqb y c_bs); [discriminate|]. destruct (N.eqb y 32 || N.eqb y 9); [destruct (repeat c_bs (S bs')); discriminate|].
      destruct (N.eqb y 35); [discriminate|]. destruct (N.eqb y c_dollar); discriminate.
    - rewrite app_assoc in E. apply app_inj_tail in E as [_ ->]. exact (IH' bs' l Em). }
  assert (c <> c_bs \/ s <> []) as Hc.
  { destruct s; [left; intros ->; apply (Hs []); reflexivity|right; discriminate]. }
  destruct s as [|d s]; [destruct Hc as [Hc|Hc]; [|contradiction]|].
  - cbn [munge_]. apply N.eqb_neq in Hc as Hc'. rewrite Hc'.
    assert (forall pre, pre ++ [c] <> s' ++ [c_bs]) as Hlast by (intros pre E; apply app_inj_tail in E as [_ E]; contradiction).
    destruct (N.eqb c 32 || N.eqb c 9); [apply Hlast|].
    destruct (N.eqb c 35); [apply (Hlast [_])|]. destruct (N.eqb c c_dollar); [apply (Hlast [_])|apply (Hlast [])].
  - remember (d :: s) as s0 eqn:E0. assert (s0 <> []) as Hne by (subst; discriminate). cbn [munge_].
    destruct (N.eqb c c_bs); [apply (Hpre [_]); exact Hne|].
    destruct (N.eqb c 32 || N.eqb c 9).
    { intros E. apply (Hpre (repeat c_bs (S bs) ++ [c]) O Hne). rewrite <- app_assoc. exact E. }
    destruct (N.eqb c 35); [apply (Hpre [_; _]); exact Hne|].
    destruct (N.eqb c c_dollar); [apply (Hpre [_; _]); exact Hne|apply (Hpre [_]); exact Hne].
Qed.

(** Names the lines of which stay apart. *)
Definition one_line (s : str) : Prop := ~ In c_nl s /\ forall s', s <> s' ++ [c_bs].

Lemma join_written t deps :
  one_line t -> Forall (fun d => one_line (snd d)) deps ->
  join_lines (written t deps) = munge t ++ c_colon :: joined deps ++ [c_nl].
Proof.
  intros [Ht Ht'] Hd. unfold written. rewrite join_keeps; [|apply munge_nl, Ht|apply munge_end, Ht']. f_equal.
  cbn [app]. change (c_colon :: join_lines (flat_map (fun d => separator (fst d) ++ munge (snd d)) deps ++ [c_nl]) =
    c_colon :: joined deps ++ [c_nl]). f_equal.
  induction Hd as [|[b d] deps [Hx Hx'] Hds IH]; [reflexivity|]. unfold joined. cbn [flat_map fst snd].
  rewrite <- !app_assoc. fold (joined deps). cbn [snd] in *.
  assert (join_lines (munge d ++ flat_map (fun d => separator (fst d) ++ munge (snd d)) deps ++ [c_nl]) =
    munge d ++ joined deps ++ [c_nl]) as E.
  { rewrite join_keeps; [rewrite IH; reflexivity|apply munge_nl, Hx|apply munge_end, Hx']. }
  destruct b; cbn [separator app].
  - change (c_space :: c_space :: join_lines (munge d ++ flat_map (fun d => separator (fst d) ++ munge (snd d)) deps ++ [c_nl])
      = c_space :: c_space :: munge d ++ joined deps ++ [c_nl]). rewrite E. reflexivity.
  - change (c_space :: join_lines (munge d ++ flat_map (fun d => separator (fst d) ++ munge (snd d)) deps ++ [c_nl])
      = c_space :: munge d ++ joined deps ++ [c_nl]). rewrite E. reflexivity.
Qed.

Lemma joined_nl deps : Forall (fun d => one_line (snd d)) deps -> ~ In c_nl (joined deps).
Proof.
  induction 1 as [|[b d] deps [Hx _] Hds IH]; [intros []|]. unfold joined. cbn [flat_map fst snd].
  fold (joined deps). intros K. rewrite <- app_assoc in K. apply in_app_or in K as [K|K].
  - destruct b; repeat (destruct K as [K|K]; [discriminate|]); exact K.
  - apply in_app_or in K as [K|K]; [exact (munge_nl d Hx K)|contradiction].
Qed.

Lemma split_joined deps : split (joined deps) = flat_map (fun d => split (munge (snd d))) deps.
Proof.
  assert (forall b r, split ((if b : bool then [c_space; c_space] else [c_space]) ++ r) = split r) as Hb.
  { intros b r. apply split_spaces. destruct b; repeat constructor. }
  induction deps as [|[b d] deps IH]; [reflexivity|]. unfold joined. cbn [flat_map fst snd]. fold (joined deps).
  rewrite <- app_assoc, Hb. destruct deps as [|[b' d'] deps]; [cbn; rewrite !app_nil_r; reflexivity|].
  rewrite <- IH. unfold joined. cbn [flat_map fst snd]. destruct b'; cbn [app]; rewrite split_app_space by reflexivity; reflexivity.
Qed.

Lemma rule_spaced t s r :
  t <> [] -> nospace t -> (forall e, e = [] \/ e = [c_nl] -> rule_match (t ++ c_colon :: s ++ e) = Some r) ->
  forall e, e = [] \/ e = [c_nl] ->
  spaced_match (run is_bspace (t ++ c_colon :: s ++ e)) (t ++ c_colon :: s ++ e) = Some r.
Proof.
  intros Ht Hn Hr e He. destruct t as [|c t]; [contradiction|]. inversion Hn as [|? ? Hc _]; subst.
  specialize (Hr e He). cbn [app run] in *. rewrite Hc. cbn [spaced_match skipn]. rewrite Hr. reflexivity.
Qed.

Lemma skipn_0_ {A} (l : list A) : skipn 0 l = l. Proof. reflexivity. Qed.

(** What is read, for a target without blanks. *)
Lemma read_written t deps :
  t <> [] -> nospace t -> one_line t -> Forall (fun d => one_line (snd d)) deps ->
  read_deps (written t deps) = Some (flat_map (fun d => split (munge (snd d))) deps).
Proof.
  intros Ht Hn Hl Hd. unfold read_deps. rewrite join_written by assumption.
  assert (munge t <> [] /\ nospace (munge t)) as [Hm1 Hm2].
  { split.
    - unfold munge. destruct t as [|c t]; [contradiction|]. cbn [munge_].
      destruct (N.eqb c c_bs); [discriminate|]. destruct (N.eqb c 32 || N.eqb c 9); [destruct (repeat c_bs 1); discriminate|].
      destruct (N.eqb c 35); [discriminate|]. destruct (N.eqb c c_dollar); discriminate.
    - apply Forall_forall. intros c Hc. apply munge_in in Hc as [Hc|Hc].
      + unfold nospace in Hn. rewrite Forall_forall in Hn. exact (Hn c Hc).
      + rewrite Hc. reflexivity. }
  assert (joined deps = [] \/ exists s', joined deps = c_space :: s') as Hj.
  { destruct deps as [|[[] d] deps]; [left; reflexivity|right; eexists; reflexivity|right; eexists; reflexivity]. }
  rewrite (rule_spaced _ _ _ Hm1 Hm2 (rule_match_ok _ _ _ Hm1 Hm2 Hj (joined_nl deps Hd) eq_refl) _ (or_intror eq_refl)).
  rewrite <- split_joined. destruct Hj as [-> |[s' ->]]; reflexivity.
Qed.

Lemma plain_one_line s : plain s -> (forall s', s <> s' ++ [c_bs]) -> one_line s.
Proof.
  intros [_ H] Hb. split; [|exact Hb]. intros K. rewrite Forall_forall in H. destruct (H _ K) as [H1 _]. discriminate.
Qed.

Lemma uspace_bspace c : is_uspace c = false -> is_bspace c = false.
Proof. unfold is_uspace. destruct (is_bspace c); [discriminate|reflexivity]. Qed.

Lemma plain_nospace s : plain s -> nospace s.
Proof. intros [_ H]. eapply Forall_impl; [|exact H]. intros c [Hc _]. apply uspace_bspace, Hc. Qed.

Lemma split_one s : s <> [] -> Forall (fun c => is_uspace c = false) s -> split s = [s].
Proof. intros Hs H. rewrite <- (app_nil_r s) at 1. rewrite split_word; [reflexivity|exact Hs|exact H|left; reflexivity]. Qed.

Lemma read_plain t deps :
  plain t -> Forall (fun d => plain (snd d)) deps ->
  (forall n, n = t \/ In n (map snd deps) -> forall s', n <> s' ++ [c_bs]) ->
  read_deps (written t deps) = Some (map snd deps).
Proof.
  intros Ht Hd Hb. rewrite read_written.
  - f_equal. clear Hb. induction Hd as [|[b d] deps [Hne Hx] Hds IH]; [reflexivity|]. cbn [flat_map map snd] in *.
    rewrite IH, munge_plain by exact Hx. rewrite split_one; [reflexivity|exact Hne|].
    eapply Forall_impl; [|exact Hx]. intros c [Hc _]. exact Hc.
  - exact (proj1 Ht).
  - exact (plain_nospace t Ht).
  - apply plain_one_line; [exact Ht|]. apply Hb. left. reflexivity.
  - apply Forall_forall. intros d Hin. rewrite Forall_forall in Hd. apply plain_one_line; [exact (Hd d Hin)|].
    apply Hb. right. apply in_map. exact Hin.
Qed.

(** *** ocamldep *)
Lemma lstrip_head c s : is_bspace c = false -> lstrip (c :: s) = c :: s.
Proof. intros H. cbn [lstrip]. rewrite H. reflexivity. Qed.

Lemma strip_line s c : is_bspace c = false -> forall d, is_bspace d = false -> forall m,
  s = [c] \/ s = c :: m ++ [d] -> strip (s ++ [c_nl]) = s.
Proof.
  intros Hc d Hd m Hs. unfold strip.
  assert (lstrip (s ++ [c_nl]) = s ++ [c_nl]) as ->.
  { destruct Hs as [->| ->]; cbn [app]; apply lstrip_head, Hc. }
  rewrite rev_app_distr. cbn [rev app lstrip]. change (is_bspace c_nl) with true. cbn iota.
  assert (lstrip (rev s) = rev s) as ->; [|apply rev_involutive].
  destruct Hs as [->| ->]; [apply lstrip_head, Hc|].
  replace (rev (c :: m ++ [d])) with (d :: rev (c :: m)); [apply lstrip_head, Hd|].
  cbn [rev]. rewrite rev_app_distr. reflexivity.
Qed.

Lemma read_listed f ms :
  f <> [] -> nospace f -> Forall (fun m => m <> [] /\ Forall (fun c => is_uspace c = false) m) ms ->
  read_modules (listed f ms) = Some ms.
Proof.
  intros Hf Hn Hm. unfold read_modules, listed.
  set (body := flat_map (fun m => c_space :: m) ms).
  assert (strip (f ++ [c_colon] ++ body ++ [c_nl]) = f ++ c_colon :: body) as ->.
  { replace (f ++ [c_colon] ++ body ++ [c_nl]) with ((f ++ c_colon :: body) ++ [c_nl]).
    2: { rewrite <- app_assoc. reflexivity. }
    destruct f as [|c f]; [contradiction|]. inversion Hn as [|? ? Hc _]; subst.
    assert (exists m d, is_bspace d = false /\ f ++ c_colon :: body = m ++ [d]) as (m & d & Hd & E).
    { subst body. destruct ms as [|m0 ms'] using rev_ind.
      - exists f, c_colon. split; reflexivity.
      - apply Forall_app in Hm as [_ Hm]. inversion Hm as [|? ? [Hne Hx] _]; subst.
        destruct (exists_last Hne) as (u & d & ->). apply Forall_app in Hx as [_ Hx]. inversion Hx as [|? ? Hd _]; subst.
        rewrite flat_map_app. exists (f ++ c_colon :: flat_map (fun m => c_space :: m) ms' ++ c_space :: u), d.
        split; [apply uspace_bspace, Hd|]. cbn [flat_map]. rewrite app_nil_r, <- app_assoc. cbn [app].
        rewrite <- app_assoc. reflexivity. }
    apply (strip_line _ c Hc d Hd m). right. cbn [app]. rewrite E. reflexivity. }
  assert (body = [] \/ exists s', body = c_space :: s') as Hj.
  { subst body. destruct ms; [left; reflexivity|right; eexists; reflexivity]. }
  assert (~ In c_nl body) as Hnl.
  { subst body. clear Hj. induction Hm as [|m ms [_ Hx] Hms IH]; [intros []|]. cbn [flat_map]. intros [K|K]; [discriminate|].
    apply in_app_or in K as [K|K]; [|exact (IH K)]. rewrite Forall_forall in Hx. specialize (Hx _ K). discriminate. }
  pose proof (rule_match_ok f body _ Hf Hn Hj Hnl eq_refl [] (or_introl eq_refl)) as Hr.
  rewrite app_nil_r in Hr. rewrite Hr.
  assert (split body = ms) as Hs.
  { subst body. clear Hj Hnl Hr. induction Hm as [|m ms [Hne Hx] Hms IH]; [reflexivity|]. cbn [flat_map].
    transitivity (split (m ++ flat_map (fun m => c_space :: m) ms));
      [apply (split_spaces [c_space]); repeat constructor|].
    rewrite split_word; [rewrite IH; reflexivity|exact Hne|exact Hx|].
    destruct ms; [left; reflexivity|right; exists c_space; eexists; split; reflexivity]. }
  destruct Hj as [E|[s' E]]; rewrite E in *; rewrite <- Hs; reflexivity.
Qed.
