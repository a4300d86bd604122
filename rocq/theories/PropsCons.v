(** C99: what is logged, and what a terminal shows of it. *)
From Coq Require Import List NArith ZArith Bool Arith Lia.
From Verif Require Import FnModel FnFacts HelpModel ConsModel ConsSpec.
Import ListNotations.
Open Scope nat_scope.

Lemma max_app l d : fold_right Nat.max 0 (l ++ [d]) = Nat.max (fold_right Nat.max 0 l) d.
Proof. induction l as [|x l IH]; simpl; [lia|]. rewrite IH. lia. Qed.
Definition writes (c : settings) (l : log) (ms : list message) : log := fold_left (write c) ms l.
Lemma writes_maxlen c ms : forall l, l_maxlen (writes c l ms) = l_maxlen l.
Proof. induction ms as [|m ms IH]; intros l; [reflexivity|]. cbn. unfold writes in IH. rewrite IH. reflexivity. Qed.
(** Only the messages count, and maxlen is the width. *)
Lemma calls_messages c : forall ks l before, l_maxlen l = width before ->
  exists w, do_calls c l ks = Log (l_file (writes c l (messages c before ks))) (l_term (writes c l (messages c before ks))) w.
Proof.
  assert (forall ms l w, l_file (writes c (Log (l_file l) (l_term l) w) ms) = l_file (writes c l ms) /\ l_term (writes c (Log (l_file l) (l_term l) w) ms) = l_term (writes c l ms)) as irr.
  { induction ms as [|m ms IH]; intros l w; [split; reflexivity|]. exact (IH (write c l m) w). }
  induction ks as [|k ks IH]; intros l before Hw.
  - exists (l_maxlen l). destruct l. reflexivity.
  - assert (exists b l', do_call c l k = l' /\ l_maxlen l' = width b /\ exists pre, messages c before (k :: ks) = pre ++ messages c b ks /\
        l_file l' = l_file (writes c l pre) /\ l_term l' = l_term (writes c l pre)) as (b & l' & E & Hl & pre & Em & Ef & Et).
    { destruct k as [msg color v|thread msg result color v|[msg|]|[msg|]];
        try (eexists before, _; split; [reflexivity|]; split; [exact Hw|]; eexists [_; _]; split; [reflexivity|]; split; reflexivity).
      set (m := label c thread msg). assert ((if show_threads c then ljust thread 10 ++ [58; 32]%N ++ msg else msg) = m) as Em by reflexivity.
      assert ((if l_maxlen l <=? length m then Nat.min (length m + 1) 40 else l_maxlen l) = width (before ++ [length m])) as Eb.
      { rewrite Hw. unfold width. rewrite max_app. destruct (Nat.leb_spec (Nat.max 25 (Nat.min 40 (S (fold_right Nat.max 0 before)))) (length m)); lia. }
      exists (before ++ [length m]). cbn [do_call]. rewrite Em. cbv zeta. rewrite Eb. eexists. split; [reflexivity|].
      split; [destruct result; reflexivity|].
      destruct result as [r|].
      - exists [Message (column (width (before ++ [length m])) m ++ [58; 32]%N) None v; Message r color v; Message nl None v]. split; [reflexivity|].
        split; reflexivity.
      - exists [Message (column (width (before ++ [length m])) m ++ [58; 32]%N) color v; Message nl None (v + 1)]. split; [reflexivity|].
        split; reflexivity. }
    cbn [do_calls fold_left]. unfold do_calls in IH. rewrite E. destruct (IH l' b Hl) as [w ->]. exists w. rewrite Em.
    unfold writes at 3 4. rewrite fold_left_app. fold (writes c l pre). fold (writes c (writes c l pre) (messages c b ks)).
    assert (l' = Log (l_file (writes c l pre)) (l_term (writes c l pre)) (l_maxlen l')) as -> by (destruct l'; simpl in *; congruence).
    destruct (irr (messages c b ks) (writes c l pre) (l_maxlen l')) as [-> ->]. reflexivity.
Qed.

Lemma writes_file c ms : has_file c = true -> forall l, l_file (writes c l ms) = l_file l ++ concat (map m_text ms).
Proof.
  intros Hf. induction ms as [|m ms IH]; intros l; cbn; [rewrite app_nil_r; reflexivity|]. unfold writes in IH. rewrite IH. unfold write.
  cbn. rewrite Hf, app_assoc. reflexivity.
Qed.
(** The file of the log has the texts of all messages, however verbose, in their order. *)
Definition C99_file_claim : Prop :=
  forall c ks, l_file (do_calls c new_log ks) = if has_file c then concat (map m_text (messages c [] ks)) else [].
Theorem C99_file : C99_file_claim.
Proof.
  intros c ks. destruct (calls_messages c ks new_log [] eq_refl) as [w ->]. cbn [l_file]. destruct (has_file c) eqn:E.
  - rewrite writes_file by exact E. reflexivity.
  - assert (forall ms l, l_file (writes c l ms) = l_file l) as ->; [|reflexivity].
    induction ms as [|m ms IH]; intros l; [reflexivity|]. cbn. unfold writes in IH. rewrite IH. unfold write. rewrite E. reflexivity.
Qed.

Lemma screen_text a s t : ~ In 27%N s -> screen Text a (s ++ t) = (map (fun x => (x, a)) s ++ fst (screen Text a t), snd (screen Text a t)).
Proof.
  induction s as [|c s IH]; intros H; cbn [app map].
  - destruct (screen Text a t); reflexivity.
  - cbn [screen]. destruct (N.eqb_spec c 27) as [->|Hc]; [destruct H; left; reflexivity|]. rewrite IH by (intros K; apply H; right; exact K). reflexivity.
Qed.
Lemma names_dec name n : names name n -> code_of color_codes name = Some n.
Proof. intros []; reflexivity. Qed.
Lemma dec_names name n : code_of color_codes name = Some n -> names name n.
Proof.
  unfold color_codes. cbn [code_of].
  repeat (match goal with |- context [str_eqb ?w name] => let E := fresh in destruct (str_eqb w name) eqn:E;
    [apply str_eqb_eq in E; subst name; intros [= <-]; constructor|clear E] end). discriminate.
Qed.
Lemma colored_looks s color t : ~ In 27%N s -> exists a, looks color a /\
  screen Text plain (colored s color ++ t) = (map (fun x => (x, a)) s ++ fst (screen Text plain t), snd (screen Text plain t)).
Proof.
  intros Hs. unfold colored. destruct color as [name|]; [|exists plain; split; [reflexivity|apply screen_text; exact Hs]].
  destruct (code_of color_codes name) as [n|] eqn:E.
  - pose proof (dec_names _ _ E) as Hn. exists (Look true (Some n)). split; [left; exists n; split; [exact Hn|reflexivity]|].
    rewrite <- !app_assoc.
    assert (forall r, screen Text plain ([27; 91; 48; 49; 59]%N ++ two_digits n ++ [109]%N ++ r) = screen Text (Look true (Some n)) r) as -> by (intros r; destruct Hn; reflexivity).
    rewrite screen_text by exact Hs. reflexivity.
  - exists plain. split; [|apply screen_text; exact Hs]. right. split; [|reflexivity]. intros n Hn. apply names_dec in Hn. congruence.
Qed.
(** Writing appends to what is on the terminal. *)
Lemma writes_term c ms : exists t, forall l, l_term (writes c l ms) = l_term l ++ t.
Proof.
  induction ms as [|m ms [t IH]]; [exists []; intros l; rewrite app_nil_r; reflexivity|].
  destruct (m_verbose m <=? verbose c)%Z eqn:V.
  - exists (colored (m_text m) (if nocolor c then None else m_color m) ++ t). intros l. cbn. unfold writes in IH. rewrite IH.
    unfold write. rewrite V. cbn. rewrite app_assoc. reflexivity.
  - exists t. intros l. cbn. unfold writes in IH. rewrite IH. unfold write. rewrite V. reflexivity.
Qed.
Lemma writes_shown c ms : (forall m, In m ms -> no_escape m) -> forall l, l_term l = [] -> exists r, shown c ms r /\ screen Text plain (l_term (writes c l ms)) = (r, plain).
Proof.
  induction ms as [|m ms IH]; intros H l Hl.
  - exists []. split; [constructor|]. cbn. rewrite Hl. reflexivity.
  - destruct (IH (fun x Hx => H x (or_intror Hx)) (Log [] [] 0) eq_refl) as (r & Hr & E). destruct (writes_term c ms) as [t Ht]. rewrite Ht in E. cbn in E.
    unfold writes in Ht |- *. cbn [fold_left]. rewrite Ht. unfold write. cbn [l_term]. rewrite Hl. cbn [app].
    destruct (Z.leb_spec (m_verbose m) (verbose c)) as [V|V].
    + destruct (colored_looks (m_text m) (if nocolor c then None else m_color m) t (H m (or_introl eq_refl))) as (a & Ha & K).
      rewrite K, E. exists (map (fun x => (x, a)) (m_text m) ++ r). split; [apply s_yes; assumption|reflexivity].
    + exists r. split; [apply s_no; assumption|exact E].
Qed.
(** A terminal shows the messages that are not too verbose, each in its color, bold, or plain if it has none or is not to
    have any; and it is left as it was. *)
Definition C99_screen_claim : Prop :=
  forall c ks, (forall m, In m (messages c [] ks) -> no_escape m) ->
  exists r, shown c (messages c [] ks) r /\ screen Text plain (l_term (do_calls c new_log ks)) = (r, plain).
Theorem C99_screen : C99_screen_claim.
Proof.
  intros c ks H. destruct (calls_messages c ks new_log [] eq_refl) as [w ->]. cbn [l_term]. apply writes_shown; [exact H|reflexivity].
Qed.
(** What is shown is determined. *)
Lemma looks_unique color a b : looks color a -> looks color b -> a = b.
Proof.
  destruct color as [name|]; simpl; [|congruence].
  intros [(n & Hn & ->)|[Hn ->]] [(n' & Hn' & ->)|[Hn' ->]]; try reflexivity; [|destruct (Hn' _ Hn)|destruct (Hn _ Hn')].
  apply names_dec in Hn, Hn'. congruence.
Qed.
Definition C99_shown_claim : Prop := forall c ms r r', shown c ms r -> shown c ms r' -> r = r'.
Theorem C99_shown : C99_shown_claim.
Proof.
  intros c ms r r' H. revert r'. induction H as [|m ms a r V L S IH|m ms r V S IH]; intros r' H'; inversion H' as [|m' ms' a' r1 V' L' S' E1 E2|m' ms' r1 V' S' E1 E2]; subst; try lia; try reflexivity.
  - rewrite (looks_unique _ _ _ L L'), (IH _ S'). reflexivity.
  - apply IH. assumption.
Qed.
(** Without colors the terminal gets the bare texts, whatever is in them. *)
Definition C99_plain_claim : Prop :=
  forall c ks, nocolor c = true ->
  l_term (do_calls c new_log ks) = concat (map m_text (filter (fun m => (m_verbose m <=? verbose c)%Z) (messages c [] ks))).
Theorem C99_plain : C99_plain_claim.
Proof.
  intros c ks Hn. destruct (calls_messages c ks new_log [] eq_refl) as [w ->]. cbn [l_term]. generalize (messages c [] ks). intros ms.
  assert (forall l, l_term (writes c l ms) = l_term l ++ concat (map m_text (filter (fun m => (m_verbose m <=? verbose c)%Z) ms))) as ->; [|reflexivity].
  induction ms as [|m ms IH]; intros l; cbn; [rewrite app_nil_r; reflexivity|]. unfold writes in IH. rewrite IH. unfold write. rewrite Hn.
  destruct (m_verbose m <=? verbose c)%Z; cbn; [rewrite app_assoc|]; reflexivity.
Qed.
(** If no label is longer than 24, the results of checks are in one column; it never moves beyond the 40th. *)
Definition C99_column_claim : Prop :=
  (forall ds, Forall (fun d => d <= 24) ds -> width ds = 25) /\ (forall ds, 25 <= width ds <= 40) /\
  (forall ds ds', width ds <= width (ds ++ ds')) /\
  (forall c ks, l_maxlen (do_calls c new_log ks) = width (flat_map (fun k => match k with CCheck t m _ _ _ => [length (label c t m)] | _ => [] end) ks)).
Lemma max_le l : fold_right Nat.max 0 l <= 24 <-> Forall (fun d => d <= 24) l.
Proof. induction l as [|x l IH]; simpl; [split; [constructor|lia]|]. rewrite Forall_cons_iff, <- IH. lia. Qed.
Theorem C99_column : C99_column_claim.
Proof.
  split; [|split; [|split]].
  - intros ds H. apply max_le in H. unfold width. lia.
  - intros ds. unfold width. lia.
  - intros ds ds'. unfold width. assert (fold_right Nat.max 0 ds <= fold_right Nat.max 0 (ds ++ ds')); [|lia].
    induction ds as [|x ds IH]; simpl; lia.
  - intros c ks. assert (forall l before, l_maxlen l = width before -> l_maxlen (do_calls c l ks) = width (before ++ flat_map (fun k => match k with CCheck t m _ _ _ => [length (label c t m)] | _ => [] end) ks)) as K;
      [|apply (K new_log []); reflexivity].
    induction ks as [|k ks IH]; intros l before H; cbn [flat_map]; [rewrite app_nil_r; exact H|].
    rewrite app_assoc. unfold do_calls in *. cbn [fold_left]. apply IH.
    destruct k as [msg color v|thread msg result color v|[msg|]|[msg|]]; try (rewrite app_nil_r; exact H).
    cbn [do_call]. change (if show_threads c then ljust thread 10 ++ [58; 32]%N ++ msg else msg) with (label c thread msg). cbv zeta.
    transitivity (if l_maxlen l <=? length (label c thread msg) then Nat.min (length (label c thread msg) + 1) 40 else l_maxlen l); [destruct result; reflexivity|].
    rewrite H. unfold width. rewrite max_app.
    destruct (Nat.leb_spec (Nat.max 25 (Nat.min 40 (S (fold_right Nat.max 0 before)))) (length (label c thread msg))); lia.
Qed.

Definition usual : settings := Settings 0 false false true.
(** FALSE: without verbose calls the terminal shows what is in the file.  The file has a line more for every check whose result
    comes later. *)
Definition C99_same_claim : Prop :=
  forall c ks, has_file c = true -> verbose c = 0%Z -> nocolor c = true ->
  Forall (fun k => match k with CLog _ _ v => v = 0%Z | CCheck _ _ _ _ v => v = 0%Z | _ => True end) ks ->
  l_term (do_calls c new_log ks) = l_file (do_calls c new_log ks).
Theorem C99_same_refuted : ~ C99_same_claim.
Proof.
  intros H. specialize (H (Settings 0 true false true) [CCheck [] [65%N] None None 0; CPassed None] eq_refl eq_refl eq_refl).
  assert (Forall (fun k => match k with CLog _ _ v => v = 0%Z | CCheck _ _ _ _ v => v = 0%Z | _ => True end) [CCheck [] [65%N] None None 0; CPassed None]) as F by (repeat constructor).
  specialize (H F). vm_compute in H. discriminate.
Qed.
(** FALSE: the results of all checks are in one column. *)
Definition C99_aligned_claim : Prop :=
  forall c m m' r r', show_threads c = false -> exists w, map m_text (messages c [] [CCheck [] m (Some r) None 0; CCheck [] m' (Some r') None 0]) =
  [column w m ++ [58; 32]%N; r; nl; column w m' ++ [58; 32]%N; r'; nl] /\ length (column w m) = length (column w m').
Theorem C99_aligned_refuted : ~ C99_aligned_claim.
Proof.
  intros H. destruct (H usual [65%N] (repeat 66%N 30) [67%N] [68%N] eq_refl) as (w & E & L). injection E as E1 E2.
  apply (f_equal (@length chr)) in E1, E2. rewrite !app_length in *. unfold chr in *. unfold column in *. rewrite !app_length, !repeat_length in *. simpl in *. lia.
Qed.
(** FALSE: texts with escape characters leave the terminal as it was too. *)
Definition C99_escape_claim : Prop := forall c ks, snd (screen Text plain (l_term (do_calls c new_log ks))) = plain.
Theorem C99_escape_refuted : ~ C99_escape_claim.
Proof.
  intros H. specialize (H usual [CLog [27; 91; 51; 49; 109]%N None 0%Z]). vm_compute in H. discriminate.
Qed.

Definition ex_calls : list call := [CCheck [] [97; 98]%N (Some [99]%N) (Some w_compile) 0; CCheck [] [100]%N None None 0; CPassed None; CLog [101]%N (Some [120]%N) 1].
Example C99_example :
  (forall m, In m (messages usual [] ex_calls) -> no_escape m) /\
  l_file (do_calls usual new_log ex_calls) = column 25 [97; 98]%N ++ [58; 32; 99; 10]%N ++ column 25 [100]%N ++ [58; 32; 10; 111; 107; 10; 101; 10]%N /\
  screen Text plain (l_term (do_calls usual new_log ex_calls)) =
    (map (fun x => (x, plain)) (column 25 [97; 98]%N ++ [58; 32]%N) ++ [(99%N, Look true (Some 32%N)); (10%N, plain)] ++
     map (fun x => (x, plain)) (column 25 [100]%N ++ [58; 32]%N) ++ [(111%N, Look true (Some 32%N)); (107%N, Look true (Some 32%N)); (10%N, plain)], plain) /\
  l_maxlen (do_calls usual new_log [CCheck [] (repeat 66%N 30) None None 0]) = 31.
Proof.
  split; [|vm_compute; repeat split; reflexivity].
  assert (forallb (fun m => negb (existsb (N.eqb 27) (m_text m))) (messages usual [] ex_calls) = true) as K by (vm_compute; reflexivity).
  rewrite forallb_forall in K. intros m Hm. specialize (K m Hm). unfold no_escape. intros Hi. apply negb_true_iff in K.
  assert (existsb (N.eqb 27) (m_text m) = true); [apply existsb_exists; exists 27%N; split; [exact Hi|reflexivity]|congruence].
Qed.

Print Assumptions C99_file.
Print Assumptions C99_screen.
Print Assumptions C99_shown.
Print Assumptions C99_plain.
Print Assumptions C99_column.
Print Assumptions C99_same_refuted.
Print Assumptions C99_aligned_refuted.
Print Assumptions C99_escape_refuted.
