(** C80: how Guesser chooses a builder. *)
From Coq Require Import String.
From stdpp Require Import base list gmap.
From Coq Require Import NArith Lia.
From Verif Require Import FnModel PlatModel PlatSpec PlatFacts GuessModel GuessFacts GuessSpec.
Local Open Scope nat_scope.

(** ** Which compiler a program is *)
Lemma named_fun x k k' : named x k -> named x k' -> k = k'.
Proof.
  intros H H'. inversion H as [y Hy|y Hy|y Hy|y Hy]; subst; inversion H' as [y Hy'|y Hy'|y Hy'|y Hy']; subst; try done; exfalso;
    rewrite ?elem_of_cons, ?elem_of_nil in Hy; rewrite ?elem_of_cons, ?elem_of_nil in Hy';
    repeat (destruct Hy as [->|Hy]; [repeat (destruct Hy' as [Hy'|Hy']; [vm_compute in Hy'; discriminate|]); done|]); done.
Qed.
Lemma writes_version_fun out o o' : writes_version out o -> writes_version out o' -> o = o'.
Proof. intros H H'. inversion H; subst; inversion H'; subst; done. Qed.
Lemma identified_fun version bare x o o' : identified version bare x o -> identified version bare x o' -> o = o'.
Proof.
  intros H H'.
  inversion H as [k Hk|out err ? Hn Hv Hw|out err Hn Hv Hb Hm|out err Hn Hv Hb Hm1 Hm2|Hn Hv Hb]; subst;
    inversion H' as [k' Hk'|out' err' ? Hn' Hv' Hw'|out' err' Hn' Hv' Hb' Hm'|out' err' Hn' Hv' Hb' Hm1' Hm2'|Hn' Hv' Hb']; subst;
    try (by destruct (Hn' _ Hk)); try (by destruct (Hn _ Hk')); try congruence.
  - f_equal. by eapply named_fun.
  - rewrite Hv in Hv'. injection Hv' as <- <-. by eapply writes_version_fun.
  - rewrite Hb in Hb'. injection Hb' as <- <-. naive_solver.
  - rewrite Hb in Hb'. injection Hb' as <- <-. naive_solver.
Qed.
(** A program is identified exactly so; otherwise running it raised something else than ExecutionError. *)
Theorem C80_identified version bare x :
  match identify_compiler version bare x with
  | Some o => forall o', identified version bare x o' <-> o' = o
  | None => version x = RRaise \/ version x = RFail /\ bare x = RRaise
  end.
Proof.
  destruct (identify_compiler version bare x) as [o|] eqn:E.
  - apply identify_ok in E. intros o'. split; [intros H; by eapply identified_fun|by intros ->].
  - unfold identify_compiler in E. repeat (case_match; try done); auto.
Qed.

(** ** The choice *)
Section Choice.
  Context {E B : Type} `{EqDecision E}.
  Context (in_str : E -> list E -> option bool) (configure : list (call E * made B) -> call E -> made B).
  Context (version bare : str -> ran) (here : option (list str)) (g : guesser) (static shared : option (kwargs E)).
  Context (platform : option platform_arg) (popts : list (list str * list (str * value E))) (exe : option str).
  Context (kw : kwargs E) (h : heap E).
  Notation res := (guess in_str configure version bare here g static shared platform popts exe kw h).

  (** The names that the model's list holds. *)
  Lemma go_ok p q kinds :
    (forall x, x ∈ q <-> available p (g_compilers g) kinds x) ->
    let '(h', log, o) := search in_str configure (g_compilers g) q exe popts kw static shared (g_functions g) h [] in
    heap_ok popts kw h static shared h' /\
    chooses (call_ok in_str (g_compilers g) exe popts kw h static shared (available p (g_compilers g) kinds))
      (available p (g_compilers g) kinds) static shared (g_functions g) log o.
  Proof.
    intros Hq. destruct (search _ _ _ _ _ _ _ _ _ _ _ _) as [[h' log] o] eqn:Es.
    eapply (search_ok in_str configure (g_compilers g) q exe popts kw h static shared (available p (g_compilers g) kinds) Hq) in Es.
    - destruct Es as (Hh & t & -> & Hc). split; [done|]. exact Hc.
    - split_and!; [lia|done|]. intros _. apply agrees_refl.
  Qed.
  Lemma available_all p c x : x ∈ p ++ c <-> available p c None x.
  Proof. unfold available. rewrite elem_of_app. tauto. Qed.
  Lemma available_some p c k x : x ∈ p ++ filter (fun y => y ∈ c) k <-> available p c (Some k) x.
  Proof. unfold available. rewrite elem_of_app, elem_of_list_filter. tauto. Qed.

  (** The entries are tried in order, as [chooses] says. *)
  Theorem C80_chooses p kinds : starts version bare here platform exe p kinds ->
    chooses (call_ok in_str (g_compilers g) exe popts kw h static shared (available p (g_compilers g) kinds))
      (available p (g_compilers g) kinds) static shared (g_functions g) (a_log res) (a_outcome res).
  Proof.
    intros [Hp Hx]. unfold guess.
    assert ((match platform with Some (Frozen p) | Some (Mutable p) => Some p | None => here end) = Some p) as ->
      by (destruct platform as [[q|q]|]; by subst).
    pose proof (go_ok p) as Hgo. destruct exe as [x|].
    - destruct Hx as (k & -> & Hk). pose proof (C80_identified version bare x) as Hi.
      destruct (identify_compiler version bare x) as [o|] eqn:Ei.
      + apply Hi in Hk as <-. pose proof (Hgo _ (Some k) (available_some p (g_compilers g) k)) as Hg.
        destruct (search _ _ _ _ _ _ _ _ _ _ _ _) as [[h' log] o]. by destruct Hg.
      + exfalso. inversion Hk as [? Hn|? ? ? ? Hv|? ? ? Hv Hb| |]; subst; [|intuition congruence|intuition congruence].
        clear -Hn Ei. unfold identify_compiler in Ei.
        inversion Hn as [y Hy|y Hy|y Hy|y Hy]; subst; rewrite ?elem_of_cons, ?elem_of_nil in Hy;
          repeat (destruct Hy as [->|Hy]; [vm_compute in Ei; discriminate|]); done.
    - subst kinds. pose proof (Hgo _ None (available_all p (g_compilers g))) as Hg.
      destruct (search _ _ _ _ _ _ _ _ _ _ _ _) as [[h' log] o]. by destruct Hg.
  Qed.

  (** Nothing is tried if the platform is not known, or the program not identified. *)
  Theorem C80_not_started :
    (platform = None -> here = None -> a_log res = [] /\ a_outcome res = NoBuilder) /\
    (forall x, exe = Some x -> identified version bare x None -> a_log res = [] /\
       (a_outcome res = NoBuilder \/ a_outcome res = NameErr)).
  Proof.
    split.
    - intros -> ->. done.
    - intros x -> Hi. unfold guess. destruct (match platform with Some (Frozen p) | Some (Mutable p) => Some p | None => here end); [|by auto].
      pose proof (C80_identified version bare x) as H0. destruct (identify_compiler version bare x) as [o|].
      + apply H0 in Hi as <-. auto.
      + inversion Hi as [|? ? ? ? Hv|? ? ? Hv Hb|? ? ? Hv Hb|? Hv Hb]; subst; intuition congruence.
  Qed.

  (** A list that is no option's value keeps its content; if the lists are in order, all do. *)
  Theorem C80_lists l : l < length h ->
    (forall k m, (k, m) ∈ all_options popts -> ref m <> Some l) \/ orderly h kw static shared popts ->
    a_heap res !! l = h !! l.
  Proof.
    intros Hl Hor. unfold guess.
    assert (forall q, a_heap (let '(h', log, o) := search in_str configure (g_compilers g) q exe popts kw static shared (g_functions g) h [] in
      After h' log (union_in platform q) o) !! l = h !! l) as Hgo.
    { intros q. destruct (search _ _ _ _ _ _ _ _ _ _ _ _) as [[h' log] o] eqn:Es.
      eapply (search_ok in_str configure (g_compilers g) q exe popts kw h static shared (fun x => x ∈ q)) in Es; [|done|].
      - destruct Es as ((_ & H2 & H3) & _). cbn. destruct Hor as [Hor|Hor]; [by apply H2|]. by apply (H3 Hor).
      - split_and!; [lia|done|]. intros _. apply agrees_refl. }
    destruct (match platform with Some (Frozen p) | Some (Mutable p) => Some p | None => here end); [|done].
    destruct exe; [|apply Hgo]. destruct (identify_compiler _ _ _) as [[?|]|]; [apply Hgo|done|done].
  Qed.

  Lemma keeps_platform q plat :
    a_platform (let '(h', log, o) := search in_str configure (g_compilers g) q exe popts kw static shared (g_functions g) h [] in
      After h' log plat o) = plat.
  Proof. by destruct (search _ _ _ _ _ _ _ _ _ _ _ _) as [[h' log] o]. Qed.
  (** A frozenset stays what it is; a set gets the compilers' names added. *)
  Theorem C80_platform :
    match platform with
    | Some (Mutable p) => a_platform res = platform \/
        exists q kinds, a_platform res = Some (Mutable q) /\ starts version bare here platform exe p kinds /\
          forall x, x ∈ q <-> available p (g_compilers g) kinds x
    | _ => a_platform res = platform
    end.
  Proof.
    pose proof keeps_platform as Hk. unfold guess. destruct platform as [[p|p]|]; [| |destruct here as [p|]; [|done]].
    - destruct exe as [x|]; [destruct (identify_compiler version bare x) as [[k|]|]; try done|]; rewrite Hk; done.
    - destruct exe as [x|].
      + pose proof (C80_identified version bare x) as Hi. destruct (identify_compiler version bare x) as [[k|]|]; [|by left|by left].
        right. exists (p ++ filter (fun c => c ∈ g_compilers g) k), (Some k). split_and!.
        * by rewrite Hk.
        * split; [done|]. exists k. split; [done|]. by apply Hi.
        * intros y. apply available_some.
      + right. exists (p ++ g_compilers g), None. split_and!; [by rewrite Hk|by split|]. intros y. apply available_all.
    - destruct exe as [x|]; [destruct (identify_compiler version bare x) as [[k|]|]; try done|]; rewrite Hk; done.
  Qed.
End Choice.

(** ** In plainer words *)
Section Plain.
  Context {E B : Type} (ok : entry -> str * kwargs E -> call E -> Prop) (holds : str -> Prop) (static shared : option (kwargs E)).
  (** The builders come from one entry, everything asked for of it; of every usable entry before it something
      asked for was tried and failed. *)
  Theorem C80_first (es : list entry) (t : list (call E * made B)) s d :
    chooses ok holds static shared es t (Found s d) ->
    exists es1 e es2 t1 t2, es = es1 ++ e :: es2 /\ t = t1 ++ t2 /\ usable holds (e_sub e) /\
      (exists bs, all_built ok e (wanted static shared e) t2 bs /\ returned static shared bs s d) /\
      forall e', e' ∈ es1 -> usable holds (e_sub e') ->
        exists w c, w ∈ wanted static shared e' /\ ok e' w c /\ (c, Refused) ∈ t1.
  Proof.
    remember (Found s d) as o eqn:Eo. induction 1 as [|e es t o Hn Hc IH|e es t t' o Hu Hr Hc IH|e es t bs s' d' Hu Hb Hret|e es t Hu Hb]; try done.
    - destruct (IH Eo) as (es1 & e0 & es2 & t1 & t2 & -> & -> & Hu & Hb & Hall). exists (e :: es1), e0, es2, t1, t2. split_and!; try done.
      intros e' He' Hu'. apply elem_of_cons in He' as [->|He']; [done|]. by apply Hall.
    - destruct (IH Eo) as (es1 & e0 & es2 & t1 & t2 & -> & -> & Hu0 & Hb & Hall). exists (e :: es1), e0, es2, (t ++ t1), t2.
      split_and!; try done; [by rewrite app_assoc|]. intros e' He' Hu'. apply elem_of_cons in He' as [->|He'].
      + clear -Hr. induction Hr as [w ws c Hok|w ws c b t Hok Hr IH].
        * exists w, c. split_and!; [by left|done|by left].
        * destruct IH as (w' & c' & H1 & H2 & H3). exists w', c'. split_and!; [by right|done|]. by right.
      + destruct (Hall e' He' Hu') as (w & c & H1 & H2 & H3). exists w, c. split_and!; try done. apply elem_of_app. by right.
    - injection Eo as -> ->. exists [], e, es, [], t. split_and!; try done; [by exists bs|]. intros e' He'. by apply elem_of_nil in He'.
  Qed.
  (** If there is none, something failed of every usable entry. *)
  Theorem C80_none (es : list entry) (t : list (call E * made B)) :
    chooses ok holds static shared es t NoBuilder ->
    forall e, e ∈ es -> usable holds (e_sub e) -> exists w c, w ∈ wanted static shared e /\ ok e w c /\ (c, Refused) ∈ t.
  Proof.
    remember NoBuilder as o eqn:Eo. induction 1 as [|e es t o Hn Hc IH|e es t t' o Hu Hr Hc IH|e es t bs s' d' Hu Hb Hret|e es t Hu Hb]; try done;
      intros e' He' Hu'; [by apply elem_of_nil in He'| |].
    - apply elem_of_cons in He' as [->|He']; [done|]. by apply IH.
    - apply elem_of_cons in He' as [->|He'].
      + clear -Hr. induction Hr as [w ws c Hok|w ws c b t Hok Hr IH].
        * exists w, c. split_and!; [by left|done|by left].
        * destruct IH as (w' & c' & H1 & H2 & H3). exists w', c'. split_and!; [by right|done|]. by right.
      + destruct (IH Eo e' He' Hu') as (w & c & H1 & H2 & H3). exists w, c. split_and!; try done. apply elem_of_app. by right.
  Qed.
  (** Every call is one asked for of a usable entry. *)
  Theorem C80_calls (es : list entry) (t : list (call E * made B)) o :
    chooses ok holds static shared es t o ->
    forall c m, (c, m) ∈ t -> exists e w, e ∈ es /\ usable holds (e_sub e) /\ w ∈ wanted static shared e /\ ok e w c.
  Proof.
    assert (forall e ws t (c : call E) (m : made B), refused ok e ws t -> (c, m) ∈ t -> exists w, w ∈ ws /\ ok e w c) as Hr.
    { induction 1 as [w ws c0 Hok|w ws c0 b t0 Hok Hr IH]; intros Hin; apply elem_of_cons in Hin as [[= -> ->]|Hin].
      - exists w. by split; [left|]. - by apply elem_of_nil in Hin. - exists w. by split; [left|].
      - destruct (IH Hin) as (w' & H1 & H2). exists w'. by split; [right|]. }
    assert (forall e ws t (c : call E) (m : made B), broken ok e ws t -> (c, m) ∈ t -> exists w, w ∈ ws /\ ok e w c) as Hbr.
    { induction 1 as [w ws|w ws c0 Hok|w ws c0 b t0 Hok Hr' IH]; intros Hin; [by apply elem_of_nil in Hin| |];
        apply elem_of_cons in Hin as [[= -> ->]|Hin].
      - exists w. by split; [left|]. - by apply elem_of_nil in Hin. - exists w. by split; [left|].
      - destruct (IH Hin) as (w' & H1 & H2). exists w'. by split; [right|]. }
    assert (forall e ws t bs (c : call E) (m : made B), all_built ok e ws t bs -> (c, m) ∈ t -> exists w, w ∈ ws /\ ok e w c) as Hab.
    { induction 1 as [|w ws c0 b t0 bs Hok Hr' IH]; intros Hin; [by apply elem_of_nil in Hin|].
      apply elem_of_cons in Hin as [[= -> ->]|Hin]; [exists w; by split; [left|]|].
      destruct (IH Hin) as (w' & H1 & H2). exists w'. by split; [right|]. }
    induction 1 as [|e es t o Hn Hc IH|e es t t' o Hu Hr' Hc IH|e es t bs s' d' Hu Hb Hret|e es t Hu Hb]; intros c m Hin.
    - by apply elem_of_nil in Hin.
    - destruct (IH _ _ Hin) as (e' & w & H1 & H2). exists e', w. split; [by right|done].
    - apply elem_of_app in Hin as [Hin|Hin].
      + destruct (Hr _ _ _ _ _ Hr' Hin) as (w & H1 & H2). exists e, w. split_and!; try done. by left.
      + destruct (IH _ _ Hin) as (e' & w & H1 & H2). exists e', w. split; [by right|done].
    - destruct (Hab _ _ _ _ _ _ Hb Hin) as (w & H1 & H2). exists e, w. split_and!; try done. by left.
    - destruct (Hbr _ _ _ _ _ Hb Hin) as (w & H1 & H2). exists e, w. split_and!; try done. by left.
  Qed.
End Plain.

(** If the platform names no compiler, a program that is given is only used as what it was identified as. *)
Theorem C80_exe {E B : Type} `{EqDecision E} in_str (configure : list (call E * made B) -> call E -> made B)
  version bare here g static shared platform popts x kw h p k :
  starts version bare here platform (Some x) p (Some k) -> (forall c, c ∈ g_compilers g -> c ∉ p) ->
  forall c m, (c, m) ∈ a_log (guess in_str configure version bare here g static shared platform popts (Some x) kw h) ->
  c_exe c = Some x /\ exists e, e ∈ g_functions g /\ c_fun c ∈ [e_static e; e_shared e] /\
    forall n, n ∈ e_sub e -> n ∈ g_compilers g -> n ∈ k.
Proof.
  intros Hs Hno c m Hin. pose proof (C80_chooses in_str configure version bare here g static shared platform popts (Some x) kw h p (Some k) Hs) as Hc.
  destruct (C80_calls _ _ _ _ _ _ _ Hc c m Hin) as (e & w & He & Hu & Hw & Hok & Hx & _). split; [done|]. exists e. split_and!; [done| |].
  - rewrite Hok. unfold wanted in Hw. destruct static, shared; cbn in Hw; rewrite ?elem_of_cons, ?elem_of_nil in Hw; set_solver.
  - intros n Hn Hg. destruct (Hu n Hn) as [Hp|[_ Hk]]; [by destruct (Hno n Hg)|done].
Qed.

(** guess.static and guess.shared call functions of that sort only, and answer with such a builder. *)
Theorem C80_one_sort {E B : Type} `{EqDecision E} in_str (configure : list (call E * made B) -> call E -> made B)
  version bare here g args platform popts exe kw h p kinds :
  starts version bare here platform exe p kinds ->
  let r := guess_static in_str configure version bare here g (Some args) platform popts exe kw h in
  let r' := guess_shared in_str configure version bare here g (Some args) platform popts exe kw h in
  (forall c m, (c, m) ∈ a_log r -> exists e, e ∈ g_functions g /\ c_fun c = e_static e) /\
  (forall s d, a_outcome r = Found s d -> exists c b, s = Some b /\ d = None /\ last (a_log r) = Some (c, Built b)) /\
  (forall c m, (c, m) ∈ a_log r' -> exists e, e ∈ g_functions g /\ c_fun c = e_shared e) /\
  (forall s d, a_outcome r' = Found s d -> exists c b, s = None /\ d = Some b /\ last (a_log r') = Some (c, Built b)).
Proof.
  intros Hs r r'.
  pose proof (C80_chooses in_str configure version bare here g (Some args) None platform popts exe kw h p kinds Hs) as Hc.
  pose proof (C80_chooses in_str configure version bare here g None (Some args) platform popts exe kw h p kinds Hs) as Hc'.
  fold (guess_static in_str configure version bare here g (Some args) platform popts exe kw h) in Hc. fold r in Hc.
  fold (guess_shared in_str configure version bare here g (Some args) platform popts exe kw h) in Hc'. fold r' in Hc'.
  split_and!.
  - intros c m Hin. destruct (C80_calls _ _ _ _ _ _ _ Hc c m Hin) as (e & w & He & _ & Hw & Hok & _). exists e. split; [done|].
    cbn in Hw. apply elem_of_list_singleton in Hw as ->. done.
  - intros s d Ho. rewrite Ho in Hc. destruct (C80_first _ _ _ _ _ _ _ _ Hc) as (es1 & e & es2 & t1 & t2 & _ & Et & _ & (bs & Hb & Hr) & _).
    cbn in Hb. inversion Hb as [|? ? c b ? ? _ Hb']; subst. inversion Hb'; subst. destruct Hr as (R1 & R2 & R3).
    pose proof (proj1 R2 eq_refl) as ->. destruct s as [b'|]; [|by destruct (proj2 R1 eq_refl)]. cbn in R3. injection R3 as ->.
    exists c, b. split_and!; try done. by rewrite Et, last_snoc.
  - intros c m Hin. destruct (C80_calls _ _ _ _ _ _ _ Hc' c m Hin) as (e & w & He & _ & Hw & Hok & _). exists e. split; [done|].
    cbn in Hw. apply elem_of_list_singleton in Hw as ->. done.
  - intros s d Ho. rewrite Ho in Hc'. destruct (C80_first _ _ _ _ _ _ _ _ Hc') as (es1 & e & es2 & t1 & t2 & _ & Et & _ & (bs & Hb & Hr) & _).
    cbn in Hb. inversion Hb as [|? ? c b ? ? _ Hb']; subst. inversion Hb'; subst. destruct Hr as (R1 & R2 & R3).
    pose proof (proj1 R1 eq_refl) as ->. destruct d as [b'|]; [|by destruct (proj2 R2 eq_refl)]. cbn in R3. injection R3 as ->.
    exists c, b. split_and!; try done. by rewrite Et, last_snoc.
Qed.

(** ** The tables *)
(** Every entry names one compiler, and none stands behind an entry that asks for no more than it. *)
Definition one_compiler (g : guesser) : Prop :=
  forall e, e ∈ g_functions g -> exists c, c ∈ e_sub e /\ c ∈ g_compilers g /\ forall c', c' ∈ e_sub e -> c' ∈ g_compilers g -> c' = c.
Definition none_hidden (g : guesser) : Prop :=
  forall l1 e l2 e' l3, g_functions g = l1 ++ e :: l2 ++ e' :: l3 -> exists x, x ∈ e_sub e /\ x ∉ e_sub e'.
Definition one_ok (g : guesser) : bool :=
  forallb (fun e => existsb (fun c => in_set (e_sub e) c && in_set (g_compilers g) c &&
    forallb (fun c' => negb (in_set (g_compilers g) c') || str_eqb c' c) (e_sub e)) (e_sub e)) (g_functions g).
Fixpoint hidden_ok (l : list entry) : bool :=
  match l with
  | [] => true
  | e :: l' => forallb (fun e' => existsb (fun x => negb (in_set (e_sub e') x)) (e_sub e)) l' && hidden_ok l'
  end.
Lemma in_set_iff p x : in_set p x = true <-> x ∈ p.
Proof. apply bool_decide_eq_true. Qed.
Lemma one_ok_true g : one_ok g = true -> one_compiler g.
Proof.
  unfold one_ok. rewrite forallb_forall. intros H0 e He. apply elem_of_list_In, H0, existsb_exists in He as (c & Hc & H1).
  apply andb_true_iff in H1 as [[H1%in_set_iff H2%in_set_iff]%andb_true_iff H3]. exists c. split_and!; try done.
  intros c' Hc' Hg. rewrite forallb_forall in H3. apply elem_of_list_In, H3, orb_true_iff in Hc' as [Hc'|Hc'%str_eqb_iff]; [|done].
  apply negb_true_iff in Hc'. apply in_set_iff in Hg. congruence.
Qed.
Lemma hidden_ok_true l : hidden_ok l = true -> forall l1 e l2 e' l3, l = l1 ++ e :: l2 ++ e' :: l3 -> exists x, x ∈ e_sub e /\ x ∉ e_sub e'.
Proof.
  intros Hl l1. revert l Hl. induction l1 as [|e0 l1 IH]; intros l Hl e l2 e' l3 ->; cbn in Hl; apply andb_true_iff in Hl as [Hl Hl'].
  - rewrite forallb_forall in Hl. destruct (proj1 (existsb_exists _ _) (Hl e' ltac:(apply in_elt))) as (x & Hx & Hn).
    exists x. split; [by apply elem_of_list_In|]. intros Hin%in_set_iff. rewrite Hin in Hn. done.
  - by eapply IH.
Qed.
Theorem C80_tables : one_compiler c_guess /\ one_compiler cxx_guess /\ none_hidden c_guess /\ none_hidden cxx_guess.
Proof.
  split_and!; [apply one_ok_true; vm_compute; done|apply one_ok_true; vm_compute; done| |];
    unfold none_hidden; apply hidden_ok_true; vm_compute; done.
Qed.
(** The shared builder is made by another function than the static one. *)
Definition C80_shared_claim : Prop := forall g e, g = c_guess \/ g = cxx_guess -> e ∈ g_functions g -> e_shared e <> e_static e.
(** Not for g++: the entry names the static function twice. *)
Theorem C80_shared_refuted : ~ C80_shared_claim.
Proof.
  intros H. apply (H cxx_guess (Entry [tx "g++"] (tx "fbuild.builders.cxx.gxx.static") (tx "fbuild.builders.cxx.gxx.static")));
    [by right| |done]. apply elem_of_list_In. vm_compute. tauto.
Qed.
Theorem C80_shared_partial g e : g = c_guess \/ g = cxx_guess -> e ∈ g_functions g -> e_sub e <> [tx "g++"] -> e_shared e <> e_static e.
Proof.
  intros [-> | ->] He Hn; apply elem_of_list_In in He; cbn [g_functions c_guess cxx_guess In] in He;
    repeat (destruct He as [<-|He]; [try (by destruct Hn); vm_compute; discriminate|]); done.
Qed.

(** The functions of an entry are those of its module for static and for shared builders: their paths
    are the same but for that word, which follows a dot. *)
Definition same_module (e : entry) : Prop := exists m t, e_static e = m ++ tx ".static" ++ t /\ e_shared e = m ++ tx ".shared" ++ t.
Theorem C80_functions g e : g = c_guess \/ g = cxx_guess -> e ∈ g_functions g -> e_sub e <> [tx "g++"] -> same_module e.
Proof.
  assert (forall e, (exists n, let m := take n (e_static e) in let t := drop (n + 7) (e_static e) in
    e_static e = m ++ tx ".static" ++ t /\ e_shared e = m ++ tx ".shared" ++ t) -> same_module e) as Hn.
  { intros e' (n & H). eexists _, _. exact H. }
  intros [-> | ->] He Hx; apply elem_of_list_In in He; cbn [g_functions c_guess cxx_guess In] in He;
    repeat (destruct He as [<-|He]; [try (by destruct Hx); apply Hn;
      match goal with |- exists n, let m := take n (e_static (Entry _ ?a _)) in _ =>
        let k := eval vm_compute in (length a) in first
        [ exists (k - 7); split; vm_compute; reflexivity | exists (k - 17); split; vm_compute; reflexivity ] end|]); done.
Qed.

(** ** Instances, and what does not hold *)
Definition linux : list str := [tx "posix"; tx "linux"].
(** The functions that make a builder; all others raise ConfigFailed. *)
Definition works (fs : list str) : list (call str * made nat) -> call str -> made nat :=
  fun log c => if in_set fs (c_fun c) then Built (length log) else Refused.
Definition no_str (x : str) (s : list str) : option bool := None.
Definition no_run (x : str) : ran := RFail.
Definition gcc_works := works [tx "fbuild.builders.c.gcc.static"; tx "fbuild.builders.c.gcc.shared"].
Definition calls {E B : Type} (a : after E B) : list str := (fun c => c_fun (fst c)) <$> a_log a.

(** clang is tried first and fails; gcc is taken. *)
Example C80_example :
  starts no_run no_run (Some linux) None None linux None /\
  let r := guess no_str gcc_works no_run no_run (Some linux) c_guess (Some ∅) (Some ∅) None [] None ∅ [] in
  a_outcome r = Found (Some 1) (Some 2) /\
  calls r = [tx "fbuild.builders.c.clang.static"; tx "fbuild.builders.c.gcc.static"; tx "fbuild.builders.c.gcc.shared"].
Proof. split; [by split|]. vm_compute. done. Qed.
Lemma no_compilers p cs : forallb (fun c => negb (in_set p c)) cs = true -> forall c, c ∈ cs -> c ∉ p.
Proof. rewrite forallb_forall. intros H c Hc%elem_of_list_In%H Hp%in_set_iff. by rewrite Hp in Hc. Qed.
(** A program whose version says that it is clang. *)
Example C80_exe_example :
  let version := fun _ => Ran (tx "Debian clang version 14.0.6") [] in
  starts version no_run (Some linux) (Some (Frozen linux)) (Some (tx "/opt/cc")) linux (Some [tx "clang"; tx "clang++"]) /\
  (forall c, c ∈ g_compilers c_guess -> c ∉ linux) /\
  let r := guess no_str gcc_works version no_run (Some linux) c_guess (Some ∅) None (Some (Frozen linux)) [] (Some (tx "/opt/cc")) ∅ [] in
  a_outcome r = NoBuilder /\ calls r = [tx "fbuild.builders.c.clang.static"].
Proof.
  cbn zeta. split; [split; [done|]|split].
  - exists [tx "clang"; tx "clang++"]. split; [done|].
    pose proof (C80_identified (fun _ => Ran (tx "Debian clang version 14.0.6") []) no_run (tx "/opt/cc")) as H.
    change (identify_compiler (fun _ => Ran (tx "Debian clang version 14.0.6") []) no_run (tx "/opt/cc")) with (Some (Some clang_kinds)) in H.
    by apply H.
  - apply no_compilers. vm_compute. done.
  - vm_compute. done.
Qed.
(** Options for posix and for one compiler. *)
Definition ex_popts : list (list str * list (str * value str)) :=
  [([tx "posix"], [(tx "libs", VTuple [tx "m"])]); ([tx "gcc"], [(tx "flags+", VList 0)]); ([tx "clang"], [(tx "flags+", VList 1)])].
Definition ex_kw : kwargs str := {[ tx "flags" := VList 2 ]}.
Definition ex_heap : heap str := [[tx "-pipe"]; [tx "-Weverything"]; [tx "-g"]].
Example C80_arguments_example :
  orderly ex_heap ex_kw (Some ∅) None ex_popts /\
  let r := guess no_str gcc_works no_run no_run (Some linux) c_guess (Some ∅) None None ex_popts None ex_kw ex_heap in
  (fun c => (c_fun (fst c), den_kw (c_heap (fst c)) (c_kw (fst c)) (tx "flags"))) <$> a_log r =
    [(tx "fbuild.builders.c.clang.static", Some (PSeq KList [tx "-g"; tx "-Weverything"]));
     (tx "fbuild.builders.c.gcc.static", Some (PSeq KList [tx "-g"; tx "-pipe"]))].
Proof.
  split; [|vm_compute; done]. split_and!.
  - split.
    + intros k v l Hk Hr. unfold ex_kw in Hk. apply lookup_singleton_Some in Hk as [<- <-]. injection Hr as <-. cbn. lia.
    + intros k k' v v' l Hk Hk' _ _. unfold ex_kw in Hk, Hk'. apply lookup_singleton_Some in Hk as [<- _].
      by apply lookup_singleton_Some in Hk' as [<- _].
  - intros a [[= <-]|]; [|done]. split; intros ?; intros; by rewrite lookup_empty in *.
  - split_and!.
    + intros k v l Hin Hr. unfold all_options in Hin. cbn in Hin. rewrite !elem_of_cons, elem_of_nil in Hin.
      repeat (destruct Hin as [[= -> ->]|Hin]; [try done; injection Hr as <-; cbn; lia|]). done.
    + apply (bool_decide_unpack _). vm_compute. exact I.
    + intros k m l Hin Hin'. unfold all_options in Hin, Hin'. cbn in Hin, Hin'. rewrite !elem_of_cons, elem_of_nil in Hin, Hin'.
      assert (k = tx "flags") as ->.
      { destruct Hin as [Hin|[Hin|[Hin|Hin]]]; [| | |done]; injection Hin as Hin _.
        - by apply (app_inj_tail k (tx "lib")) in Hin as [_ ?].
        - by apply (app_inj_tail k (tx "flags")) in Hin as [-> _].
        - by apply (app_inj_tail k (tx "flags")) in Hin as [-> _]. }
      destruct Hin' as [Hin'|[Hin'|[Hin'|Hin']]]; done.
Qed.

(** The caller's platform is left as it was. *)
Definition C80_platform_claim : Prop :=
  forall (configure : list (call str * made nat) -> call str -> made nat) version bare here g static shared platform popts exe kw h,
    a_platform (guess no_str configure version bare here g static shared platform popts exe kw h) = platform.
(** A set that is given gets the compilers' names. *)
Theorem C80_platform_refuted : ~ C80_platform_claim.
Proof.
  intros H. specialize (H gcc_works no_run no_run None c_guess (Some ∅) None (Some (Mutable linux)) [] None ∅ []). vm_compute in H. discriminate.
Qed.
(** With a set used before: gcc, given as the program, is used as clang. *)
Definition used_set : option platform_arg :=
  a_platform (guess no_str gcc_works no_run no_run None c_guess (Some ∅) None (Some (Mutable linux)) [] None ∅ []).
Definition C80_exe_claim : Prop :=
  forall (configure : list (call str * made nat) -> call str -> made nat) version bare here g static shared platform popts x kw h k,
    identified version bare x (Some k) ->
    forall c m, (c, m) ∈ a_log (guess no_str configure version bare here g static shared platform popts (Some x) kw h) ->
    exists e, e ∈ g_functions g /\ c_fun c ∈ [e_static e; e_shared e] /\ forall n, n ∈ e_sub e -> n ∈ g_compilers g -> n ∈ k.
Theorem C80_exe_refuted : ~ C80_exe_claim.
Proof.
  intros H.
  assert (identified no_run no_run (tx "gcc") (Some [tx "gcc"; tx "g++"])) as Hi by (repeat constructor).
  destruct (a_log (guess no_str gcc_works no_run no_run None c_guess (Some ∅) None used_set [] (Some (tx "gcc")) ∅ [])) as [|[c m] t] eqn:El;
    [vm_compute in El; discriminate|].
  specialize (H gcc_works no_run no_run None c_guess (Some ∅) None used_set [] (tx "gcc") ∅ [] _ Hi c m).
  rewrite El in H. destruct (H ltac:(by left)) as (e & He & Hf & Hn).
  assert (c_fun c = tx "fbuild.builders.c.clang.static") as Ec by (vm_compute in El; injection El as <- _ _; vm_compute; done).
  rewrite Ec in Hf. clear -He Hf Hn. apply elem_of_list_In in He. cbn [g_functions c_guess In] in He.
  repeat (destruct He as [<-|He]; [|]); [..|done].
  all: rewrite !elem_of_cons, elem_of_nil in Hf; cbn [e_static e_shared] in Hf;
    try (by destruct Hf as [Hf|[Hf|[]]]; vm_compute in Hf; discriminate).
  specialize (Hn (tx "clang") ltac:(by left) ltac:(apply in_set_iff; vm_compute; done)).
  rewrite !elem_of_cons, elem_of_nil in Hn. destruct Hn as [Hn|[Hn|[]]]; vm_compute in Hn; discriminate.
Qed.
(** ... and the options for a C compiler are used for a C++ compiler. *)
Example C80_languages :
  let popts := [([tx "clang"], [(tx "flags", VTuple [tx "-Weverything"])])] in
  let go := fun p => guess no_str (works [tx "fbuild.builders.cxx.gxx.static"]) no_run no_run None cxx_guess (Some ∅) None p popts None ∅ [] in
  (fun c => (c_fun (fst c), den_kw (c_heap (fst c)) (c_kw (fst c)) (tx "flags"))) <$> a_log (go used_set) =
    [(tx "fbuild.builders.cxx.clangxx.static", Some (PSeq KTuple [tx "-Weverything"]));
     (tx "fbuild.builders.cxx.gxx.static", Some (PSeq KTuple [tx "-Weverything"]))] /\
  (fun c => (c_fun (fst c), den_kw (c_heap (fst c)) (c_kw (fst c)) (tx "flags"))) <$> a_log (go (Some (Mutable linux))) =
    [(tx "fbuild.builders.cxx.clangxx.static", None); (tx "fbuild.builders.cxx.gxx.static", None)].
Proof. vm_compute. done. Qed.

(** If nothing else than ConfigFailed is raised by what it uses, then nothing else by it. *)
Definition C80_fails_claim : Prop :=
  forall (configure : list (call str * made nat) -> call str -> made nat) version bare here g static shared platform popts exe kw h,
    (forall log c, configure log c <> Broke) -> (forall x, version x <> RRaise) -> (forall x, bare x <> RRaise) -> popts = [] -> kw = ∅ ->
    (static = None \/ static = Some ∅) -> (shared = None \/ shared = Some ∅) ->
    let o := a_outcome (guess no_str configure version bare here g static shared platform popts exe kw h) in
    o = NoBuilder \/ exists s d, o = Found s d.
(** A program that cannot be identified raises NameError: the message uses a name that does not exist. *)
Theorem C80_fails_refuted : ~ C80_fails_claim.
Proof.
  intros H.
  destruct (H (works []) no_run no_run (Some linux) c_guess (Some ∅) (Some ∅) None [] (Some (tx "tcc")) ∅ []) as [H0|(s & d & H0)];
    try done; try (by right); try (vm_compute in H0; discriminate).
Qed.
(** Without such a program, it holds. *)
Theorem C80_fails_partial (configure : list (call str * made nat) -> call str -> made nat) version bare here g static shared platform exe h :
  (forall log c, configure log c <> Broke) -> (forall x, version x <> RRaise) -> (forall x, bare x <> RRaise) ->
  (forall x, exe = Some x -> ~ identified version bare x None) ->
  (static = None \/ static = Some ∅) -> (shared = None \/ shared = Some ∅) ->
  let o := a_outcome (guess no_str configure version bare here g static shared platform [] exe ∅ h) in
  o = NoBuilder \/ exists s d, o = Found s d.
Proof.
  intros Hc Hv Hb Hx Hs Hd.
  assert (forall q sub fn a h log, (a = None \/ a = Some (∅ : kwargs str)) ->
    snd (try_builder no_str configure (g_compilers g) q exe [] ∅ sub fn a h log) <> TBroke) as Ht.
  { intros q sub fn a h' log [-> | ->]; [done|]. cbn. rewrite fmap_empty, (left_id_L ∅ (∪)), fmap_empty. cbn.
    specialize (Hc log (Call fn exe q ((h' ++ h') ++ h' ++ h') ∅)). by destruct (configure _ _). }
  assert (forall q fs h log, let o := snd (search no_str configure (g_compilers g) q exe [] ∅ static shared fs h log) in
    o = NoBuilder \/ exists s d, o = Found s d) as Hse.
  { intros q fs. induction fs as [|e fs IH]; intros h' log; cbn [search]; [by left|].
    destruct (subset (e_sub e) q); [|apply IH].
    pose proof (Ht q (e_sub e) (e_static e) static h' log Hs) as H1.
    destruct (try_builder _ _ _ _ _ _ _ _ _ _ _ _) as [[h1 log1] [s| |]]; [|apply IH|done].
    pose proof (Ht q (e_sub e) (e_shared e) shared h1 log1 Hd) as H2.
    destruct (try_builder _ _ _ _ _ _ _ _ _ _ _ _) as [[h2 log2] [d| |]]; [|apply IH|done]. right. by eexists _, _. }
  cbn zeta. unfold guess. destruct (match platform with Some (Frozen p) | Some (Mutable p) => Some p | None => here end) as [p|]; [|by left].
  destruct exe as [x|].
  - pose proof (C80_identified version bare x) as Hi. destruct (identify_compiler version bare x) as [[k|]|].
    + specialize (Hse (p ++ filter (fun c => c ∈ g_compilers g) k) (g_functions g) h []).
      by destruct (search _ _ _ _ _ _ _ _ _ _ _ _) as [[h' log] o].
    + exfalso. apply (Hx x); [done|]. by apply Hi.
    + exfalso. destruct Hi as [Hi|[_ Hi]]; [by apply (Hv x)|by apply (Hb x)].
  - specialize (Hse (p ++ g_compilers g) (g_functions g) h []). by destruct (search _ _ _ _ _ _ _ _ _ _ _ _) as [[h' log] o].
Qed.
Example C80_fails_example :
  (forall log c, gcc_works log c <> Broke) /\ ~ identified (fun _ => Ran (tx "cc (Free Software Foundation)") []) no_run (tx "cc") None.
Proof.
  split; [intros log c; unfold gcc_works, works; by case_match|].
  intros Hi. pose proof (C80_identified (fun _ => Ran (tx "cc (Free Software Foundation)") []) no_run (tx "cc")) as H.
  change (identify_compiler (fun _ => Ran (tx "cc (Free Software Foundation)") []) no_run (tx "cc")) with (Some (Some gcc_kinds)) in H.
  by apply H in Hi.
Qed.

(** The arguments are as they should be, whatever the lists. *)
Definition C80_arguments_claim : Prop :=
  forall (configure : list (call str * made nat) -> call str -> made nat) version bare here g static shared platform popts exe kw h p kinds,
    starts version bare here platform exe p kinds ->
    forall c m, (c, m) ∈ a_log (guess no_str configure version bare here g static shared platform popts exe kw h) ->
    exists e w, e ∈ g_functions g /\ w ∈ wanted static shared e /\ c_fun c = fst w /\
      argued no_str h kw (snd w) popts (seen (available p (g_compilers g) kinds) (g_compilers g) (e_sub e)) (den_kw (c_heap c) (c_kw c)).
(** An option that gives a list, and options that add to it: what was added for clang, which then failed, is
    passed to gcc. *)
Definition leak_popts : list (list str * list (str * value str)) :=
  [([tx "posix"], [(tx "flags", VList 0)]); ([tx "clang"], [(tx "flags+", VTuple [tx "-Weverything"])])].
Example C80_leak :
  let r := guess no_str gcc_works no_run no_run (Some linux) c_guess (Some ∅) None None leak_popts None ∅ [[tx "-g"]] in
  (fun c => (c_fun (fst c), den_kw (c_heap (fst c)) (c_kw (fst c)) (tx "flags"))) <$> a_log r =
    [(tx "fbuild.builders.c.clang.static", Some (PSeq KList [tx "-g"; tx "-Weverything"]));
     (tx "fbuild.builders.c.gcc.static", Some (PSeq KList [tx "-g"; tx "-Weverything"]))].
Proof. vm_compute. done. Qed.
Theorem C80_arguments_refuted : ~ C80_arguments_claim.
Proof.
  intros H.
  destruct (a_log (guess no_str gcc_works no_run no_run (Some linux) c_guess (Some ∅) None None leak_popts None ∅ [[tx "-g"]])) as [|[c0 m0] [|[c m] t]] eqn:El;
    [vm_compute in El; discriminate|vm_compute in El; discriminate|].
  specialize (H gcc_works no_run no_run (Some linux) c_guess (Some ∅) None None leak_popts None ∅ [[tx "-g"]] linux None ltac:(by split) c m).
  rewrite El in H. destruct (H ltac:(right; by left)) as (e & w & He & Hw & Hf & q & sel & sopts & Hq & Hsel & Hr & Hef).
  assert (c_fun c = tx "fbuild.builders.c.gcc.static" /\ den_kw (c_heap c) (c_kw c) (tx "flags") = Some (PSeq KList [tx "-g"; tx "-Weverything"])) as [Ec Ed]
    by (vm_compute in El; injection El as _ _ <- _ _; vm_compute; done).
  cbn in Hw. apply elem_of_list_singleton in Hw as ->. cbn [fst snd] in Hf. rewrite Ec in Hf.
  assert (e_sub e = [tx "gcc"]) as Es.
  { clear -He Hf. apply elem_of_list_In in He. cbn [g_functions c_guess In] in He.
    repeat (destruct He as [<-|He]; [try done; vm_compute in Hf; discriminate|]). done. }
  rewrite Es in Hq.
  assert (tx "clang" ∉ q) as Hn1.
  { intros Hin%Hq. destruct Hin as [[_ Hin]|Hin].
    - apply Hin, in_set_iff. vm_compute. done.
    - apply elem_of_list_singleton in Hin. vm_compute in Hin. discriminate. }
  assert (tx "posix" ∈ q) as Hn2.
  { apply Hq. left. split; [left; by left|]. intros Hin%in_set_iff. vm_compute in Hin. discriminate. }
  assert (sel = [(tx "flags", VList 0)]) as ->.
  { unfold leak_popts in Hsel. inversion Hsel as [|? ? ? r1 Hm1 Hs1|? ? ? r1 Hm1 Hs1]; subst.
    - inversion Hs1 as [|? ? ? r2 Hm2 Hs2|? ? ? r2 Hm2 Hs2]; subst.
      + destruct Hn1. apply Hm2; [by left|]. intros y. vm_compute. discriminate.
      + inversion Hs2; subst. done.
    - destruct Hm1. split.
      + intros y Hy _. apply elem_of_list_singleton in Hy as ->. done.
      + intros y Hy. apply elem_of_list_singleton in Hy. vm_compute in Hy. discriminate. }
  inversion Hr as [|? [k a] ? sopts' Hr0 Hr1]; subst. inversion Hr1; subst. cbn [fst snd] in Hr0.
  assert (k = tx "flags" /\ a = PlatSpec.ASet (PSeq KList [tx "-g"])) as [-> ->].
  { eapply (reads_fun (E := str)); [exact Hr0|]. apply (reads_set (tx "flag") 115%N); discriminate. }
  inversion Hef as [|? ? ? v ? ? He1 Hs']; subst. inversion Hs' as [? ? Hg|]; subst. inversion He1; subst.
  specialize (Hg (tx "flags")). rewrite Ed, decide_True in Hg by done. vm_compute in Hg. discriminate.
Qed.

Print Assumptions C80_identified.
Print Assumptions C80_chooses.
Print Assumptions C80_not_started.
Print Assumptions C80_lists.
Print Assumptions C80_platform.
Print Assumptions C80_first.
Print Assumptions C80_none.
Print Assumptions C80_calls.
Print Assumptions C80_exe.
Print Assumptions C80_one_sort.
Print Assumptions C80_tables.
Print Assumptions C80_functions.
Print Assumptions C80_shared_refuted.
Print Assumptions C80_shared_partial.
Print Assumptions C80_platform_refuted.
Print Assumptions C80_exe_refuted.
Print Assumptions C80_fails_refuted.
Print Assumptions C80_fails_partial.
Print Assumptions C80_arguments_refuted.
