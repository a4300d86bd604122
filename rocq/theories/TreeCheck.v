(** A decision procedure for [tree_ok], for the examples. *)
From Coq Require Import List NArith Bool Arith Lia.
From Verif Require Import FnModel PathModel PathSpec PathFacts GlobModel GlobSpec.
Import ListNotations.

Definition name_okb (x : str) : bool :=
  negb (str_eqb x []) && negb (existsb (N.eqb c_sep) x) && negb (existsb (N.eqb c_nl) x) &&
  negb (str_eqb x str_dot) && negb (str_eqb x str_dotdot).
Fixpoint distinctb (l : list str) : bool :=
  match l with [] => true | x :: l' => negb (existsb (str_eqb x) l') && distinctb l' end.
Fixpoint tree_okb (n : node) : bool :=
  match n with
  | NFile => true
  | NDir es =>
      distinctb (map fst es) &&
      (fix all (es : list (str * node)) : bool :=
         match es with [] => true | e :: es' => name_okb (fst e) && tree_okb (snd e) && all es' end) es
  end.

Lemma name_okb_sound x : name_okb x = true ->
  x <> [] /\ ~ In c_sep x /\ ~ In c_nl x /\ x <> str_dot /\ x <> str_dotdot.
Proof.
  unfold name_okb. rewrite !andb_true_iff, !negb_true_iff. intros [[[[H1 H2] H3] H4] H5].
  assert (forall c, existsb (N.eqb c) x = false -> ~ In c x) as Hn.
  { intros c E Hi. assert (existsb (N.eqb c) x = true) as E'; [|congruence].
    apply existsb_exists. exists c. split; [exact Hi|apply N.eqb_refl]. }
  repeat split; auto using str_eqb_false.
Qed.
Lemma distinctb_sound l : distinctb l = true -> NoDup l.
Proof.
  induction l as [|x l IH]; [constructor|]. cbn. rewrite andb_true_iff, negb_true_iff. intros [H1 H2].
  constructor; [|exact (IH H2)]. intros Hi. assert (existsb (str_eqb x) l = true) as E; [|congruence].
  apply existsb_exists. exists x. split; [exact Hi|apply str_eqb_refl].
Qed.
Lemma tree_okb_sound : forall n, tree_okb n = true -> tree_ok n.
Proof.
  fix IH 1. intros [|es] H; [constructor|]. cbn [tree_okb] in H. apply andb_true_iff in H. destruct H as [Hd Ha].
  constructor; [exact (distinctb_sound _ Hd)|]. clear Hd. revert Ha. induction es as [|[y m] es IHes]; [intros _ x n []|].
  cbn [fst snd]. rewrite !andb_true_iff. intros [[H1 H2] H3] x n [H|H]; [|exact (IHes H3 x n H)].
  injection H as <- <-. destruct (name_okb_sound y H1) as (A & B & C & D & F). repeat split; try assumption. exact (IH m H2).
Qed.
Lemma world_check w es : tree_okb (w_root w) = true -> node_at (w_root w) (w_cwd w) = Some (NDir es) -> world_ok w.
Proof.
  intros H1 H2. pose proof (tree_okb_sound _ H1) as Ht. split; [exact Ht|]. exists es.
  destruct w as [r cwd]. cbn [w_root w_cwd] in *. clear H1. revert es r H2 Ht.
  assert (forall loc r n, tree_ok r -> node_at r loc = Some n -> leads r loc n) as Hl; [|intros; auto].
  assert (forall loc r es x n, leads r loc (NDir es) -> In (x, n) es -> leads r (loc ++ [x]) n) as Hs
    by (intros; econstructor; eassumption).
  assert (forall r x es n, r = NDir es -> In (x, n) es -> forall loc m, leads n loc m -> leads r (x :: loc) m) as Hc.
  { intros r x es n -> Hi loc m Hm. induction Hm as [|loc es' y m' _ IHm Hy].
    - apply (leads_snoc (NDir es) [] es x n); [constructor|exact Hi].
    - change (x :: loc ++ [y]) with ((x :: loc) ++ [y]). exact (leads_snoc _ _ _ _ _ IHm Hy). }
  induction loc as [|x loc IHl]; intros r n Hr E; [injection E as <-; constructor|]. cbn in E. destruct r as [|es]; [discriminate|].
  destruct (entry es x) as [m|] eqn:Ex; [|discriminate]. inversion Hr as [|es' Hd He]; subst.
  assert (In (x, m) es) as Hi.
  { unfold entry in Ex. destruct (find (fun e => str_eqb (fst e) x) es) as [[y m']|] eqn:Ef; [|discriminate].
    apply find_some in Ef. destruct Ef as [Hi Ef]. apply str_eqb_true in Ef. injection Ex as ->. cbn in Ef. subst y. exact Hi. }
  destruct (He x m Hi) as (_ & _ & _ & _ & _ & Hm). exact (Hc _ x es m eq_refl Hi loc n (IHl m n Hm E)).
Qed.
