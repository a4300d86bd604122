(** C50: values returned by the cache, and what callers do with them. *)
From Coq Require Import List Bool Arith Lia.
From Verif Require Import AliasModel.
Import ListNotations.

(** ** Facts *)
Section TreeInd.
  Variable P : tree -> Prop.
  Hypothesis H1 : forall n, P (Atom n).
  Hypothesis H2 : forall l, Forall P l -> P (Node l).
  Fixpoint tree_rect' (t : tree) : P t :=
    match t with
    | Atom n => H1 n
    | Node l => H2 l ((fix go l : Forall P l := match l with [] => Forall_nil P | x :: l' => Forall_cons x (tree_rect' x) (go l') end) l)
    end.
End TreeInd.
Lemma tree_eqb_eq : forall t u, tree_eqb t u = true -> t = u.
Proof.
  induction t as [n|l IH] using tree_rect'; intros [m|k] H; try discriminate; cbn in H.
  - apply Nat.eqb_eq in H. congruence.
  - f_equal. revert k H. induction IH as [|x l Hx _ IH]; intros [|y k] H; try discriminate; [reflexivity|].
    apply andb_prop in H as [Ha Hb]. rewrite (Hx _ Ha), (IH _ Hb). reflexivity.
Qed.
Lemma trees_eqb_eq l : forall k, trees_eqb l k = true -> l = k.
Proof.
  induction l as [|x l IH]; intros [|y k] H; try discriminate; [reflexivity|]. cbn in H. apply andb_prop in H as [Ha Hb].
  rewrite (tree_eqb_eq _ _ Ha), (IH _ Hb). reflexivity.
Qed.

(** Address [a] can be reached from the value. *)
Inductive reaches (h : nat -> list value) (a : nat) : value -> Prop :=
  | reach_here : reaches h a (VRef a)
  | reach_in b v : In v (h b) -> reaches h a v -> reaches h a (VRef b).

Lemma content_write d : forall h a c v, ~ reaches h a v -> content d (write h a c) v = content d h v.
Proof.
  induction d as [|d IH]; intros h a c [n|b] Hr; cbn; try reflexivity.
  unfold write at 2. destruct (Nat.eqb_spec b a) as [->|Hne]; [destruct Hr; constructor|].
  replace (map (content d (write h a c)) (h b)) with (map (content d h) (h b)); [reflexivity|].
  apply map_ext_in. intros v Hv. symmetry. apply IH. intros H. apply Hr. eapply reach_in; eauto.
Qed.
Lemma contents_write d h a c l : (forall v, In v l -> ~ reaches h a v) -> contents d (write h a c) l = contents d h l.
Proof. intros H. unfold contents. f_equal. apply map_ext_in. intros v Hv. apply content_write, H, Hv. Qed.

Lemma find_found d h args l : forall i j r, find d h args i l = Found j r ->
  i <= j /\ exists args', nth_error l (j - i) = Some (args', r) /\ contents d h args' = contents d h args.
Proof.
  induction l as [|[args' r'] l IH]; intros i j r H; cbn in H; [discriminate|].
  destruct (contents d h args) as [x|] eqn:Ex; [|discriminate]. destruct (contents d h args') as [y|] eqn:Ey; [|discriminate].
  destruct (trees_eqb x y) eqn:Ee.
  - injection H as <- <-. split; [lia|]. exists args'. rewrite Nat.sub_diag. split; [reflexivity|]. rewrite Ey. f_equal. symmetry. apply trees_eqb_eq, Ee.
  - destruct (IH (S i) j r H) as (Hle & a' & Hn & Hc). split; [lia|]. exists a'. replace (j - i) with (S (j - S i)) by lia. auto.
Qed.
Lemma replace_in {A} (x y : A) l : forall i, In y (replace i x l) -> y = x \/ In y l.
Proof.
  induction l as [|z l IH]; intros [|i] H; cbn in *; auto.
  - destruct H as [<-|H]; auto.
  - destruct H as [<-|H]; auto. destruct (IH i H); auto.
Qed.

(** ** The claim *)

(** Every hit returns, as it is now, what a run of the function that was given the same
    arguments had returned. *)
Definition served (s : db) : Prop := forall f args r, In (f, args, r) (d_hits s) -> In (f, args, r) (d_runs s).
Definition C50_claim : Prop := forall d l, served (after d l).

(** A caller appends to the list it was given; the next hit returns the longer list. *)
Theorem C50_refuted : ~ C50_claim.
Proof.
  intros H. pose proof (H 5 [ECall 0 [VAtom 1] false; EReturn (VRef 0); EWrite 0 [VAtom 7]; ECall 0 [VAtom 1] false]
    0 (Some [Atom 1]) (Some (Node [Atom 7]))) as E. cbn in E. destruct E as [E|[]]; [left; reflexivity|discriminate E].
Qed.
(** A caller changes a list it had passed as an argument; a call with the changed list is
    then answered with the result for the original one. *)
Theorem C50_argument_refuted : ~ C50_claim.
Proof.
  intros H. pose proof (H 5 [ECall 0 [VRef 0] false; EReturn (VAtom 3); EWrite 0 [VAtom 7]; ECall 0 [VRef 0] false]
    0 (Some [Node [Atom 7]]) (Some (Atom 3))) as E. cbn in E. destruct E as [E|[]]; [left; reflexivity|discriminate E].
Qed.

(** ** When it holds *)

(** [f] is shared with address [a]: it can be reached from an argument or result of a recorded or
    running call of [f]. *)
Definition shared (s : db) (f a : nat) : Prop :=
  (exists args r v, In (args, r) (d_calls s f) /\ (v = r \/ In v args) /\ reaches (d_heap s) a v) \/
  (exists args i b v, In (f, args, i, b) (d_pending s) /\ In v args /\ reaches (d_heap s) a v).
(** No event modifies an object shared with a call of [f]. *)
Fixpoint respected (d f : nat) (s : db) (l : list event) : Prop :=
  match l with
  | [] => True
  | e :: l' => match e with EWrite a _ => ~ shared s f a | _ => True end /\ respected d f (step d s e) l'
  end.

Record good (d f : nat) (s : db) : Prop := {
  g_calls : forall args r, In (args, r) (d_calls s f) -> In (f, contents d (d_heap s) args, content d (d_heap s) r) (d_runs s);
  g_pending : forall args i b, In (f, args, i, b) (d_pending s) -> b = contents d (d_heap s) args;
  g_hits : forall args r, In (f, args, r) (d_hits s) -> In (f, args, r) (d_runs s);
}.
Lemma good_step d f s e : good d f s -> match e with EWrite a _ => ~ shared s f a | _ => True end -> good d f (step d s e).
Proof.
  intros [Hc Hp Hh] He. destruct s as [h c p rs hs]. cbn in *. destruct e as [a x|g args stale|r|].
  - constructor; cbn.
    + intros args r Hin. assert (forall v, In v args -> ~ reaches h a v) as Ha by (intros v Hv Hr; apply He; left; exists args, r, v; cbn; auto).
      assert (~ reaches h a r) as Hb by (intros Hr; apply He; left; exists args, r, r; cbn; auto).
      rewrite (contents_write d h a x args Ha), (content_write d h a x r Hb). exact (Hc _ _ Hin).
    + intros args i b Hin. rewrite (Hp _ _ _ Hin). symmetry. apply contents_write. intros v Hv Hr. apply He. right. exists args, i, b, v. cbn. auto.
    + exact Hh.
  - cbn. destruct (find d h args 0 (c g)) as [i r| |] eqn:Ef; [destruct stale| |]; constructor; cbn; auto.
    + intros args' i' b [[= -> -> <- <-]|H]; [reflexivity|eauto].
    + intros args' r' [H|H]; [|eauto]. inversion H; subst g args' r'. destruct (find_found _ _ _ _ _ _ _ Ef) as (_ & a' & Hn & E).
      apply nth_error_In in Hn. rewrite <- E. exact (Hc _ _ Hn).
    + intros args' i' b [[= -> -> <- <-]|H]; [reflexivity|eauto].
  - cbn. destruct p as [|[[[g args] i] b] p]; [constructor; auto|]. constructor; cbn.
    + intros args' r' Hin. unfold upd in Hin. destruct (Nat.eqb_spec f g) as [<-|Hne]; [|right; auto].
      assert ((args', r') = (args, r) \/ In (args', r') (c f)) as [E|E].
      { destruct i as [i|]; [apply replace_in in Hin; exact Hin|]. apply in_app_or in Hin as [Hin|[Hin|[]]]; auto. }
      * injection E as -> ->. left. rewrite (Hp args i b (or_introl eq_refl)). reflexivity.
      * right. auto.
    + intros args' i' b' H. eapply Hp. right. exact H.
    + auto.
  - constructor; cbn; auto. intros args i b H. apply (Hp args i b). destruct p; [destruct H|right; exact H].
Qed.
Lemma good_run d f l : forall s, good d f s -> respected d f s l -> good d f (fold_left (step d) l s).
Proof. induction l as [|e l IH]; intros s Hg Hr; [exact Hg|]. destruct Hr as [He Hr]. apply IH; [apply good_step; assumption|exact Hr]. Qed.
Lemma good_start d f : good d f start.
Proof. constructor; cbn; intros; contradiction. Qed.

Theorem C50_partial d l f : respected d f start l -> forall args r, In (f, args, r) (d_hits (after d l)) -> In (f, args, r) (d_runs (after d l)).
Proof. intros Hr. exact (g_hits _ _ _ (good_run d f l start (good_start d f) Hr)). Qed.

(** A function that is given and returns immutable values only (guess_platform, which returns
    a frozenset that Guesser.__call__ then extends by |=) is safe whatever is modified. *)
Definition immutable (v : value) : Prop := match v with VAtom _ => True | VRef _ => False end.
(** The events call [f] with, and let it return, immutable values only. *)
Fixpoint plain (d f : nat) (s : db) (l : list event) : Prop :=
  match l with
  | [] => True
  | e :: l' => match e with
               | ECall g args _ => g = f -> Forall immutable args
               | EReturn r => match d_pending s with (g, _, _, _) :: _ => g = f -> immutable r | [] => True end
               | _ => True
               end /\ plain d f (step d s e) l'
  end.
Lemma plain_respected d f l : forall s,
  (forall args r, In (args, r) (d_calls s f) -> Forall immutable args /\ immutable r) ->
  (forall args i b, In (f, args, i, b) (d_pending s) -> Forall immutable args) ->
  plain d f s l -> respected d f s l.
Proof.
  induction l as [|e l IH]; intros s Hc Hp Hl; [exact I|]. destruct Hl as [He Hl]. split.
  - destruct e; auto. intros [(args & r & v & Hin & Hv & Hr)|(args & i & b & v & Hin & Hv & Hr)].
    + destruct (Hc _ _ Hin) as [Ha Hb]. rewrite Forall_forall in Ha. assert (immutable v) as Hi by (destruct Hv as [->|Hv]; auto). destruct Hr; exact Hi.
    + specialize (Hp _ _ _ Hin). rewrite Forall_forall in Hp. specialize (Hp _ Hv). destruct Hr; exact Hp.
  - apply IH; [| |exact Hl]; clear IH Hl; destruct s as [h c p rs hs]; cbn in *.
    + destruct e as [a x|g args stale|r|]; cbn; auto.
      * destruct (find d h args 0 (c g)); [destruct stale| |]; auto.
      * destruct p as [|[[[g args] i] b] p]; [auto|]. cbn. unfold upd. intros args' r' Hin. destruct (Nat.eqb_spec f g) as [<-|Hne]; [|auto].
        assert ((args', r') = (args, r) \/ In (args', r') (c f)) as [E|E].
        { destruct i as [i|]; [apply replace_in in Hin; exact Hin|]. apply in_app_or in Hin as [Hin|[Hin|[]]]; auto. }
        -- injection E as -> ->. split; [apply (Hp args i b); left; reflexivity|cbn in He; apply He; reflexivity].
        -- auto.
    + destruct e as [a x|g args stale|r|]; cbn; auto.
      * destruct (find d h args 0 (c g)); [destruct stale| |]; cbn; auto.
        -- intros args' i' b' [H|H]; [inversion H; subst; apply He; reflexivity|eapply Hp; exact H].
        -- intros args' i' b' [H|H]; [inversion H; subst; apply He; reflexivity|eapply Hp; exact H].
      * destruct p as [|[[[g args] i] b] p]; [auto|]. cbn. intros args' i' b' H. eapply Hp. right. exact H.
      * intros args i b H. apply (Hp args i b). destruct p; [destruct H|right; exact H].
Qed.
Theorem C50_immutable d l f : plain d f start l -> forall args r, In (f, args, r) (d_hits (after d l)) -> In (f, args, r) (d_runs (after d l)).
Proof. intros Hl. apply C50_partial. apply plain_respected; [cbn; tauto|cbn; tauto|exact Hl]. Qed.

(** A history with a nested call, modification of the function's own objects before they are returned,
    a hit on a structure with two levels, and modification of an unrelated object. *)
Definition C50_ex_history : list event :=
  [EWrite 1 [VAtom 4]; ECall 0 [VRef 1] false; ECall 9 [] false; EWrite 2 [VAtom 5]; EReturn (VRef 2);
   EWrite 3 [VRef 1; VAtom 6]; EReturn (VRef 3); EWrite 2 []; EWrite 7 [VAtom 4]; ECall 0 [VRef 7] false].
Example C50_ex : d_hits (after 5 C50_ex_history) = [(0, Some [Node [Atom 4]], Some (Node [Node [Atom 4]; Atom 6]))].
Proof. reflexivity. Qed.
Example C50_ex_respected : respected 5 0 start C50_ex_history.
Proof.
  cbn. repeat split; intros [(args & r & v & Hin & Hv & Hr)|(args & i & b & v & Hin & Hv & Hr)]; cbn in *;
    repeat match goal with
    | H : _ \/ _ |- _ => destruct H
    | H : False |- _ => destruct H
    | H : (_, _) = (_, _) |- _ => inversion H; subst; clear H
    | H : VRef _ = _ |- _ => subst
    | H : reaches _ _ (VRef _) |- _ => inversion H; subst; clear H; cbn in *
    | H : reaches _ _ (VAtom _) |- _ => inversion H
    | H : _ = VRef _ |- _ => subst
    | H : VAtom _ = _ |- _ => subst
    | H : In _ _ |- _ => cbn in H
    end.
Qed.
(** Function 0 gets and returns immutable values, the object of function 9 is modified. *)
Definition C50_ex_plain : list event :=
  [ECall 0 [VAtom 1] false; ECall 9 [] false; EReturn (VRef 2); EReturn (VAtom 3); EWrite 2 [VAtom 5]; ECall 0 [VAtom 1] false].
Example C50_ex_plain_hit : plain 5 0 start C50_ex_plain /\ d_hits (after 5 C50_ex_plain) = [(0, Some [Atom 1], Some (Atom 3))].
Proof. split; [|reflexivity]. cbn. repeat split; intros; try discriminate; repeat constructor. Qed.

(** ** Which run *)

(** The result of the last completed run of [f] with these arguments. *)
Fixpoint last_run (rs : list (nat * option (list tree) * option tree)) (f : nat) (b : option (list tree)) (r : option tree) : Prop :=
  match rs with
  | [] => False
  | (g, b', r') :: rs' => (g = f /\ b' = b /\ r' = r) \/ ((g <> f \/ b' <> b) /\ last_run rs' f b r)
  end.
(** [f] is not called while it runs with the same arguments. *)
Fixpoint single (d f : nat) (s : db) (l : list event) : Prop :=
  match l with
  | [] => True
  | e :: l' => match e with
               | ECall g args _ => g = f -> forall args' i b, In (f, args', i, b) (d_pending s) -> b <> contents d (d_heap s) args
               | _ => True
               end /\ single d f (step d s e) l'
  end.

Lemma find_none d h args l : forall i, find d h args i l = NotFound -> forall args' r, In (args', r) l -> contents d h args' <> contents d h args.
Proof.
  induction l as [|[a r0] l IH]; intros i H args' r Hin; [destruct Hin|]. cbn in H.
  destruct (contents d h args) as [x|] eqn:Ex; [|discriminate]. destruct (contents d h a) as [y|] eqn:Ey; [|discriminate].
  destruct (trees_eqb x y) eqn:Ee; [discriminate|]. destruct Hin as [E|Hin]; [|exact (IH _ H _ _ Hin)].
  injection E as -> ->. rewrite Ey. intros E. injection E as ->. clear -Ee.
  assert (forall t, tree_eqb t t = true) as Ht.
  { induction t as [n|l IHl] using tree_rect'; cbn; [apply Nat.eqb_refl|]. induction IHl as [|t l Ht _ IH]; [reflexivity|]. rewrite Ht, IH. reflexivity. }
  assert (trees_eqb x x = true) as H; [|congruence]. clear Ee. induction x as [|t x IH]; [reflexivity|]. cbn. rewrite Ht, IH. reflexivity.
Qed.
Lemma replace_nth {A} (x : A) l : forall i j, nth_error (replace i x l) j =
  match nth_error l j with Some y => Some (if Nat.eqb i j then x else y) | None => None end.
Proof.
  induction l as [|y l IH]; intros i j; [destruct i, j; reflexivity|]. destruct i as [|i], j as [|j]; cbn; try reflexivity.
  - destruct (nth_error l j); reflexivity.
  - apply IH.
Qed.

Record latest (d f : nat) (s : db) : Prop := {
  l_good : good d f s;
  l_calls : forall args r, In (args, r) (d_calls s f) -> last_run (d_runs s) f (contents d (d_heap s) args) (content d (d_heap s) r);
  l_one : forall j k a a' r r', nth_error (d_calls s f) j = Some (a, r) -> nth_error (d_calls s f) k = Some (a', r') ->
    contents d (d_heap s) a = contents d (d_heap s) a' -> j = k;
  l_new : forall args b, In (f, args, None, b) (d_pending s) -> forall a r, In (a, r) (d_calls s f) -> contents d (d_heap s) a <> b;
  l_old : forall args i b, In (f, args, Some i, b) (d_pending s) -> exists a r, nth_error (d_calls s f) i = Some (a, r) /\ contents d (d_heap s) a = b;
  l_apart : forall p1 p2 a i b a' i' b', d_pending s = p1 ++ (f, a, i, b) :: p2 -> In (f, a', i', b') p2 -> b' <> b;
}.
Lemma latest_step d f s e : latest d f s -> match e with EWrite a _ => ~ shared s f a | _ => True end ->
  match e with
  | ECall g args _ => g = f -> forall args' i b, In (f, args', i, b) (d_pending s) -> b <> contents d (d_heap s) args
  | _ => True
  end -> latest d f (step d s e).
Proof.
  intros [Hg Hc Ho Hn Hi Ha] He Hs. pose proof (good_step d f s e Hg He) as Hg'. destruct s as [h c p rs hs]. cbn in *.
  destruct e as [a x|g args stale|r|]; cbn in *.
  - assert (forall args r, In (args, r) (c f) -> contents d (write h a x) args = contents d h args) as E1.
    { intros args r Hin. apply contents_write. intros v Hv Hr. apply He. left. exists args, r, v. cbn. auto. }
    assert (forall args r, In (args, r) (c f) -> content d (write h a x) r = content d h r) as E2.
    { intros args r Hin. apply content_write. intros Hr. apply He. left. exists args, r, r. cbn. auto. }
    constructor; cbn; try assumption.
    + intros args r Hin. rewrite (E1 _ _ Hin), (E2 _ _ Hin). auto.
    + intros j k a1 a2 r1 r2 H1 H2. rewrite (E1 _ _ (nth_error_In _ _ H1)), (E1 _ _ (nth_error_In _ _ H2)). eauto.
    + intros args b Hp a1 r1 Hin. rewrite (E1 _ _ Hin). eauto.
    + intros args i b Hp. destruct (Hi _ _ _ Hp) as (a1 & r1 & H1 & H2). exists a1, r1. rewrite (E1 _ _ (nth_error_In _ _ H1)). auto.
  - assert (forall i, (g = f -> match i with
        | None => forall a r, In (a, r) (c f) -> contents d h a <> contents d h args
        | Some i => exists a r, nth_error (c f) i = Some (a, r) /\ contents d h a = contents d h args
        end) -> good d f (DB h c ((g, args, i, contents d h args) :: p) rs hs) -> latest d f (DB h c ((g, args, i, contents d h args) :: p) rs hs)) as Hpush.
    { intros i Hx Hg2. constructor; cbn; try assumption.
      - intros args' b [E|Hp]; [|eauto]. injection E as -> -> -> <-. exact (Hx eq_refl).
      - intros args' j b [E|Hp]; [|eauto]. injection E as -> -> -> <-. exact (Hx eq_refl).
      - intros p1 p2 a1 i1 b1 a2 i2 b2 E Hin. destruct p1 as [|q p1]; cbn in E.
        + injection E as -> -> -> <- ->. exact (Hs eq_refl _ _ _ Hin).
        + injection E as <- ->. eapply Ha; [reflexivity|exact Hin]. }
    destruct (find d h args 0 (c g)) as [i r| |] eqn:Ef; [destruct stale| |].
    + apply Hpush; [|exact Hg']. intros ->. destruct (find_found _ _ _ _ _ _ _ Ef) as (_ & a' & H1 & H2). rewrite Nat.sub_0_r in H1. eauto.
    + constructor; assumption.
    + apply Hpush; [|exact Hg']. intros ->. intros a r Hin. exact (find_none _ _ _ _ _ Ef _ _ Hin).
    + constructor; assumption.
  - destruct p as [|[[[g args] i] b] p]; [constructor; assumption|].
    assert (g = f -> b = contents d h args) as Eb by (intros ->; exact (g_pending _ _ _ Hg args i b (or_introl eq_refl))).
    assert (g = f -> forall a2 i2 b2, In (f, a2, i2, b2) p -> b2 <> b) as Hap by (intros ->; exact (fun a2 i2 b2 H => Ha [] p _ _ _ _ _ _ eq_refl H)).
    destruct (Nat.eq_dec g f) as [->|Hne].
    2: { assert (forall l, upd c g l f = c f) as Eu by (intros l; unfold upd; destruct (Nat.eqb_spec f g); [congruence|reflexivity]).
      constructor; cbn; rewrite ?Eu; try assumption.
      - intros a1 r1 Hin. right. split; [left; congruence|auto].
      - intros a1 b1 Hp. apply (Hn a1 b1). right. exact Hp.
      - intros a1 i1 b1 Hp. apply (Hi a1 i1 b1). right. exact Hp.
      - intros p1 p2 a1 i1 b1 a2 i2 b2 E Hin. subst p. exact (Ha ((g, args, i, b) :: p1) p2 _ _ _ _ _ _ eq_refl Hin). }
    specialize (Eb eq_refl). specialize (Hap eq_refl).
    assert (forall l, upd c f l f = l) as Eu by (intros l; unfold upd; rewrite Nat.eqb_refl; reflexivity).
    destruct i as [i|].
    + destruct (Hi args i b (or_introl eq_refl)) as (a0 & r0 & H0 & E0).
      assert (forall j a1 r1, nth_error (replace i (args, r) (c f)) j = Some (a1, r1) ->
        (j = i /\ a1 = args /\ r1 = r) \/ (j <> i /\ nth_error (c f) j = Some (a1, r1) /\ contents d h a1 <> b)) as Hr.
      { intros j a1 r1 H. rewrite replace_nth in H. match type of H with match ?x with _ => _ end = _ => destruct x as [[a2 r2]|] eqn:Ej end; [|discriminate H].
        destruct (Nat.eqb_spec i j) as [->|Hij]; [injection H as <- <-; auto|]. injection H as -> ->. right. split; [congruence|]. split; [exact Ej|].
        intros E. apply Hij. apply (Ho _ _ _ _ _ _ H0 Ej). congruence. }
      assert (forall a1 r1, In (a1, r1) (replace i (args, r) (c f)) -> (a1 = args /\ r1 = r) \/ (In (a1, r1) (c f) /\ contents d h a1 <> b)) as Hrin.
      { intros a1 r1 Hin. apply In_nth_error in Hin. destruct Hin as [j Hj]. destruct (Hr _ _ _ Hj) as [(_ & -> & ->)|(_ & Hj' & Hb)]; [auto|].
        right. split; [exact (nth_error_In _ _ Hj')|exact Hb]. }
      constructor; cbn; rewrite ?Eu; try assumption.
      * intros a1 r1 Hin. destruct (Hrin _ _ Hin) as [[-> ->]|[Hin' Hb]]; [left; auto|]. right. split; [right; congruence|auto].
      * intros j k a1 a2 r1 r2 Hj Hk E. destruct (Hr _ _ _ Hj) as [(-> & -> & _)|(Hj1 & Hj2 & Hj3)], (Hr _ _ _ Hk) as [(-> & -> & _)|(Hk1 & Hk2 & Hk3)];
          [reflexivity|congruence|congruence|]. exact (Ho _ _ _ _ _ _ Hj2 Hk2 E).
      * intros a1 b1 Hp a2 r2 Hin. destruct (Hrin _ _ Hin) as [[-> ->]|[Hin' Hb]].
        -- rewrite <- Eb. intros E. exact (Hap _ _ _ Hp (eq_sym E)).
        -- apply (Hn a1 b1) with (r := r2); [right; exact Hp|exact Hin'].
      * intros a1 i1 b1 Hp. destruct (Hi a1 i1 b1 (or_intror Hp)) as (a2 & r2 & H2 & E2). pose proof (replace_nth (args, r) (c f) i i1) as Er.
        assert (nth_error (c f) i1 = Some (a2, r2)) as H2' by exact H2. unfold entry in *. rewrite H2' in Er. rewrite Er.
        destruct (Nat.eqb_spec i i1) as [->|Hii]; [|exists a2, r2; auto]. exists args, r. split; [reflexivity|]. rewrite H2 in H0. injection H0 as -> ->. congruence.
      * intros p1 p2 a1 i1 b1 a2 i2 b2 E Hin. subst p. exact (Ha ((f, args, Some i, b) :: p1) p2 _ _ _ _ _ _ eq_refl Hin).
    + pose proof (Hn args b (or_introl eq_refl)) as H0.
      assert (forall j a1 r1, nth_error (c f ++ [(args, r)]) j = Some (a1, r1) ->
        (j = length (c f) /\ a1 = args /\ r1 = r) \/ (nth_error (c f) j = Some (a1, r1) /\ contents d h a1 <> b)) as Hr.
      { intros j a1 r1 H. destruct (Nat.lt_ge_cases j (length (c f))) as [Hj|Hj].
        - rewrite nth_error_app1 in H by exact Hj. right. split; [exact H|]. exact (H0 _ _ (nth_error_In _ _ H)).
        - rewrite nth_error_app2 in H by exact Hj. destruct (j - length (c f)) as [|m] eqn:Em; [|destruct m; discriminate H].
          injection H as <- <-. left. split; [lia|auto]. }
      constructor; cbn; rewrite ?Eu; try assumption.
      * intros a1 r1 Hin. apply in_app_or in Hin. destruct Hin as [Hin|[E|[]]]; [|injection E as <- <-; left; auto].
        right. split; [right; intros E; exact (H0 _ _ Hin (eq_sym E))|auto].
      * intros j k a1 a2 r1 r2 Hj Hk E. destruct (Hr _ _ _ Hj) as [(-> & -> & _)|(Hj2 & Hj3)], (Hr _ _ _ Hk) as [(-> & -> & _)|(Hk2 & Hk3)];
          try congruence. exact (Ho _ _ _ _ _ _ Hj2 Hk2 E).
      * intros a1 b1 Hp a2 r2 Hin. apply in_app_or in Hin. destruct Hin as [Hin|[E|[]]].
        -- apply (Hn a1 b1) with (r := r2); [right; exact Hp|exact Hin].
        -- injection E as <- <-. rewrite <- Eb. intros E. exact (Hap _ _ _ Hp (eq_sym E)).
      * intros a1 i1 b1 Hp. destruct (Hi a1 i1 b1 (or_intror Hp)) as (a2 & r2 & H2 & E2). exists a2, r2. split; [|exact E2].
        rewrite nth_error_app1; [exact H2|]. apply nth_error_Some. congruence.
      * intros p1 p2 a1 i1 b1 a2 i2 b2 E Hin. subst p. exact (Ha ((f, args, None, b) :: p1) p2 _ _ _ _ _ _ eq_refl Hin).
  - destruct p as [|q p]; [constructor; assumption|]. constructor; cbn; try assumption.
    + intros a1 b1 Hp. apply (Hn a1 b1). right. exact Hp.
    + intros a1 i1 b1 Hp. apply (Hi a1 i1 b1). right. exact Hp.
    + intros p1 p2 a1 i1 b1 a2 i2 b2 E Hin. subst p. exact (Ha (q :: p1) p2 _ _ _ _ _ _ eq_refl Hin).
Qed.
Lemma latest_run d f l : forall s, latest d f s -> respected d f s l -> single d f s l -> latest d f (fold_left (step d) l s).
Proof.
  induction l as [|e l IH]; intros s Hg Hr Hs; [exact Hg|]. destruct Hr as [He Hr], Hs as [Hs1 Hs]. apply IH; [apply latest_step; assumption|exact Hr|exact Hs].
Qed.
Lemma latest_start d f : latest d f start.
Proof.
  constructor; cbn; try (intros; contradiction).
  - apply good_start.
  - intros [|j]; discriminate.
  - intros [|q p1]; discriminate.
Qed.
(** Then a hit returns what the last run with these arguments returned. *)
Theorem C50_latest d l f args r : respected d f start l -> single d f start l ->
  d_hits (step d (after d l) (ECall f args false)) = (f, contents d (d_heap (after d l)) args, r) :: d_hits (after d l) ->
  last_run (d_runs (after d l)) f (contents d (d_heap (after d l)) args) r.
Proof.
  intros Hr Hs. pose proof (latest_run d f l start (latest_start d f) Hr Hs) as [_ Hc _ _ _ _]. fold (after d l) in Hc.
  destruct (after d l) as [h c p rs hs]. cbn in *. intros H.
  assert (forall x : nat * option (list tree) * option tree, hs <> x :: hs) as Hx by (intros x E; apply (f_equal (@length _)) in E; cbn in E; lia).
  destruct (find d h args 0 (c f)) as [i r0| |] eqn:Ef; cbn in H; try (destruct (Hx _ H)). injection H as <-.
  destruct (find_found _ _ _ _ _ _ _ Ef) as (_ & a' & Hn & E). rewrite <- E. exact (Hc _ _ (nth_error_In _ _ Hn)).
Qed.
(** A function calling itself with the same arguments: the hit returns what the inner run returned, not the last one. *)
Definition C50_ex_nested : list event := [ECall 0 [VAtom 1] false; ECall 0 [VAtom 1] false; EReturn (VAtom 2); EReturn (VAtom 3)].
Example C50_ex_inner :
  d_runs (after 5 C50_ex_nested) = [(0, Some [Atom 1], Some (Atom 3)); (0, Some [Atom 1], Some (Atom 2))] /\
  d_hits (step 5 (after 5 C50_ex_nested) (ECall 0 [VAtom 1] false)) = [(0, Some [Atom 1], Some (Atom 2))].
Proof. split; reflexivity. Qed.
(** Run, found stale, run again, then a hit. *)
Definition C50_ex_rerun : list event :=
  [ECall 0 [VAtom 1] false; EReturn (VAtom 2); ECall 0 [VAtom 4] false; EReturn (VAtom 5); ECall 0 [VAtom 1] true; EReturn (VAtom 3)].
Example C50_ex_latest : respected 5 0 start C50_ex_rerun /\ single 5 0 start C50_ex_rerun /\
  d_hits (step 5 (after 5 C50_ex_rerun) (ECall 0 [VAtom 1] false)) = [(0, Some [Atom 1], Some (Atom 3))].
Proof. split; [|split; [|reflexivity]]; cbn; repeat split; intros; contradiction. Qed.

Print Assumptions C50_refuted.
Print Assumptions C50_argument_refuted.
Print Assumptions C50_partial.
Print Assumptions C50_immutable.
Print Assumptions C50_latest.
