(** C83: classes of configuration tests. *)
From stdpp Require Import base list strings gmap sorting.
From Coq Require Import ZArith Lia.
From Verif Require Import ConfModel ConfFacts ConfSpec ConfThms.

(** ** The fields of a class *)

(** The names a class body assigns or deletes. *)
Definition mentioned (body : list stmt) : list string := map (fun o => match o with SSet k _ => k | SDel k => k end) body.
Lemma mentioned_binds body : no_del body -> forall k, k ∈ mentioned body <-> exists x, binds body k x.
Proof.
  intros Hn k. unfold mentioned. rewrite elem_of_list_fmap. split.
  - intros (o & Ek & Ho). assert (names_in body k) as Hk.
    { destruct o as [k' x|k']; [exists x; by subst|]. by destruct (Hn k'). }
    assert (forall l, no_del l -> forall d, lastb l k d = None -> d = None /\ ~ names_in l k) as Hl.
    { clear. induction l as [|o l IH]; intros Hn d Hd; [split; [done|]; intros (x & Hx); by apply elem_of_nil in Hx|].
      apply no_del_cons in Hn as [Hn (k' & b & ->)]. cbn in Hd. destruct (IH Hn _ Hd) as [Hd' Hni]. destruct (decide (k = k')) as [->|Hne]; [done|].
      split; [done|]. intros (x & [Hx|Hx]%elem_of_cons); [by injection Hx as -> _|]. apply Hni. by exists x. }
    destruct (lastb body k None) as [x|] eqn:Hx; [|by destruct (Hl body Hn None Hx)].
    exists x. apply (lastb_binds body Hn) in Hx as [?|[_ ?]]; done.
  - intros (x & l1 & l2 & -> & _). exists (SSet k x). split; [done|]. apply elem_of_app. right. by left.
Qed.
Lemma C83_bind_unique body k x y : binds body k x -> binds body k y -> x = y.
Proof.
  intros (l1 & l2 & -> & H1) (l3 & l4 & E & H2).
  destruct (app_eq_inv _ _ _ _ E) as [(l & -> & E2)|(l & -> & E2)]; destruct l as [|o l]; cbn in E2.
  - by injection E2 as -> _.
  - injection E2 as <- ->. destruct (H2 x). apply elem_of_app. right. by left.
  - by injection E2 as ->.
  - injection E2 as <- ->. destruct (H1 y). apply elem_of_app. right. by left.
Qed.

Lemma filter_congr {A} (P Q : A -> Prop) `{forall x, Decision (P x)} `{forall x, Decision (Q x)} (l : list A) :
  (forall x, x ∈ l -> P x <-> Q x) -> filter P l = filter Q l.
Proof.
  induction l as [|x l IH]; intros Hl; [done|]. rewrite !filter_cons. rewrite IH by (intros; apply Hl; by right).
  destruct (decide (P x)) as [Hp|Hp], (decide (Q x)) as [Hq|Hq]; try done; exfalso; apply Hp || apply Hq; by apply (Hl x); [left|].
Qed.

(** fields() never fails; it gives for each name what the name stands for in the class, and every
    name that stands for a field is among them.  Classes may have any bases and bodies. *)
Theorem C83_complete h p s i : define (initial h) p = Some s -> i < length (s_classes s) ->
  exists fs, fields (s_classes s) i = Some fs /\
    (forall k a, (k, a) ∈ fs -> class_attr (s_classes s) i k = Some a) /\
    forall k d, class_attr (s_classes s) i k = Some (APropDesc d) \/ class_attr (s_classes s) i k = Some (APropMethod d) -> k ∈ fs.*1.
Proof.
  intros H Hi. pose proof (define_cinv _ _ _ (cinv_initial h) H) as Hc. destruct (fields_some _ _ Hc Hi) as (fs & E & E1 & E2).
  exists fs. split; [done|]. split; [done|]. intros k d Ha. rewrite E1. destruct Ha as [Ha|Ha]; by apply (complete _ Hc i k _ Hi Ha).
Qed.

(** With one base class each, no name is listed twice and what is listed are fields. *)
Theorem C83_exact h p s i : plain p -> define (initial h) p = Some s -> i < length (s_classes s) ->
  exists fs, fields (s_classes s) i = Some fs /\ NoDup fs.*1 /\
    forall k a, (k, a) ∈ fs <-> class_attr (s_classes s) i k = Some a /\ forall v, a <> AVal v.
Proof.
  intros Hp H Hi. pose proof (define_cinv _ _ _ (cinv_initial h) H) as Hc. destruct (fields_some _ _ Hc Hi) as (fs & E & E1 & E2).
  destruct (plain_fields _ _ _ Hp H i Hi) as (P1 & _ & P3). exists fs. split; [done|]. split; [by rewrite E1|].
  intros k a. split.
  - intros Hk. pose proof (E2 k a Hk) as Ha. split; [done|].
    destruct (P3 k) as (a' & Ha' & Hpr); [rewrite <- E1; apply elem_of_list_fmap; by exists (k, a)|]. rewrite Ha in Ha'. injection Ha' as <-. by intros v ->.
  - intros [Ha Hv]. assert (is_prop a = true) as Hpr by (destruct a; [done|done|by destruct (Hv v)]).
    pose proof (complete _ Hc i k _ Hi Ha Hpr) as Hk. rewrite <- E1 in Hk. apply elem_of_list_fmap in Hk as ((k', a') & -> & Hk). cbn in *.
    rewrite (E2 _ _ Hk) in Ha. by injection Ha as <-.
Qed.

(** They come in order: those of the base class that the body does not bind again, then those of the
    body in the order in which it first mentions them. *)
Theorem C83_order h p s i c b : plain p -> define (initial h) p = Some s -> s_classes s !! i = Some c -> 2 <= i -> c_bases c = [b] ->
  exists own fs fb, fields (s_classes s) i = Some fs /\ fields (s_classes s) b = Some fb /\
    fs.*1 = filter (fun k => k ∉ mentioned (c_body c)) fb.*1 ++ own /\
    StronglySorted (before (c_body c)) own /\ forall k, k ∈ own <-> exists x, binds (c_body c) k x /\ is_field x = true.
Proof.
  intros Hp H Hc Hi Eb. pose proof (define_cinv _ _ _ (cinv_initial h) H) as Hci.
  destruct (plain_class _ _ _ _ _ Hp H Hc Hi) as (_ & Hn & Hns).
  assert (i < length (s_classes s)) as Hl by (by eapply lookup_lt_Some).
  destruct (one_base _ _ _ _ _ _ H Hc Hi Eb) as (Hb & Efb & _). destruct (define_class _ _ _ _ _ H Hc Hi) as (_ & _ & _ & _ & _ & Hm).
  destruct (made_fields _ _ _ Hm Eb Hn) as (own & Eo & Hs & Ho & Ha). rewrite Efb in Eo.
  destruct (fields_some _ _ Hci Hl) as (fs & E & E1 & _). destruct (fields_some _ b Hci ltac:(lia)) as (fb & F & F1 & _).
  assert (forall k x, k ∈ fields_of (s_classes s) b \/ is_field x = true -> binds (c_body c) k x -> skips (c_cxx c) k = false) as Hsk.
  { intros k x Hk (l1 & l2 & E' & _). unfold skips. destruct (c_cxx c) eqn:Ex; [|done]. cbn. apply bool_decide_eq_false. intros ->. destruct Hk as [Hk|Hk].
    - apply (plain_fields _ _ _ Hp H b ltac:(lia)), Hk.
    - rewrite Hns in Hk; [done|]. rewrite E'. apply elem_of_app. right. by left. }
  exists own, fs, fb. split; [done|]. split; [done|]. split; [|split; [done|]].
  - rewrite E1, F1. unfold fields_of at 1. rewrite Hc, Eo. f_equal. apply filter_congr. intros k Hkb. split.
    + intros Hk Hx. apply (mentioned_binds _ Hn) in Hx as [x Hx].
      rewrite (proj2 (Ha k (attr_for x))) in Hk; [done|]. exists x. split; [done|]. split; [eapply Hsk; eauto|done].
    + intros Hk. destruct (c_attrs c !! k) as [a|] eqn:Ek; [|done]. apply Ha in Ek as (x & Hx & _). exfalso.
      apply Hk, (mentioned_binds _ Hn). by exists x.
  - intros k. rewrite Ho. split; [intros (x & ? & _ & ?); eauto|]. intros (x & Hx & ?). exists x. split; [done|]. split; [eapply Hsk; eauto|done].
Qed.

(** A name stands for what the body binds it to last, or else for what it stands for in the base
    class; the namespace of a C++ class is no attribute. *)
Theorem C83_attr h p s i c b k : plain p -> define (initial h) p = Some s -> s_classes s !! i = Some c -> 2 <= i -> c_bases c = [b] ->
  (k = "namespace" -> cxx_test ∉ c_mro c) ->
  (forall d, binds (c_body c) k (BDesc d) -> class_attr (s_classes s) i k = Some (APropDesc d)) /\
  (forall m, binds (c_body c) k (BMethod m) -> class_attr (s_classes s) i k = Some (APropMethod m)) /\
  (forall v, binds (c_body c) k (BValue v) -> class_attr (s_classes s) i k = Some (AVal v)) /\
  (k ∉ mentioned (c_body c) -> class_attr (s_classes s) i k = class_attr (s_classes s) b k).
Proof.
  intros Hp H Hc Hi Eb Hk. destruct (plain_class _ _ _ _ _ Hp H Hc Hi) as (_ & Hn & Hns).
  destruct (one_base _ _ _ _ _ _ H Hc Hi Eb) as (Hb & Efb & Hat). destruct (define_class _ _ _ _ _ H Hc Hi) as (_ & _ & _ & _ & _ & Hm).
  destruct (made_fields _ _ _ Hm Eb Hn) as (own & Eo & Hs & Ho & Ha).
  assert (skips (c_cxx c) k = false) as Hsk.
  { unfold skips. destruct (c_cxx c) eqn:Ex; [|done]. cbn. apply bool_decide_eq_false. intros ->. apply (Hk eq_refl). by apply (cxx_mro _ _ _ H _ _ Hc). }
  assert (forall x, binds (c_body c) k x -> class_attr (s_classes s) i k = Some (attr_for x)) as Hx.
  { intros x Hx. rewrite Hat, (proj2 (Ha k (attr_for x))); [done|]. by exists x. }
  split; [|split; [|split]]; try (intros ? Hy; exact (Hx _ Hy)).
  intros Hni. rewrite Hat. destruct (c_attrs c !! k) as [a|] eqn:Ek; [|done]. apply Ha in Ek as (x & Hy & _). destruct Hni. apply (mentioned_binds _ Hn). by exists x.
Qed.

(** ** What a field tests for *)

(** The class statement [class name(b): body] gives its fields the namespace [n]. *)
Definition namespace (s : state) (b : nat) (body : list stmt) (n : string) : Prop :=
  cxx_test ∈ mro_of (s_classes s) b /\ binds body "namespace" (BValue (PStr n)).
(** The name given for a field or made from its key. *)
Definition given_name (k : string) (x : desc) : string :=
  match d_name x, d_kind x with
  | Some n, _ => n
  | None, KStruct _ => "struct " +:+ k
  | None, _ => k
  end.
Definition with_namespace (n : string) (x : desc) (t : string) : string :=
  match d_kind x with KMacro => t | _ => n +:+ "::" +:+ t end.
(** The object [y] is [x] with the key and the name. *)
Definition renamed (x y : desc) (k t : string) : Prop :=
  d_kind y = d_kind x /\ d_test y = d_test x /\ d_stdin y = d_stdin x /\ d_stdout y = d_stdout x /\ d_key y = k /\ d_name y = Some t.

Lemma prepend_desc ns fs : forall h h', prepend ns fs h = Some h' -> forall a, a ∈ fs.*2 -> exists d, a = APropDesc d.
Proof.
  induction fs as [|[k a] fs IH]; intros h h' H a' Ha; [by apply elem_of_nil in Ha|]. cbn in H.
  destruct a as [d|m|v]; [|done|done]. destruct (h !! d) as [x|]; [|done]. cbn in Ha. apply elem_of_cons in Ha as [->|Ha]; [by exists d|].
  destruct (d_kind x), (d_name x); try done; by eapply IH.
Qed.
Lemma nodup_snd {A B} (l : list (A * B)) : NoDup l.*1 -> (forall k1 k2 a, (k1, a) ∈ l -> (k2, a) ∈ l -> k1 = k2) -> NoDup l.*2.
Proof.
  induction l as [|[k a] l IH]; intros Hn Hi; [constructor|]. cbn in *. apply NoDup_cons in Hn as [Hk Hn]. constructor.
  - intros Ha. apply elem_of_list_fmap in Ha as ((k', a') & -> & Ha). cbn in *. apply Hk. rewrite (Hi k k' a'); [|by left|by right].
    apply elem_of_list_fmap. by exists (k', a').
  - apply IH; [done|]. intros k1 k2 a0 H1 H2. apply (Hi k1 k2 a0); by right.
Qed.
Lemma define_snoc p c : forall s, define s (p ++ [c]) = match define s p with Some s1 => new_class s1 (cs_name c) (cs_bases c) (cs_body c) | None => None end.
Proof.
  induction p as [|c' p IH]; intros s; cbn; [by destruct (new_class _ _ _ _)|].
  destruct (new_class s _ _ _) as [s1|]; [apply IH|done].
Qed.
Lemma class_cxx_one h p s b : define (initial h) p = Some s -> class_cxx (s_classes s) [b] = true <-> cxx_test ∈ mro_of (s_classes s) b.
Proof.
  intros H. unfold class_cxx, mro_of. cbn. destruct (s_classes s !! b) as [c|] eqn:E; [|split; [done|intros Hx; by apply elem_of_nil in Hx]].
  rewrite orb_false_r. by apply (cxx_mro _ _ _ H b c).
Qed.

(** A class made from a class without fields: each test of the body gets its name. *)
Theorem C83_names h p s s' name b body k d :
  plain p -> define (initial h) p = Some s -> fields (s_classes s) b = Some [] -> plain [CS name [b] body] ->
  new_class s name [b] body = Some s' ->
  binds body k (BDesc d) -> (forall k', binds body k' (BDesc d) -> k' = k) ->
  (forall k1 k2 e, binds body k1 (BDesc e) -> binds body k2 (BDesc e) -> k1 = k2) ->
  exists x y, s_heap s !! d = Some x /\ s_heap s' !! d = Some y /\
    (forall n, namespace s b body n -> renamed x y k (with_namespace n x (given_name k x))) /\
    ((forall n, ~ namespace s b body n) -> renamed x y k (given_name k x)).
Proof.
  intros Hp H Hfb Hp1 Hnew Hk Hu Hinj.
  assert (define (initial h) (p ++ [CS name [b] body]) = Some s') as H' by (rewrite define_snoc, H; done).
  assert (plain (p ++ [CS name [b] body])) as Hp'.
  { intros c [Hc|Hc]%elem_of_app; [by apply Hp|by apply Hp1]. }
  destruct (Hp1 (CS name [b] body) ltac:(by left)) as (_ & Hn & Hns). cbn in Hn, Hns.
  pose proof (define_length _ _ _ H) as Hlen. pose proof (define_length _ _ _ H') as Hlen'. rewrite app_length in Hlen'. cbn in Hlen'.
  destruct (define_app _ _ _ H) as (l & El & _). destruct (define_app [CS name [b] body] s s') as (l1 & El1 & Hf1 & _); [by cbn; rewrite Hnew|].
  apply Forall2_cons_inv_l in Hf1 as (c & l2 & (Hc1 & Hc2 & Hc3) & Hl2 & ->). apply Forall2_nil_inv_l in Hl2 as ->. cbn in Hc1, Hc2, Hc3.
  set (i := length (s_classes s)). assert (s_classes s' !! i = Some c) as Hc by (rewrite El1; apply list_lookup_middle; done).
  destruct (C83_order _ _ _ i c b Hp' H' Hc ltac:(lia) Hc2) as (own & fs & fb' & Ef & Efb' & Efs & Hs & Ho). rewrite Hc3 in *.
  assert (fb' = []) as ->.
  { unfold fields in Hfb, Efb'. destruct (s_classes s !! b) as [cb|] eqn:Ecb; [|done]. rewrite El1, (lookup_app_l_Some _ _ _ _ Ecb) in Efb'.
    apply mapM_Some in Hfb. apply Forall2_nil_inv_r in Hfb. rewrite Hfb in Efb'. by injection Efb' as <-. }
  cbn in Efs. 
  destruct (new_class_heap _ _ _ _ _ Hnew Hn) as (t & [[ns1 at1] h1] & acc & Et & Ea & Eacc & Hcase). cbn [snd] in Hcase.
  destruct (body_table_no_del _ _ _ Hn Et) as [Hv Ht].
  assert (NoDup (t_names t)) as Hnd. { rewrite Ht. eapply sorted_nodup; [apply (before_irrefl body)|]. by apply first_keys_before. }
  assert (forall e k0, binds body k0 (BDesc e) -> k0 ∈ t_names t /\ t_vals t !! k0 = Some (BDesc e)) as Hb.
  { intros e k0 Hb. split.
    - rewrite Ht. apply first_keys_elem; [done|]. split; [apply not_elem_of_nil|]. destruct Hb as (l1 & l2 & -> & _). exists (BDesc e). apply elem_of_app. right. by left.
    - apply Hv. split; [done|]. unfold skips. destruct (class_cxx _ _); [|done]. cbn. apply bool_decide_eq_false. intros ->.
      destruct Hb as (l1 & l2 & Eb & _). assert (is_field (BDesc e) = false); [|done]. apply Hns. rewrite Eb. apply elem_of_app. right. by left. }
  destruct (add_all_heap _ _ _ _ _ _ Ea Hnd) as [_ Hset].
  destruct (Hset d k (proj1 (Hb _ _ Hk)) (proj2 (Hb _ _ Hk))) as (x & Hx & Hy).
  { intros k' _ Hk'. apply Hv in Hk' as [Hk' _]. by apply Hu. }
  rewrite Eacc in Hx. exists x.
  assert (base_name k x = given_name k x) as Eg by (unfold base_name, given_name; destruct (d_name x), (d_kind x); done). rewrite Eg in Hy.
  destruct Hcase as [[Hno Eh]|(n & fs' & Hcx & Hbn & Ef' & Epre)].
  - eexists. split; [done|]. rewrite Eh. split; [exact Hy|]. split; [|done].
    intros n [Hn1 Hn2]. apply (class_cxx_one _ _ _ _ H) in Hn1. destruct (Hno n) as [Hx'|Hx']; [by rewrite Hn1 in Hx'|done].
  - fold i in Ef'. rewrite Ef in Ef'. injection Ef' as <-.
    destruct (C83_complete _ _ _ i H' ltac:(apply lookup_lt_Some in Hc; done)) as (fs' & Ef' & Hfa & Hfc). rewrite Ef in Ef'. injection Ef' as <-.
    assert (forall k0 a, (k0, a) ∈ fs -> exists e, a = APropDesc e /\ binds body k0 (BDesc e)) as Hall.
    { intros k0 a Hka. destruct (prepend_desc _ _ _ _ Epre a) as [e ->]; [apply elem_of_list_fmap; by exists (k0, a)|]. exists e. split; [done|].
      assert (k0 ∈ own) as Hko. { rewrite <- Efs. apply elem_of_list_fmap. by exists (k0, APropDesc e). }
      apply Ho in Hko as (x0 & Hx0 & Hfx).
      destruct (C83_attr _ _ _ i c b k0 Hp' H' Hc ltac:(lia) Hc2) as (A1 & A2 & A3 & _).
      { intros ->. destruct Hx0 as (l1 & l2 & Eb & _). assert (is_field x0 = false) as Hff; [|by rewrite Hff in Hfx]. apply Hns. rewrite Eb. apply elem_of_app. right. by left. }
      rewrite Hc3 in *. specialize (Hfa _ _ Hka). destruct x0 as [e'|m|v]; [|by rewrite (A2 _ Hx0) in Hfa|done].
      rewrite (A1 _ Hx0) in Hfa. by injection Hfa as ->. }
    assert (NoDup fs.*1) as Hnd1. { rewrite Efs. eapply sorted_nodup; [apply (before_irrefl body)|done]. }
    destruct (prepend_heap _ _ _ _ Epre) as [_ Hpre].
    destruct (Hpre d) as (x1 & Hx1 & Hx2).
    { apply nodup_snd; [done|]. intros k1 k2 a H1 H2. destruct (Hall _ _ H1) as (e & -> & B1). destruct (Hall _ _ H2) as (e' & [= <-] & B2). by eapply Hinj. }
    { assert (k ∈ fs.*1) as Hkf. { rewrite Efs. apply Ho. by exists (BDesc d). }
      apply elem_of_list_fmap in Hkf as ((k0, a) & -> & Hka). cbn in *. destruct (Hall _ _ Hka) as (e & -> & B).
      apply elem_of_list_fmap. exists (k0, APropDesc e). split; [|done]. cbn. f_equal.
      destruct (Hb _ _ B) as [_ B1]. destruct (Hb _ _ Hk) as [_ B2]. rewrite B1 in B2. by injection B2 as ->. }
    rewrite Hy in Hx1. injection Hx1 as <-.
    assert (forall n', namespace s b body n' -> n' = n) as Hnn.
    { intros n' [_ Hb2]. pose proof (C83_bind_unique _ _ _ _ Hbn Hb2) as Hq. by injection Hq as ->. }
    destruct Hx2 as [[Hm Hh]|[Hm (n0 & E0 & Hh)]].
    + eexists. split; [done|]. split; [exact Hh|]. split.
      * intros n' Hn'. rewrite (Hnn n' Hn'). unfold renamed, with_namespace, is_macro in *. cbn in *. destruct (d_kind x); done.
      * intros Hno. destruct (Hno n). split; [by apply (class_cxx_one _ _ _ _ H)|done].
    + eexists. split; [done|]. split; [exact Hh|]. split.
      * intros n' Hn'. rewrite (Hnn n' Hn'). cbn in E0. injection E0 as <-. unfold renamed, with_namespace, is_macro in *. cbn in *. destruct (d_kind x); done.
      * intros Hno. destruct (Hno n). split; [by apply (class_cxx_one _ _ _ _ H)|done].
Qed.

(** Other tests keep their names, except those a class with a namespace inherits. *)
Theorem C83_kept s s' name bases body d :
  new_class s name bases body = Some s' -> no_del body -> (forall k, ~ binds body k (BDesc d)) ->
  (forall n, ~ binds body "namespace" (BValue (PStr n))) \/
    (forall fs k, fields (s_classes s') (length (s_classes s)) = Some fs -> (k, APropDesc d) ∉ fs) ->
  s_heap s' !! d = s_heap s !! d.
Proof.
  intros H Hn Hd Hc. destruct (new_class_heap _ _ _ _ _ H Hn) as (t & [[ns1 at1] h1] & acc & Et & Ea & Eacc & Hcase). cbn [snd] in Hcase.
  destruct (body_table_no_del _ _ _ Hn Et) as [Hv Ht].
  assert (NoDup (t_names t)) as Hnd. { rewrite Ht. eapply sorted_nodup; [apply (before_irrefl body)|]. by apply first_keys_before. }
  destruct (add_all_heap _ _ _ _ _ _ Ea Hnd) as [Hk _].
  assert (h1 !! d = s_heap s !! d) as E1.
  { rewrite <- Eacc. apply Hk. intros k _ Hx. apply Hv in Hx as [Hx _]. by apply (Hd k). }
  destruct Hcase as [[_ ->]|(n & fs & _ & Hb & Ef & Ep)]; [done|].
  destruct Hc as [Hc|Hc]; [by destruct (Hc n)|]. rewrite <- E1.
  apply (prepend_heap _ _ _ _ Ep). intros Hx. apply elem_of_list_fmap in Hx as ((k, a) & Ea' & Hx). cbn in Ea'. subst a. by apply (Hc fs k Ef).
Qed.

(** ** What looking at a field gives *)
Section answers.
  Context (run : string -> option string -> ran) (read_int : string -> nat -> Z + exc) (format : desc -> option string -> string).

  (** The program that is run: the text given for the test, or else the text made for the field
      and the header that was found. *)
  Definition program (h : option string) (d : desc) (t : string) : Prop :=
    d_test d = Some t /\ t <> "" \/ (d_test d = None \/ d_test d = Some "") /\ t = format d h.
  (** The header: a field that is one needs none, and neither do fields of objects without one. *)
  Definition header_for (header : option (option string)) (d : desc) (h : option string) : Prop :=
    match d_kind d, header with
    | KHeader _, _ => h = None
    | _, None => h = None
    | _, Some x => x <> None /\ h = x
    end.
  (** What the field stands for, as far as the output is not needed. *)
  Definition stands_for (d : desc) (v : found) : Prop :=
    match d_kind d with
    | KHeader f => v = FHeader f
    | KFunction r a _ => v = FFunction r a
    | KMacro => v = FMacro
    | KStruct m | KCxxStruct m => v = FStruct m
    | KVariable => v = FVariable
    | KTemplate _ => v = FTemplate
    | KType | KIntType => False
    end.
  Definition prints_numbers (d : desc) : bool := match d_kind d with KType | KIntType => true | _ => false end.

  (** A field that is no type is found exactly when its header is, its program runs and, if an
      output was given for it, prints that output. *)
  Theorem C83_found header d v : prints_numbers d = false ->
    call_desc run read_int format header d = inl (Some v) <->
    stands_for d v /\ exists h t out, header_for header d h /\ program h d t /\ run t (d_stdin d) = Printed out /\
      forall o, d_stdout d = Some o -> out = o.
  Proof.
    intros Hp.
    assert (forall h t, program h d t <-> t = match d_test d with Some t => if decide (t = "") then format d h else t | None => format d h end) as Hprog.
    { intros h t. unfold program. destruct (d_test d) as [t0|]; [|naive_solver]. destruct (decide (t0 = "")); naive_solver. }
    assert (forall out, process_stdout read_int d out = inl (Some v) <-> stands_for d v /\ forall o, d_stdout d = Some o -> out = o) as Hout.
    { intros out. assert (as_expected d out = true <-> forall o, d_stdout d = Some o -> out = o) as <-.
      { unfold as_expected. destruct (d_stdout d) as [o|]; [rewrite bool_decide_eq_true|]; naive_solver. }
      unfold process_stdout, stands_for, prints_numbers in *. destruct (d_kind d), (as_expected d out); naive_solver. }
    assert (forall h, (match run (match d_test d with Some t => if decide (t = "") then format d h else t | None => format d h end) (d_stdin d) with
                       | Printed out => process_stdout read_int d out | ExecutionError => inl None | RunRaised n => inr (OtherError n) end = inl (Some v)) <->
            stands_for d v /\ exists t out, program h d t /\ run t (d_stdin d) = Printed out /\ forall o, d_stdout d = Some o -> out = o) as Hgo.
    { intros h. destruct (run _ (d_stdin d)) as [out| |n] eqn:Er.
      - rewrite Hout. split.
        + intros [H1 H2]. split; [done|]. eexists _, out. split; [by apply Hprog|]. done.
        + intros (H1 & t & out' & Ht & Hr & Ho). apply Hprog in Ht as ->. rewrite Er in Hr. injection Hr as <-. done.
      - split; [done|]. intros (_ & t & out' & Ht & Hr & _). apply Hprog in Ht as ->. by rewrite Er in Hr.
      - split; [done|]. intros (_ & t & out' & Ht & Hr & _). apply Hprog in Ht as ->. by rewrite Er in Hr. }
    unfold call_desc. cbv zeta. unfold header_for. destruct (is_header d) eqn:Eh.
    - rewrite Hgo. unfold is_header in Eh. destruct (d_kind d); try done. split.
      + intros (H1 & t & out & H2). split; [done|]. by exists None, t, out.
      + intros (H1 & h & t & out & -> & H2). split; [done|]. by exists t, out.
    - assert (forall P Q : Prop, match d_kind d with KHeader _ => P | _ => Q end = Q) as Hh by (intros; unfold is_header in Eh; by destruct (d_kind d)).
      destruct header as [[x|]|].
      + rewrite Hgo. split.
        * intros (H1 & t & out & H2). split; [done|]. exists (Some x), t, out. rewrite Hh. done.
        * intros (H1 & h & t & out & H2 & H3). rewrite Hh in H2. destruct H2 as [_ ->]. split; [done|]. by exists t, out.
      + split; [done|]. intros (_ & h & t & out & H2 & _). rewrite Hh in H2. by destruct H2.
      + rewrite Hgo. split.
        * intros (H1 & t & out & H2). split; [done|]. exists None, t, out. rewrite Hh. done.
        * intros (H1 & h & t & out & H2 & H3). rewrite Hh in H2. subst h. split; [done|]. by exists t, out.
  Qed.

  (** A type is found with the numbers its program prints: alignment, size and whether the sign of a
      number of it can be minus. *)
  Theorem C83_type header d h t out a z : header_for header d h -> program h d t -> run t (d_stdin d) = Printed out ->
    read_int out 0 = inl a -> read_int out 1 = inl z ->
    (d_kind d = KType -> call_desc run read_int format header d = inl (Some (FType a z))) /\
    (forall g, d_kind d = KIntType -> read_int out 2 = inl g -> call_desc run read_int format header d = inl (Some (FIntType a z (bool_decide (g = 1%Z))))).
  Proof.
    intros Hh Hp Hr Ha Hz.
    assert (t = match d_test d with Some t => if decide (t = "") then format d h else t | None => format d h end) as Et.
    { unfold program in Hp. destruct (d_test d) as [t0|]; [|naive_solver]. destruct (decide (t0 = "")); naive_solver. }
    unfold call_desc, header_for, is_header, process_stdout in *. cbv zeta.
    split; [intros Ek|intros g Ek Hg]; rewrite Ek in *; (destruct header as [[x|]|]; [destruct Hh as [_ ->]|by destruct Hh|subst h]); rewrite <- Et, Hr, Ha, Hz; [done..|rewrite Hg; done|rewrite Hg; done].
  Qed.

  (** Without the header nothing is run and nothing is found. *)
  Theorem C83_no_header d run' : is_header d = false ->
    call_desc run' read_int format (Some None) d = inl None.
  Proof. unfold call_desc. by intros ->. Qed.

  (** A program that is not compiled, not linked or fails: nothing is found. *)
  Theorem C83_not_run header d h t : header_for header d h -> program h d t -> run t (d_stdin d) = ExecutionError ->
    call_desc run read_int format header d = inl None.
  Proof.
    intros Hh Hp Hr.
    assert (t = match d_test d with Some t => if decide (t = "") then format d h else t | None => format d h end) as Et.
    { unfold program in Hp. destruct (d_test d) as [t0|]; [|naive_solver]. destruct (decide (t0 = "")); naive_solver. }
    unfold call_desc, header_for, is_header in *. cbv zeta.
    destruct (d_kind d); try (by subst h; rewrite <- Et, Hr); (destruct header as [[x|]|]; [destruct Hh as [_ ->]|by destruct Hh|subst h]); by rewrite <- Et, Hr.
  Qed.
End answers.

(** ** The lists of functions, macros, ... of an object *)

(** functions(), macros(), ... list, in the order of the fields, the name and the attribute of every
    field that is such a test; [value k] is the attribute [k] of the object. *)
Definition tests_of (of_test : kind -> bool) (h : gmap nat desc) (value : string -> option found) (fs : list (string * attr)) : list (string * option found) :=
  omap (fun f => match snd f with
                 | APropDesc d => match h !! d with
                                  | Some x => if of_test (d_kind x) then match d_name x with Some n => Some (n, value (fst f)) | None => None end else None
                                  | None => None
                                  end
                 | _ => None
                 end) fs.
Theorem C83_lists h p s i fs value : plain p -> define (initial h) p = Some s -> fields (s_classes s) i = Some fs ->
  let get k := inl (value k) in
  functions (s_heap s) get fs = inl (tests_of (fun k => match k with KFunction _ _ _ => true | _ => false end) (s_heap s) value fs) /\
  macros (s_heap s) get fs = inl (tests_of (fun k => match k with KMacro => true | _ => false end) (s_heap s) value fs) /\
  types (s_heap s) get fs = inl (tests_of (fun k => match k with KType | KIntType => true | _ => false end) (s_heap s) value fs) /\
  int_types (s_heap s) get fs = inl (tests_of (fun k => match k with KIntType => true | _ => false end) (s_heap s) value fs) /\
  structs (s_heap s) get fs = inl (tests_of (fun k => match k with KStruct _ | KCxxStruct _ => true | _ => false end) (s_heap s) value fs) /\
  variables (s_heap s) get fs = inl (tests_of (fun k => match k with KVariable => true | _ => false end) (s_heap s) value fs).
Proof.
  intros Hp H Hf. cbv zeta. assert (i < length (s_classes s)) as Hi.
  { unfold fields in Hf. destruct (s_classes s !! i) eqn:E; [|done]. by eapply lookup_lt_Some. }
  destruct (C83_exact _ _ _ _ Hp H Hi) as (fs' & Hf' & _ & Hx). rewrite Hf in Hf'. injection Hf' as <-.
  pose proof (define_named _ _ _ H) as Hn.
  assert (forall k a, (k, a) ∈ fs -> match a with APropDesc d => named (s_heap s) d | APropMethod _ => True | AVal _ => False end) as Hall.
  { intros k a Hka. apply Hx in Hka as [Ha Hv]. destruct a as [d|m|v]; [|done|by apply (Hv v)].
    unfold class_attr in Ha. apply search_some in Ha as (l1 & j & l2 & _ & Hj & _). by apply (Hn j k). }
  assert (forall ot ov, select (s_heap s) (fun k => inl (value k)) ot ov fs = inl (tests_of ot (s_heap s) value fs)) as Hs.
  { intros ot ov. clear -Hall. induction fs as [|[k a] fs IH]; [done|]. cbn. pose proof (Hall k a ltac:(by left)) as Ha.
    rewrite IH by (intros k' a' Hk; apply (Hall k' a'); by right). destruct a as [d|m|v]; [|done|done].
    destruct Ha as (x & n & -> & ->). destruct (ot (d_kind x)); [|done]. done. }
  repeat split; apply Hs.
Qed.

(** ** Examples *)

(** A class for math.h and one derived from it.
<<
class math_h(c.Test):
    header = header_test('math.h')
    acos = function_test('double', 'double', test='...')
    HUGE_VAL = macro_test()
    exception = struct_test(('int', 'type'))
    acos = function_test('double', 'double', name='acosl')
class more(math_h):
    fabs = function_test('double', 'double')
    HUGE_VAL = None
class cmath(cxx.Test):
    namespace = 'std'
    header = header_test('cmath')
    acos = function_test('double', 'double')
    HUGE_VAL = macro_test()
>> *)
Definition ex_test (k : kind) (n : option string) : desc := Desc k "" n None None None.
Definition ex_double : kind := KFunction "double" ["double"] [].
Definition ex_heap : gmap nat desc := list_to_map
  [(0, ex_test (KHeader "math.h") None); (1, ex_test ex_double None); (2, ex_test KMacro None);
   (3, ex_test (KStruct [("int", "type")]) None); (4, ex_test ex_double (Some "acosl")); (5, ex_test ex_double None);
   (6, ex_test (KHeader "cmath") None); (7, ex_test ex_double None); (8, ex_test KMacro None); (9, ex_test ex_double None);
   (10, ex_test (KCxxStruct []) None)].
Definition ex_math : class_stmt := CS "math_h" [c_test]
  [SSet "header" (BDesc 0); SSet "acos" (BDesc 1); SSet "HUGE_VAL" (BDesc 2); SSet "exception" (BDesc 3); SSet "acos" (BDesc 4)].
Definition ex_more : class_stmt := CS "more" [2] [SSet "fabs" (BDesc 5); SSet "HUGE_VAL" (BValue PNone)].
Definition ex_cmath : class_stmt := CS "cmath" [cxx_test]
  [SSet "namespace" (BValue (PStr "std")); SSet "header" (BDesc 6); SSet "acos" (BDesc 7); SSet "HUGE_VAL" (BDesc 8)].
Definition ex_program : list class_stmt := [ex_math; ex_more; ex_cmath].
Definition keys_of (o : option state) (i : nat) : option (list (string * attr)) := match o with Some s => fields (s_classes s) i | None => None end.
Definition name_of (o : option state) (d : nat) : option string := match o with Some s => match s_heap s !! d with Some x => d_name x | None => None end | None => None end.

Lemma ex_plain : plain ex_program.
Proof.
  intros c Hc. unfold ex_program in Hc. repeat (apply elem_of_cons in Hc as [->|Hc]); [..|by apply elem_of_nil in Hc]; cbn;
    (split; [by eexists|split; [intros k Hk; by repeat (apply elem_of_cons in Hk as [Hk|Hk]; [done|]); apply elem_of_nil in Hk|]]);
    intros b Hb; repeat (apply elem_of_cons in Hb as [Hb|Hb]; [first [done|by injection Hb as ->]|]); by apply elem_of_nil in Hb.
Qed.
Example C83_ex :
  keys_of (define (initial ex_heap) ex_program) 2 = Some [("header", APropDesc 0); ("acos", APropDesc 4); ("HUGE_VAL", APropDesc 2); ("exception", APropDesc 3)] /\
  keys_of (define (initial ex_heap) ex_program) 3 = Some [("header", APropDesc 0); ("acos", APropDesc 4); ("exception", APropDesc 3); ("fabs", APropDesc 5)] /\
  name_of (define (initial ex_heap) ex_program) 4 = Some "acosl" /\ name_of (define (initial ex_heap) ex_program) 3 = Some "struct exception" /\
  name_of (define (initial ex_heap) ex_program) 7 = Some "std::acos" /\ name_of (define (initial ex_heap) ex_program) 8 = Some "HUGE_VAL" /\
  name_of (define (initial ex_heap) ex_program) 1 = None.
Proof. by vm_compute. Qed.

(** The program for fabs runs if the header was found; the object has it or not. *)
Definition ex_run (t : string) (i : option string) : ran := if decide (t = "math.h fabs") then Printed "" else ExecutionError.
Definition ex_format (d : desc) (h : option string) : string := default "" h +:+ " " +:+ d_key d.
Example C83_answer_ex : let d := Desc ex_double "fabs" (Some "fabs") None None None in
  call_desc ex_run (fun _ _ => inr ValueError) ex_format (Some (Some "math.h")) d = inl (Some (FFunction "double" ["double"])) /\
  call_desc ex_run (fun _ _ => inr ValueError) ex_format (Some (Some "cmath")) d = inl None /\
  call_desc ex_run (fun _ _ => inr ValueError) ex_format (Some None) d = inl None.
Proof. by vm_compute. Qed.
Example C83_lists_ex : match define (initial ex_heap) ex_program with
  | Some s => match fields (s_classes s) 3 with
              | Some fs => functions (s_heap s) (fun k => inl (if decide (k = "acos") then None else Some FMacro)) fs =
                  inl [("acosl", None); ("fabs", Some FMacro)]
              | None => False
              end
  | None => False
  end.
Proof. by vm_compute. Qed.

(** ** What fails outside these conditions *)

(** With several base classes a name may be listed more than once: both of them may list it, as
    happens in lib/fbuild/config/cxx/cmath.py with header. *)
Definition C83_once_claim : Prop := forall h p s i fs, define (initial h) p = Some s -> fields (s_classes s) i = Some fs -> NoDup fs.*1.
Theorem C83_once_refuted : ~ C83_once_claim.
Proof.
  intros H. destruct (define (initial ex_heap) [CS "a" [0] [SSet "header" (BDesc 0)]; CS "b" [0] [SSet "header" (BDesc 6)]; CS "c" [2; 3] []]) as [s|] eqn:E; [|by vm_compute in E].
  assert (fields (s_classes s) 4 = Some [("header", APropDesc 0); ("header", APropDesc 0)]) as Hf.
  { change (keys_of (Some s) 4 = Some [("header", APropDesc 0); ("header", APropDesc 0)]). rewrite <- E. by vm_compute. }
  specialize (H _ _ _ _ _ E Hf). cbn in H. apply NoDup_cons in H as [H _]. apply H. by left.
Qed.
(** A name of one base class may be listed although another base class binds it to something that
    is no field; then functions() may fail. *)
Definition C83_field_claim : Prop := forall h p s i fs k v, define (initial h) p = Some s -> fields (s_classes s) i = Some fs -> (k, AVal v) ∉ fs.
Theorem C83_field_refuted : ~ C83_field_claim.
Proof.
  intros H. destruct (define (initial ex_heap) [CS "a" [0] [SSet "acos" (BValue (PObj 7))]; CS "b" [0] [SSet "acos" (BDesc 1)]; CS "c" [2; 3] []]) as [s|] eqn:E; [|by vm_compute in E].
  assert (fields (s_classes s) 4 = Some [("acos", AVal (PObj 7))]) as Hf.
  { change (keys_of (Some s) 4 = Some [("acos", AVal (PObj 7))]). rewrite <- E. by vm_compute. }
  apply (H _ _ _ _ _ "acos" (PObj 7) E Hf). by left.
Qed.
Example C83_field_raises : functions ∅ (fun k => inl (Some (FFunction "double" []))) [("acos", AVal (PObj 7))] = inr AttributeError.
Proof. done. Qed.
(** A method that makes a Function is a field, but functions() does not list it. *)
Definition C83_methods_claim : Prop := forall h k m v, functions h (fun _ => inl (Some (FFunction v []))) [(k, APropMethod m)] <> inl [].
Theorem C83_methods_refuted : ~ C83_methods_claim.
Proof. intros H. by apply (H ∅ "f" 0 "int"). Qed.

(** A class with a namespace that is derived from a class with one: the tests it inherits get a
    second prefix, in the class it inherits them from as well. *)
Theorem C83_twice_refuted : exists p, keys_of (define (initial ex_heap) p) 2 = Some [("acos", APropDesc 7)] /\
  name_of (define (initial ex_heap) (take 1 p)) 7 = Some "std::acos" /\ name_of (define (initial ex_heap) p) 7 = Some "std::std::acos".
Proof.
  exists [CS "a" [cxx_test] [SSet "namespace" (BValue (PStr "std")); SSet "acos" (BDesc 7)]; CS "b" [2] [SSet "namespace" (BValue (PStr "std")); SSet "fabs" (BDesc 9)]].
  by vm_compute.
Qed.
(** A class derived without a namespace: the namespace of its base class is not used for the fields
    that it adds, as happens in lib/fbuild/config/cxx/iterator.py. *)
Theorem C83_inherited_refuted : exists p, name_of (define (initial ex_heap) p) 7 = Some "std::acos" /\ name_of (define (initial ex_heap) p) 9 = Some "fabs".
Proof.
  exists [CS "a" [cxx_test] [SSet "namespace" (BValue (PStr "std")); SSet "acos" (BDesc 7)]; CS "b" [2] [SSet "fabs" (BDesc 9)]].
  by vm_compute.
Qed.
(** A class with a namespace and a method decorated with cacheproperty, and a C++ class with a test
    for a structure, cannot be made. *)
Theorem C83_make_refuted :
  define (initial ex_heap) [CS "a" [cxx_test] [SSet "namespace" (BValue (PStr "std")); SSet "f" (BMethod 0)]] = None /\
  define (initial ex_heap) [CS "a" [cxx_test] [SSet "tm" (BDesc 10)]] = None.
Proof. by vm_compute. Qed.
(** Comparing two results for functions that return the same type fails. *)
Theorem C83_equal_refuted r : function_eq r r = inr AttributeError.
Proof. unfold function_eq. by destruct (decide (r = r)). Qed.
(** Tests of different classes or with different keys are distinguished. *)
Fixpoint no_dot (s : string) : Prop := match s with EmptyString => True | String c s => c <> Ascii.ascii_of_nat 46 /\ no_dot s end.
Definition C83_classes_claim : Prop := forall c c' d d', no_dot (c_name c) -> no_dot (c_name c') ->
  field_name c d = field_name c' d' -> c_name c = c_name c' /\ d_key d = d_key d'.
Lemma no_dot_split a : forall b x y, no_dot a -> no_dot b -> a +:+ "." +:+ x = b +:+ "." +:+ y -> a = b /\ x = y.
Proof.
  induction a as [|c a IH]; intros [|c' b] x y Ha Hb E; cbn in *.
  - injection E as E. split; [reflexivity|exact E].
  - injection E as <- _. destruct Hb as [[] _]. reflexivity.
  - injection E as -> _. destruct Ha as [[] _]. reflexivity.
  - injection E as <- E. destruct (IH b x y (proj2 Ha) (proj2 Hb) E) as [-> ->]. split; reflexivity.
Qed.
Theorem C83_classes : C83_classes_claim.
Proof.
  intros c c' d d' H H' E. unfold field_name in E.
  destruct (d_kind d), (d_kind d'); cbn in E; first [discriminate E | (injection E as E; exact (no_dot_split _ _ _ _ H H' E))].
Qed.
Example C83_classes_example :
  no_dot "a" /\ no_dot "b" /\
  field_name (Cls "a" [] [] ∅ [] false []) (Desc KMacro "k" None None None None) <> field_name (Cls "b" [] [] ∅ [] false []) (Desc KMacro "k" None None None None).
Proof. split; [split; [discriminate|exact I]|split; [split; [discriminate|exact I]|discriminate]]. Qed.
(** The database does not distinguish two tests with the same key whose programs, signatures or
    expected outputs differ: after an edit of the test the stored result is used. *)
Definition C83_edited_claim : Prop := forall text c d e, d_key d = d_key e -> d_test d <> d_test e ->
  (field_name c d, field_digest text d) <> (field_name c e, field_digest text e).
Theorem C83_edited_refuted : ~ C83_edited_claim.
Proof.
  intros H. apply (H "" (Cls "a" [] [] ∅ [] false []) (Desc KMacro "k" None (Some "int main() {}") None None) (Desc KMacro "k" None None None None)); done.
Qed.

Print Assumptions C83_complete.
Print Assumptions C83_exact.
Print Assumptions C83_order.
Print Assumptions C83_attr.
Print Assumptions C83_names.
Print Assumptions C83_kept.
Print Assumptions C83_found.
Print Assumptions C83_type.
Print Assumptions C83_no_header.
Print Assumptions C83_not_run.
Print Assumptions C83_lists.
Print Assumptions C83_once_refuted.
Print Assumptions C83_field_refuted.
Print Assumptions C83_methods_refuted.
Print Assumptions C83_twice_refuted.
Print Assumptions C83_inherited_refuted.
Print Assumptions C83_make_refuted.
Print Assumptions C83_equal_refuted.
Print Assumptions C83_edited_refuted.
Print Assumptions C83_classes.
