(** Lemmas about old-style options and hooks. *)
From Coq Require Import String List Bool ZArith Lia.
From Verif Require Import OptModel OptSpec.
Import ListNotations.
Open Scope string_scope.
Open Scope list_scope.

Lemma kget_pop_same k d : kget k (kpop k d) = None.
Proof.
  induction d as [|[k' v] d IH]; simpl; [reflexivity|].
  destruct (String.eqb k k') eqn:E; simpl; [exact IH|]. rewrite E. exact IH.
Qed.
Lemma kget_pop_other k k' d : k <> k' -> kget k (kpop k' d) = kget k d.
Proof.
  intros H. induction d as [|[k0 v] d IH]; simpl; [reflexivity|].
  destruct (String.eqb k' k0) eqn:E; simpl.
  - apply String.eqb_eq in E. subst k0. apply String.eqb_neq in H. rewrite H. exact IH.
  - destruct (String.eqb k k0); [reflexivity|exact IH].
Qed.
Lemma drop_other k d : k <> "nargs" -> kget k (drop_nargs d) = kget k d.
Proof.
  intros H. unfold drop_nargs. destruct (kget "nargs" d) as [[| | |z| |]|]; try reflexivity.
  destruct z as [|q|q]; try reflexivity. destruct q; try reflexivity. apply kget_pop_other. exact H.
Qed.
Lemma drop_one d : kget "nargs" d = Some (VInt 1) -> kget "nargs" (drop_nargs d) = None.
Proof. intros H. unfold drop_nargs. rewrite H. apply kget_pop_same. Qed.
Lemma drop_more d : kget "nargs" d <> Some (VInt 1) -> drop_nargs d = d.
Proof.
  intros H. unfold drop_nargs. destruct (kget "nargs" d) as [[| | |z| |]|]; try reflexivity.
  destruct z as [|q|q]; try reflexivity. destruct q; try reflexivity. congruence.
Qed.

Lemma class_converts s c : class_of s TYPE_MAP = Some c <-> converts s c.
Proof.
  split.
  - unfold TYPE_MAP. simpl.
    repeat (match goal with |- context [String.eqb s ?k] => destruct (String.eqb_spec s k); [subst; intros [= <-]; constructor|] end).
    discriminate.
  - destruct 1; reflexivity.
Qed.
Lemma known_class v : known_type v <-> v = VNone \/ exists s c, v = VStr s /\ class_of s TYPE_MAP = Some c.
Proof.
  unfold known_type. split; (intros [H|(s & c & H & Hc)]; [left; exact H|right; exists s, c; split; [exact H|]]).
  - apply class_converts. exact Hc.
  - apply class_converts. exact Hc.
Qed.

(** What the loop adds for one attribute. *)
Definition given (o : opt) (k : string) : option val :=
  let v := o_attr o k in
  if existsb (String.eqb k) ("nargs" :: shared) then if is_none v then None else Some v
  else if String.eqb k "default" then if is_no_default v then None else Some v
  else if String.eqb k "type" then
    match v with VStr s => option_map VClass (class_of s TYPE_MAP) | _ => None end
  else None.

Definition put (k : string) (v : option val) (kw : kws) : kws := match v with Some v => kset k v kw | None => kw end.
Lemma kget_put k k' v kw : kget k (put k' v kw) = if String.eqb k k' then match v with Some v => Some v | None => kget k kw end else kget k kw.
Proof. destruct v; simpl; destruct (String.eqb k k'); reflexivity. Qed.

Lemma take_given o kw k : known_type (o_attr o "type") -> In k ATTRS -> take o (Some kw) k = Some (put k (given o k) kw).
Proof.
  intros Ht Hk. apply known_class in Ht. simpl in Hk.
  destruct Hk as [<-|[<-|[<-|[<-|[<-|[<-|[<-|[<-|[<-|[<-|[<-|[<-|[]]]]]]]]]]]]]; unfold take, given; simpl;
    try reflexivity;
    try (destruct (is_none _); reflexivity);
    try (destruct (is_no_default _); reflexivity).
  destruct Ht as [->|(s & c & -> & Hc)]; [reflexivity|]. simpl in Hc. simpl. rewrite Hc. reflexivity.
Qed.
Lemma take_all o : known_type (o_attr o "type") -> forall l kw, (forall k, In k l -> In k ATTRS) ->
  fold_left (take o) l (Some kw) = Some (fold_left (fun kw k => put k (given o k) kw) l kw).
Proof.
  intros Ht. induction l as [|k l IH]; intros kw H; cbn [fold_left]; [reflexivity|].
  rewrite (take_given o kw k Ht (H k (or_introl eq_refl))). apply IH. intros k' Hk'. apply H. right. exact Hk'.
Qed.
Lemma kget_all o k : forall l kw,
  kget k (fold_left (fun kw k => put k (given o k) kw) l kw) =
  if existsb (String.eqb k) l then match given o k with Some v => Some v | None => kget k kw end else kget k kw.
Proof.
  induction l as [|k' l IH]; intros kw; cbn [fold_left existsb]; [reflexivity|].
  rewrite IH, kget_put. destruct (String.eqb_spec k k') as [<-|Hn]; simpl; [|reflexivity].
  destruct (existsb (String.eqb k) l), (given o k); reflexivity.
Qed.
Lemma given_attr o k : existsb (String.eqb k) ATTRS = false -> given o k = None.
Proof.
  unfold given, ATTRS, shared. cbn [existsb].
  repeat match goal with |- context [String.eqb k ?s] => destruct (String.eqb k s) eqn:?; cbn [orb]; try discriminate end.
  reflexivity.
Qed.
Lemma loop_ok o kw : known_type (o_attr o "type") -> exists kw', fold_left (take o) ATTRS (Some kw) = Some kw' /\
  forall k, kget k kw' = match given o k with Some v => Some v | None => kget k kw end.
Proof.
  intros Ht. eexists. split; [apply take_all; [exact Ht|tauto]|].
  intros k. rewrite kget_all. destruct (existsb (String.eqb k) ATTRS) eqn:E; [reflexivity|].
  rewrite (given_attr o k E). reflexivity.
Qed.
Lemma take_none o l : fold_left (take o) l None = None.
Proof. induction l; simpl; [reflexivity|assumption]. Qed.
Lemma loop_bad o kw : ~ known_type (o_attr o "type") -> fold_left (take o) ATTRS (Some kw) = None.
Proof.
  intros H. unfold ATTRS. cbn [fold_left].
  destruct (take o (Some kw) "action") as [kw1|] eqn:E.
  2:{ unfold take in E. simpl in E. destruct (is_none _); discriminate. }
  replace (take o (Some kw1) "type") with (@None kws); [rewrite ?take_none; reflexivity|].
  unfold take. simpl. unfold known_type in H.
  destruct (o_attr o "type") as [| |s| | |] eqn:Ea; try reflexivity; [exfalso; apply H; left; reflexivity|].
  destruct (class_of s TYPE_MAP) as [c|] eqn:Ec; simpl in Ec; [|simpl; rewrite Ec; reflexivity].
  exfalso. apply H. right. exists s, c. split; [reflexivity|]. apply class_converts. exact Ec.
Qed.

Lemma is_none_iff v : is_none v = true <-> v = VNone.
Proof. destruct v; simpl; split; congruence. Qed.
Lemma is_no_default_iff v : is_no_default v = true <-> v = VNoDefault.
Proof. destruct v; simpl; split; congruence. Qed.

Lemma shared_given o k : In k shared -> given o k = if is_none (o_attr o k) then None else Some (o_attr o k).
Proof. simpl. intros [<-|[<-|[<-|[<-|[<-|[<-|[]]]]]]]; reflexivity. Qed.
Lemma other_given o k : ~ In k shared -> k <> "nargs" -> k <> "default" -> k <> "type" -> given o k = None.
Proof.
  intros Hs Hn Hd Ht. unfold given.
  apply String.eqb_neq in Hd, Ht. rewrite Hd, Ht.
  destruct (existsb (String.eqb k) ("nargs" :: shared)) eqn:E; [|reflexivity].
  exfalso. apply existsb_exists in E. destruct E as (x & Hx & Ex). apply String.eqb_eq in Ex. subst x.
  destruct Hx as [Hx|Hx]; [apply Hn; symmetry; exact Hx|tauto].
Qed.

(** All keywords but nargs, before it is dropped. *)
Lemma given_translated o k : known_type (o_attr o "type") -> k <> "nargs" -> translated o k (given o k).
Proof.
  intros Ht Hn.
  destruct (in_dec String.string_dec k shared) as [Hs|Hs].
  - rewrite shared_given by exact Hs. destruct (is_none (o_attr o k)) eqn:E.
    + apply tr_unset; [exact Hs|apply is_none_iff; exact E].
    + apply tr_shared; [exact Hs|]. intros E'. apply is_none_iff in E'. congruence.
  - destruct (String.string_dec k "default") as [->|Hd].
    + unfold given. simpl. destruct (is_no_default _) eqn:E.
      * apply tr_no_default. apply is_no_default_iff. exact E.
      * apply tr_default. intros E'. apply is_no_default_iff in E'. congruence.
    + destruct (String.string_dec k "type") as [->|Hty].
      * apply known_class in Ht. unfold given. simpl. destruct Ht as [Ht|(s & c & Ht & Hc)].
        -- rewrite Ht. apply tr_no_type. exact Ht.
        -- rewrite Ht. simpl in Hc. rewrite Hc. simpl. apply (tr_type o s c); [exact Ht|]. apply class_converts. exact Hc.
      * rewrite other_given by assumption. apply tr_other; assumption.
Qed.

Lemma option_more o args kw0 : known_type (o_attr o "type") ->
  exists kw, add_option_ (AOpt o :: args) kw0 = Adds (args ++ names_of o) kw /\
  (forall k, k <> "nargs" -> exists v, translated o k v /\ kget k kw = match v with Some x => Some x | None => kget k kw0 end) /\
  (kget "nargs" kw0 = None -> translated o "nargs" (kget "nargs" kw)).
Proof.
  intros Ht. destruct (loop_ok o kw0 Ht) as (kw & E & Hk). exists (drop_nargs kw).
  unfold add_option_. rewrite E. split; [reflexivity|]. split.
  - intros k Hn. exists (given o k). split; [apply given_translated; assumption|].
    rewrite drop_other by exact Hn. apply Hk.
  - intros H0. pose proof (Hk "nargs") as Hg. rewrite H0 in Hg. unfold given in Hg. simpl in Hg.
    destruct (is_none (o_attr o "nargs")) eqn:En.
    + rewrite drop_more by congruence. rewrite Hg. apply tr_single. left. apply is_none_iff. exact En.
    + destruct (kget "nargs" kw) as [v|] eqn:Ek; [|discriminate]. injection Hg as Hv.
      assert (Hnn : o_attr o "nargs" <> VNone) by (intros X; apply is_none_iff in X; congruence).
      assert (Hd : v = VInt 1 \/ v <> VInt 1).
      { destruct v as [| | |z| |]; try (right; discriminate). destruct (Z.eq_dec z 1) as [->|]; [left; reflexivity|right; congruence]. }
      destruct Hd as [->|Hd].
      * rewrite drop_one by exact Ek. apply tr_single. right. congruence.
      * rewrite drop_more by congruence. rewrite Ek, Hv. apply tr_nargs; congruence.
Qed.
Lemma option_only o : known_type (o_attr o "type") ->
  exists kw, add_option_ [AOpt o] [] = Adds (names_of o) kw /\ forall k, translated o k (kget k kw).
Proof.
  intros Ht. destruct (option_more o [] [] Ht) as (kw & E & Ho & Hn). exists kw. split; [exact E|].
  intros k. destruct (String.string_dec k "nargs") as [->|H]; [apply Hn; reflexivity|].
  destruct (Ho k H) as (v & Hv & ->). destruct v; exact Hv.
Qed.

(** Warnings. *)
Lemma add_one_calm t args kw : is_warning (add_one t args kw) = false.
Proof. unfold add_one. destruct (add_option_ args kw); reflexivity. Qed.
Lemma add_all_calm t l : Forall (fun s => is_warning s = false) (add_all t l).
Proof.
  induction l as [|a l IH]; simpl; [constructor|].
  pose proof (add_one_calm t [a] []) as H. destruct (add_one t [a] []); repeat constructor; assumption.
Qed.
Lemma warned_calm p t : p_warned p = true -> warned p t = ([], p).
Proof. intros H. unfold warned. destruct t; [reflexivity|]. rewrite H. reflexivity. Qed.
Lemma do_call_calm p c : p_warned p = true -> Forall (fun s => is_warning s = false) (fst (do_call p c)) /\ p_warned (snd (do_call p c)) = true.
Proof.
  intros H. destruct c as [t args kw|t l|]; unfold do_call; rewrite ?warned_calm by exact H.
  - destruct (exists_ p t); simpl; [|split; [constructor|exact H]]. split; [repeat constructor; apply add_one_calm|exact H].
  - destruct (exists_ p t); simpl; [|split; [constructor|exact H]]. split; [apply add_all_calm|exact H].
  - simpl. split; [repeat constructor|exact H].
Qed.
Lemma do_calls_calm cs : forall p, p_warned p = true -> Forall (fun s => is_warning s = false) (fst (do_calls p cs)).
Proof.
  induction cs as [|c cs IH]; intros p H; simpl; [constructor|].
  destruct (do_call_calm p c H) as [H1 H2]. destruct (do_call p c) as [s p'].
  simpl in *. specialize (IH p' H2). destruct (do_calls p' cs) as [s' p'']. simpl in *. apply Forall_app. split; assumption.
Qed.
Lemma on_parser_dec c : {on_parser c} + {~ on_parser c}.
Proof. destruct c as [[n|] ? ?|[n|] ?|]; simpl; (left; exact I) || (right; tauto). Qed.
Lemma do_call_first n c : on_parser c ->
  exists rest p', do_call (Parser false n) c = (Warned :: rest, p') /\ Forall (fun s => is_warning s = false) rest /\ p_warned p' = true.
Proof.
  destruct c as [[m|] args kw|[m|] l|]; simpl; intros H; try contradiction.
  - exists [add_one None args kw]. eexists. split; [reflexivity|]. split; [repeat constructor; apply add_one_calm|reflexivity].
  - exists (add_all None l). eexists. split; [reflexivity|]. split; [apply add_all_calm|reflexivity].
  - eexists _, _. split; [reflexivity|]. split; [repeat constructor|reflexivity].
Qed.
Lemma do_call_nothing c : ~ on_parser c -> do_call fresh_parser c = ([], fresh_parser).
Proof. destruct c as [[m|] args kw|[m|] l|]; simpl; intros H; try (exfalso; apply H; exact I); destruct m; reflexivity. Qed.
Lemma warn_once cs : (exists c, In c cs /\ on_parser c) ->
  exists rest, fst (do_calls fresh_parser cs) = Warned :: rest /\ Forall (fun s => is_warning s = false) rest.
Proof.
  induction cs as [|c cs IH]; intros (x & Hx & Hp); [destruct Hx|]. simpl.
  destruct (on_parser_dec c) as [Hc|Hc].
  - destruct (do_call_first 0 c Hc) as (rest & p' & E & Hr & Hw). unfold fresh_parser. rewrite E.
    pose proof (do_calls_calm cs p' Hw) as H. destruct (do_calls p' cs) as [s' p'']. simpl in *.
    exists (rest ++ s'). split; [reflexivity|]. apply Forall_app. split; assumption.
  - rewrite do_call_nothing by exact Hc. destruct Hx as [->|Hx]; [contradiction|].
    destruct IH as (rest & E & Hr); [exists x; tauto|]. destruct (do_calls fresh_parser cs) as [s' p'']. exists rest. tauto.
Qed.
Lemma warn_never cs : (forall c, In c cs -> ~ on_parser c) -> do_calls fresh_parser cs = ([], fresh_parser).
Proof.
  induction cs as [|c cs IH]; intros H; simpl; [reflexivity|].
  rewrite do_call_nothing by (apply H; left; reflexivity). rewrite IH; [reflexivity|]. intros c' Hc. apply H. right. exact Hc.
Qed.

Lemma effects_warned p t l : Forall (fun s => is_warning s = false) l -> effects (fst (let '(w, p') := warned p t in (w ++ l, p'))) = l.
Proof.
  intros H. assert (E : effects l = l).
  { induction H as [|s l Hs Hl IH]; [reflexivity|]. unfold effects in *. simpl. rewrite Hs. simpl. rewrite IH. reflexivity. }
  unfold warned. destruct t as [n|]; [exact E|]. destruct (p_warned p); exact E.
Qed.

Lemma add_one_becomes t a : option_known a -> becomes t a (add_one t [a] []).
Proof.
  destruct a as [s|o]; simpl; intros H.
  - apply become_string.
  - unfold add_one. destruct (option_only o H) as (kw & -> & Hk). apply become_option; assumption.
Qed.
Lemma add_all_becomes t l1 : forall l2, Forall option_known l1 ->
  exists r, add_all t (l1 ++ l2) = r ++ add_all t l2 /\ Forall2 (becomes t) l1 r.
Proof.
  induction l1 as [|a l1 IH]; intros l2 H; simpl; [exists []; split; [reflexivity|constructor]|].
  inversion_clear H as [|? ? Ha Hl]. destruct (IH l2 Hl) as (r & E & Hr).
  pose proof (add_one_becomes t a Ha) as Hb. exists (add_one t [a] [] :: r). rewrite E.
  split; [|constructor; assumption]. inversion Hb; reflexivity.
Qed.
Lemma add_all_bad t o l : ~ known_type (o_attr o "type") -> add_all t (AOpt o :: l) = [KeyError].
Proof. intros H. cbn [add_all]. unfold add_one, add_option_. rewrite loop_bad by exact H. reflexivity. Qed.

(** Hooks. *)
Lemma hook_ok {world} (r : root world) new na old oa w es w' v :
  call_or_deprecated world r new na old oa w = (es, w', v) <-> hook r new na old oa w es w' v.
Proof.
  unfold call_or_deprecated. split.
  - destruct (r new) as [f|] eqn:En.
    + destruct (f na w) as [w1 v1] eqn:Ef. intros [= <- <- <-]. eapply hook_new; eassumption.
    + destruct (r old) as [f|] eqn:Eo.
      * destruct (f oa w) as [w1 v1] eqn:Ef. intros [= <- <- <-]. eapply hook_old; eassumption.
      * intros [= <- <- <-]. apply hook_none; assumption.
  - destruct 1 as [f w' v En Ef|f w' v En Eo Ef|En Eo]; rewrite En, ?Eo, ?Ef; reflexivity.
Qed.
Lemma used_ok v x y : or_else v x = inl y <-> used x v y.
Proof.
  split.
  - destruct v; simpl; intros [= <-]; constructor.
  - destruct 1; reflexivity.
Qed.
Lemma parse_runs {world} (r : root world) parse made prog argv w es w' res :
  parse_args world r parse made (prog :: argv) w = (es, w', res) <-> runs r parse made argv w es w' res.
Proof.
  unfold parse_args. simpl tl. split.
  - destruct (call_or_deprecated world r "arguments" [made] "pre_options" [made] w) as [[es1 w1] v] eqn:E1.
    apply hook_ok in E1. destruct (or_else v made) as [p|e] eqn:Eo.
    + apply used_ok in Eo. destruct (parse p argv w1) as [w2 [a|e]] eqn:Ep.
      * destruct (call_or_deprecated world r "post_arguments" [p; a] "post_options" [a] w2) as [[es3 w3] v'] eqn:E3.
        apply hook_ok in E3. destruct (or_else v' a) as [a'|e] eqn:Eo'.
        -- apply used_ok in Eo'. intros [= <- <- <-]. simpl. eapply run_ends; eassumption.
        -- destruct v'; try discriminate. injection Eo' as ->. intros [= <- <- <-]. simpl. eapply run_fails_after; eassumption.
      * intros [= <- <- <-]. eapply run_fails_parse; eassumption.
    + destruct v; try discriminate. injection Eo as ->. intros [= <- <- <-]. eapply run_fails_before; eassumption.
  - destruct 1 as [es w1 e H1|es w1 v p w2 e H1 Hu Hp|es w1 v p w2 a es' w3 e H1 Hu Hp H3|es w1 v p w2 a es' w3 v' a' H1 Hu Hp H3 Hu'];
      apply hook_ok in H1; rewrite H1; try (apply used_ok in Hu; rewrite Hu, Hp); try reflexivity.
    + apply hook_ok in H3. rewrite H3. reflexivity.
    + apply hook_ok in H3. rewrite H3. apply used_ok in Hu'. rewrite Hu'. reflexivity.
Qed.
