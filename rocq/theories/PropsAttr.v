(** C102: records, and reading configuration by path. *)
From Coq Require Import List ZArith Bool String Ascii Lia.
From Verif Require Import AttrModel AttrSpec.
Import ListNotations.
Open Scope string_scope.

Lemma find_set k v l k' : find k' (set_item k v l) = if k' =? k then Some v else find k' l.
Proof.
  induction l as [|[a b] l IH]; cbn [set_item find]; [reflexivity|].
  destruct (String.eqb_spec k a) as [<-|N]; cbn [find].
  - destruct (k' =? k); reflexivity.
  - rewrite IH. destruct (String.eqb_spec k' a) as [->|]; [|reflexivity]. destruct (String.eqb_spec a k) as [E|_]; [destruct (N (eq_sym E))|reflexivity].
Qed.
Lemma do_set_eq items s : do_set items s = set_item (key_of s) (value_of s) items.
Proof. destruct s; reflexivity. Qed.
Lemma filled_app l s : filled (List.app l [s]) = set_item (key_of s) (value_of s) (filled l).
Proof. unfold filled. rewrite fold_left_app. cbn. apply do_set_eq. Qed.

Lemma filled_find l k v : find k (filled l) = Some v <-> last_set l k v.
Proof.
  revert v. induction l as [|s l IH] using rev_ind; intros v.
  - split; [discriminate|]. intros (b & s & a & E & _). destruct b; discriminate.
  - rewrite filled_app, find_set. destruct (String.eqb_spec k (key_of s)) as [->|N].
    + split.
      * intros [= <-]. exists l, s, []. repeat split. constructor.
      * intros (b & s' & a & E & Hk & Hv & Ha). destruct a as [|x a _] using rev_ind.
        -- apply app_inj_tail in E. destruct E as [_ ->]. rewrite Hv. reflexivity.
        -- rewrite app_comm_cons, app_assoc in E. apply app_inj_tail in E. destruct E as [_ ->]. apply Forall_app in Ha. destruct Ha as [_ Ha]. inversion Ha as [|? ? Hx _]. destruct (Hx eq_refl).
    + rewrite IH. split.
      * intros (b & s' & a & -> & Hk & Hv & Ha). exists b, s', (List.app a [s]). rewrite <- app_assoc. repeat split; try assumption. apply Forall_app. split; [exact Ha|]. constructor; [congruence|constructor].
      * intros (b & s' & a & E & Hk & Hv & Ha). destruct a as [|x a _] using rev_ind.
        -- apply app_inj_tail in E. destruct E as [_ <-]. congruence.
        -- rewrite app_comm_cons, app_assoc in E. apply app_inj_tail in E. destruct E as [-> <-]. apply Forall_app in Ha. destruct Ha as [Ha _]. exists b, s', a. repeat split; assumption.
Qed.
(** Reading an attribute of a record that is no attribute of dict gives the last value it was set to, as attribute or item. *)
Definition C102_record_claim : Prop :=
  forall builtin l k v, builtin k = false -> (get_attribute builtin (filled l) k = Some v <-> last_set l k v).
Theorem C102_record : C102_record_claim.
Proof. intros b l k v H. unfold get_attribute. rewrite H. apply filled_find. Qed.
(** As a dict it gives the last value for all keys, and has each key once, in the order in which they were first set. *)
Definition C102_items_claim : Prop :=
  forall l, (forall k v, In (k, v) (filled l) <-> last_set l k v) /\ map fst (filled l) = firsts [] (map key_of l) /\ NoDup (map fst (filled l)).
Lemma set_keys k v l : map fst (set_item k v l) = if existsb (String.eqb k) (map fst l) then map fst l else List.app (map fst l) [k].
Proof.
  induction l as [|[a b] l IH]; cbn [set_item map existsb fst]; [reflexivity|]. destruct (k =? a); cbn [orb map fst]; [reflexivity|]. rewrite IH.
  destruct (existsb (String.eqb k) (map fst l)); reflexivity.
Qed.
Lemma existsb_ext' k l l' : (forall x, In x l <-> In x l') -> existsb (String.eqb k) l = existsb (String.eqb k) l'.
Proof. intros H. apply Bool.eq_true_iff_eq. rewrite !existsb_exists. split; intros (x & A & B); exists x; split; try assumption; apply H; assumption. Qed.
Lemma firsts_ext l : forall s s', (forall x, In x s <-> In x s') -> firsts s l = firsts s' l.
Proof.
  induction l as [|k l IH]; intros s s' H; cbn [firsts]; [reflexivity|]. rewrite (existsb_ext' k s s' H), (IH s s' H), (IH (k :: s) (k :: s')); [reflexivity|].
  intros x. cbn. rewrite H. tauto.
Qed.
Lemma firsts_app l : forall s k, firsts s (List.app l [k]) = List.app (firsts s l) (if existsb (String.eqb k) (List.app s (firsts s l)) then [] else [k]).
Proof.
  induction l as [|a l IH]; intros s k; cbn [firsts app].
  - rewrite app_nil_r. destruct (existsb (String.eqb k) s); reflexivity.
  - destruct (existsb (String.eqb a) s) eqn:E; [apply IH|]. rewrite IH. cbn [app]. f_equal. f_equal.
    rewrite (existsb_ext' k (a :: List.app s (firsts (a :: s) l)) (List.app s (a :: firsts (a :: s) l))); [reflexivity|]. intros x. cbn [In]. rewrite !in_app_iff. cbn [In]. tauto.
Qed.
Lemma NoDup_firsts l : forall s, NoDup (firsts s l) /\ forall x, In x (firsts s l) -> ~ In x s.
Proof.
  induction l as [|k l IH]; intros s; cbn [firsts]; [split; [constructor|intros ? []]|]. destruct (existsb (String.eqb k) s) eqn:E; [apply IH|].
  destruct (IH (k :: s)) as [N F]. split.
  - constructor; [|exact N]. intros H. apply (F k H). left. reflexivity.
  - intros x [<-|H]; [|intros K; apply (F x H); right; exact K]. intros K. assert (existsb (String.eqb k) s = true); [|congruence]. apply existsb_exists. exists k. split; [exact K|apply String.eqb_refl].
Qed.
Lemma find_in l k v : NoDup (map fst l) -> (In (k, v) l <-> find k l = Some v).
Proof.
  induction l as [|[a b] l IH]; cbn [map fst find]; intros N; [split; [intros []|discriminate]|]. inversion N as [|? ? N1 N2]. subst.
  destruct (String.eqb_spec k a) as [->|Na].
  - split; [intros [[= ->]|H]; [reflexivity|]|intros [= ->]; left; reflexivity]. destruct N1. apply in_map_iff. exists (a, v). split; [reflexivity|exact H].
  - rewrite <- (IH N2). split; [intros [[= <- _]|H]; [destruct (Na eq_refl)|exact H]|intros H; right; exact H].
Qed.
Theorem C102_items : C102_items_claim.
Proof.
  intros l. assert (map fst (filled l) = firsts [] (map key_of l)) as K.
  { induction l as [|s l IH] using rev_ind; [reflexivity|]. rewrite filled_app, set_keys, IH, map_app. cbn [map]. rewrite firsts_app. cbn [app].
    destruct (existsb (String.eqb (key_of s)) (firsts [] (map key_of l))); [rewrite app_nil_r; reflexivity|reflexivity]. }
  assert (NoDup (map fst (filled l))) as N by (rewrite K; apply NoDup_firsts). split; [|split; assumption].
  intros k v. rewrite (find_in _ _ _ N). apply filled_find.
Qed.

Lemma sapp_nil_r a : a ++ "" = a.
Proof. induction a as [|x a IH]; cbn; [reflexivity|]. rewrite IH. reflexivity. Qed.
Lemma sapp_assoc_r a : forall b c, (a ++ b) ++ c = a ++ (b ++ c).
Proof. induction a as [|x a IH]; intros b c; cbn; [reflexivity|]. rewrite IH. reflexivity. Qed.
Lemma split_word w : forall cur, no_dot w -> split_from cur w = [cur ++ w].
Proof.
  induction w as [|x w IH]; intros cur H; cbn; [rewrite sapp_nil_r; reflexivity|]. destruct H as [H1 H2]. destruct (Ascii.eqb_spec x "."%char); [contradiction|].
  rewrite (IH _ H2), sapp_assoc_r. reflexivity.
Qed.
Lemma split_more w : forall cur s, no_dot w -> split_from cur (w ++ "." ++ s) = (cur ++ w) :: split_from "" s.
Proof.
  induction w as [|x w IH]; intros cur s H; cbn; [rewrite sapp_nil_r; reflexivity|]. destruct H as [H1 H2]. destruct (Ascii.eqb_spec x "."%char); [contradiction|].
  change (String "." s) with ("." ++ s). rewrite (IH _ s H2), sapp_assoc_r. reflexivity.
Qed.
Lemma split_dotted rest : forall k, no_dot k -> Forall no_dot rest -> split_from "" (dotted k rest) = k :: rest.
Proof.
  unfold dotted. induction rest as [|k' rest IH]; intros k H F; cbn [fold_right].
  - rewrite sapp_nil_r, split_word by exact H. reflexivity.
  - inversion F as [|? ? F1 F2]. subst. rewrite split_more by exact H. rewrite (IH k' F1 F2). reflexivity.
Qed.
Lemma walk_leads builtin keys : forall o d v, leads builtin o keys v -> walk builtin o keys d = v.
Proof.
  induction keys as [|k keys IH]; intros o d v H; inversion H as [|? ? o' ? ? A N L]; subst; cbn [walk]; [reflexivity|]. rewrite A.
  destruct o'; try (apply IH; exact L). destruct (N eq_refl).
Qed.
Lemma walk_lost builtin keys : forall o d, (forall v, ~ leads builtin o keys v) -> walk builtin o keys d = d.
Proof.
  induction keys as [|k keys IH]; intros o d H; cbn [walk]; [destruct (H o); constructor|].
  destruct (attribute builtin o k) as [o'|] eqn:A; [|reflexivity].
  destruct o'; try reflexivity; (apply IH; intros v L; apply (H v); econstructor; [exact A|discriminate|exact L]).
Qed.
(** get gives what the path leads to, and the default exactly if it leads nowhere. *)
Definition C102_get_claim : Prop :=
  forall builtin o first rest default, no_dot first -> Forall no_dot rest ->
  (forall v, leads builtin o (first :: rest) v -> get builtin o (dotted first rest) default = v) /\
  ((forall v, ~ leads builtin o (first :: rest) v) -> get builtin o (dotted first rest) default = default).
Theorem C102_get : C102_get_claim.
Proof.
  intros b o k rest d H F. unfold get. rewrite split_dotted by assumption. split; [intros v L; apply walk_leads; exact L|intros L; apply walk_lost; exact L].
Qed.
(** A path leads to at most one value, never to None, and paths can be followed in two parts. *)
Definition C102_path_claim : Prop :=
  forall builtin o keys, (forall v v', leads builtin o keys v -> leads builtin o keys v' -> v = v') /\
  (forall v, keys <> [] -> leads builtin o keys v -> v <> VNone) /\
  (forall more v, leads builtin o (List.app keys more) v <-> exists o', leads builtin o keys o' /\ leads builtin o' more v).
Theorem C102_path : C102_path_claim.
Proof.
  intros b o keys. split; [|split].
  - intros v v' H H'. rewrite <- (walk_leads b keys o VNone v H), <- (walk_leads b keys o VNone v' H'). reflexivity.
  - intros v N H. induction H as [v|o k o' keys v A No L IH]; [destruct (N eq_refl)|]. destruct keys as [|k' keys]; [inversion L; subst; exact No|apply IH; discriminate].
  - revert o. induction keys as [|k keys IH]; intros o more v; cbn [app].
    + split; [intros H; exists o; split; [constructor|exact H]|]. intros (o' & H & H'). inversion H. subst. exact H'.
    + split.
      * intros H. inversion H as [|? ? o' ? ? A N L]. subst. apply IH in L. destruct L as (o2 & L1 & L2). exists o2. split; [econstructor; eassumption|exact L2].
      * intros (o2 & H & H'). inversion H as [|? ? o' ? ? A N L]. subst. econstructor; [exact A|exact N|]. apply IH. exists o2. split; assumption.
Qed.

(** FALSE: what an attribute of a record was set to can be read.  Not if dict has an attribute of this name. *)
Definition C102_all_names_claim : Prop := forall builtin l k v, last_set l k v -> get_attribute builtin (filled l) k = Some v.
Definition of_dict (k : string) : bool := existsb (String.eqb k) ["items"; "keys"; "values"; "copy"; "update"; "pop"; "get"; "clear"].
Theorem C102_names_refuted : ~ C102_all_names_claim.
Proof.
  intros H. assert (get_attribute of_dict (filled [ByAttribute "copy" (VNum 1)]) "copy" = Some (VNum 1)); [|discriminate].
  apply H. exists [], (ByAttribute "copy" (VNum 1)), []. repeat split. constructor.
Qed.
(** FALSE: get gives the default only if an attribute is not there.  It does so too for a test that was not passed, which is None. *)
Definition C102_default_claim : Prop :=
  forall builtin o first rest o' default, no_dot first -> rest = [] -> attribute builtin o first = Some o' -> get builtin o (dotted first rest) default = o'.
Theorem C102_default_refuted : ~ C102_default_claim.
Proof.
  intros H. specialize (H of_dict (VObject [("header", VNone)]) "header" [] VNone (VNum 1)).
  assert (VNum 1 = VNone); [|discriminate]. apply H; [cbn; repeat split; discriminate|reflexivity|reflexivity].
Qed.

Definition some_object : val := VObject [("header", VNum 3); ("signal", VRecord (filled [ByAttribute "flags" (VNum 1); ByItem "libs" VNone; ByItem "flags" (VNum 2)]))].
Example C102_example :
  get of_dict some_object (dotted "signal" ["flags"]) (VNum 0) = VNum 2 /\ dotted "signal" ["flags"] = "signal.flags" /\
  leads of_dict some_object ["signal"; "flags"] (VNum 2) /\ get of_dict some_object "signal.libs" (VNum 0) = VNum 0 /\
  get of_dict some_object "signal.other" (VNum 0) = VNum 0 /\ get of_dict some_object "header.flags" (VNum 0) = VNum 0 /\
  map fst (filled [ByAttribute "flags" (VNum 1); ByItem "libs" VNone; ByItem "flags" (VNum 2)]) = ["flags"; "libs"] /\ of_dict "flags" = false.
Proof.
  split; [reflexivity|]. split; [reflexivity|]. split; [|repeat split; reflexivity].
  eapply leads_step; [reflexivity|discriminate|]. eapply leads_step; [reflexivity|discriminate|constructor].
Qed.

Print Assumptions C102_record.
Print Assumptions C102_items.
Print Assumptions C102_get.
Print Assumptions C102_path.
Print Assumptions C102_names_refuted.
Print Assumptions C102_default_refuted.
