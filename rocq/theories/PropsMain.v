(** Properties of the order of targets (main.py: build). *)
From Coq Require Import String List Bool ZArith Lia.
From Verif Require Import MainModel.
Import ListNotations.
Open Scope string_scope.
Open Scope list_scope.

(** [a] is somewhere before every [b]. *)
Definition before (a b : tname) (l : list tname) : Prop :=
  forall l1 l2, l = (l1 ++ b :: l2)%list -> In a l1.

(** C47, the claims. *)
Definition build_first : Prop :=
  forall ts p, plan ts = Some p -> In "install" ts -> before "build" "install" p.
Definition configure_first : Prop :=
  forall ts p, plan ts = Some p -> In "install" ts -> In "configure" ts -> before "configure" "build" p.

(** configure install is run as build configure install. *)
Theorem C47_configure_refuted : ~ configure_first.
Proof.
  intros H. specialize (H ["configure"; "install"] _ eq_refl). cbn in H.
  specialize (H ltac:(auto) ltac:(auto) [] ["configure"; "install"] eq_refl). destruct H.
Qed.

(** install install is run as install build install. *)
Theorem C47_build_refuted : ~ build_first.
Proof.
  intros H. specialize (H ["install"; "install"] _ eq_refl). cbn in H.
  specialize (H ltac:(auto) [] ["build"; "install"] eq_refl). destruct H.
Qed.

(** Any other target stops build from being added. *)
Theorem C47_build_refuted_other : ~ build_first.
Proof.
  intros H. specialize (H ["docs"; "install"] _ eq_refl). cbn in H.
  specialize (H ltac:(auto) ["docs"] [] eq_refl). cbn in H. destruct H as [H|[]]. discriminate.
Qed.

(** *** What holds *)
Lemma is_name_ok a b : is_name a b = true <-> a = b.
Proof. apply String.eqb_eq. Qed.

Lemma mem_ok a l : mem a l = true <-> In a l.
Proof.
  unfold mem. rewrite existsb_exists. split.
  - intros (b & Hb & ->%is_name_ok). exact Hb.
  - intros H. exists a. split; [exact H|]. apply is_name_ok. reflexivity.
Qed.

Lemma last_is_install_ok l : last_is_install l = true <-> exists l', l = (l' ++ ["install"])%list.
Proof.
  unfold last_is_install. split.
  - destruct (rev l) as [|a r] eqn:Er; [discriminate|]. intros ->%is_name_ok.
    exists (rev r). rewrite <- (rev_involutive l), Er. reflexivity.
  - intros [l' ->]. rewrite rev_app_distr. reflexivity.
Qed.

Definition only_default (ts : list tname) : Prop := forall t, In t ts -> t = "configure" \/ t = "install".

Lemma forallb_only ts :
  forallb (fun t => mem t ["configure"; "install"]) ts = true <-> only_default ts.
Proof.
  rewrite forallb_forall. unfold only_default. split; intros H t Ht; specialize (H t Ht).
  - apply mem_ok in H as [H|[H|[]]]; auto.
  - apply mem_ok. destruct H as [->| ->]; cbn; auto.
Qed.

Lemma insert_split l i x : exists l1 l2, l = (l1 ++ l2)%list /\ insert l i x = (l1 ++ x :: l2)%list.
Proof.
  unfold insert. set (n := Z.to_nat _). exists (firstn n l), (skipn n l).
  split; [|reflexivity]. symmetry. apply firstn_skipn.
Qed.

(** The list is accepted exactly when install is not requested or is last. *)
Theorem C47_accepted ts :
  (exists p, plan ts = Some p) <-> (In "install" ts -> exists l, ts = (l ++ ["install"])%list).
Proof.
  unfold plan. destruct (mem "install" ts) eqn:Em.
  - apply mem_ok in Em. destruct (last_is_install ts) eqn:El.
    + apply last_is_install_ok in El. split; [auto|]. intros _. destruct (forallb _ ts); eauto.
    + split; [intros [p Hp]; discriminate|]. intros H. specialize (H Em).
      apply last_is_install_ok in H. congruence.
  - split; [|eauto]. intros _ H. apply mem_ok in H. congruence.
Qed.

(** Nothing is dropped or reordered, and at most one build is added: exactly when
    install is requested with nothing but configure. *)
Theorem C47_content ts p :
  plan ts = Some p ->
  (p = ts /\ ~ (In "install" ts /\ only_default ts)) \/
  (In "install" ts /\ only_default ts /\
   exists l1 l2, ts = (l1 ++ l2)%list /\ p = (l1 ++ "build" :: l2)%list).
Proof.
  unfold plan. destruct (mem "install" ts) eqn:Em.
  - apply mem_ok in Em. destruct (last_is_install ts); [|discriminate].
    destruct (forallb _ ts) eqn:Ef.
    + apply forallb_only in Ef. intros [= <-]. right. split; [exact Em|]. split; [exact Ef|].
      apply insert_split.
    + intros [= <-]. left. split; [reflexivity|]. intros [_ H]. apply forallb_only in H. congruence.
  - intros [= <-]. left. split; [reflexivity|]. intros [H _]. apply mem_ok in H. congruence.
Qed.

Lemma index_repeat n l : index "install" (repeat "configure" n ++ "install" :: l) = n.
Proof. induction n as [|n IH]; [reflexivity|]. cbn. rewrite IH. reflexivity. Qed.

Lemma only_default_repeat n : only_default (repeat "configure" n ++ ["install"]).
Proof.
  intros t Ht. apply in_app_or in Ht as [Ht|[<-|[]]]; [|auto]. apply repeat_spec in Ht. auto.
Qed.

(** The plan for one install after n times configure: build comes before the last
    configure, not after it. *)
Theorem C47_plan_exact n :
  plan (repeat "configure" n ++ ["install"]) =
  Some match n with
       | 0 => ["build"; "install"]
       | S m => (repeat "configure" m ++ ["build"; "configure"; "install"])%list
       end.
Proof.
  unfold plan.
  replace (mem "install" (repeat "configure" n ++ ["install"])) with true
    by (symmetry; apply mem_ok; apply in_or_app; right; left; reflexivity).
  replace (last_is_install (repeat "configure" n ++ ["install"])) with true
    by (symmetry; apply last_is_install_ok; eauto).
  replace (forallb _ (repeat "configure" n ++ ["install"])) with true
    by (symmetry; apply forallb_only; apply only_default_repeat).
  rewrite index_repeat. f_equal. destruct n as [|m]; [reflexivity|].
  unfold insert. rewrite app_length, repeat_length. cbn [length].
  replace (Z.of_nat (S m) - 1 <? 0)%Z with false by (symmetry; apply Z.ltb_ge; lia).
  replace (Z.to_nat (Z.min (Z.of_nat (S m) - 1) (Z.of_nat (S m + 1)))) with m by lia.
  replace (repeat "configure" (S m)) with (repeat "configure" m ++ ["configure"])%list
    by (symmetry; apply repeat_cons).
  rewrite <- app_assoc. rewrite firstn_app, skipn_app, repeat_length, Nat.sub_diag.
  cbn [firstn skipn]. rewrite firstn_all2 by (rewrite repeat_length; lia).
  rewrite skipn_all2 by (rewrite repeat_length; lia). rewrite app_nil_r. reflexivity.
Qed.

(** The order is right when install is requested once and configure is not, or when
    the request lists build itself before install and after configure. *)
Theorem C47_order_partial ts p :
  plan ts = Some p -> In "install" ts ->
  ts = ["install"] \/ (before "build" "install" ts /\ before "configure" "build" ts) ->
  before "build" "install" p /\ (In "configure" ts -> before "configure" "build" p).
Proof.
  intros Hp Hin [->|[Hb Hc]].
  - vm_compute in Hp. injection Hp as <-. split; [|intros [H|[]]; discriminate].
    intros l1 l2 H. destruct l1 as [|a l1]; [discriminate|]. injection H as -> H. left. reflexivity.
  - destruct (C47_content ts p Hp) as [[-> _]|(_ & Ho & _)]; [auto|].
    apply in_split in Hin as (l1 & l2 & Hts). specialize (Hb l1 l2 Hts).
    assert (In "build" ts) as H by (rewrite Hts; apply in_or_app; left; exact Hb).
    apply Ho in H as [H|H]; discriminate.
Qed.

Example C47_order_ex :
  plan ["configure"; "build"; "docs"; "install"] = Some ["configure"; "build"; "docs"; "install"] /\
  before "build" "install" ["configure"; "build"; "docs"; "install"].
Proof.
  split; [reflexivity|]. intros l1 l2 H.
  destruct l1 as [|a l1]; [discriminate|]. injection H as <- H.
  destruct l1 as [|b l1]; [discriminate|]. injection H as <- H. right. left. reflexivity.
Qed.

(** *** The run follows the plan *)
Definition expand (s : script) (t : tname) : list event :=
  if String.eqb t "install" then
    (if s_pre s then [EPre] else []) ++ [EFiles] ++ (if s_post s then [EPost] else [])
  else [ETarget t].

Lemma fire_ok s es done done' o :
  fire s done es = (done', o) ->
  exists es1 es2, es = (es1 ++ es2)%list /\ done' = (done ++ es1)%list /\ (o = None -> es2 = []).
Proof.
  revert done. induction es as [|e es IH]; intros done H; cbn in H.
  - injection H as <- <-. exists [], []. rewrite (app_nil_r done). auto.
  - destruct (s_raises s done e).
    + injection H as <- <-. exists [e], es. split; [reflexivity|]. split; [reflexivity|discriminate].
    + destruct (IH _ H) as (es1 & es2 & -> & -> & Ho). exists (e :: es1), es2.
      split; [reflexivity|]. split; [rewrite <- app_assoc; reflexivity|exact Ho].
Qed.

Lemma run_ok s ts done done' r :
  run s done ts = (done', r) ->
  exists es1 es2, flat_map (expand s) ts = (es1 ++ es2)%list /\ done' = (done ++ es1)%list /\ (r = Done -> es2 = []).
Proof.
  revert done. induction ts as [|t ts IH]; intros done H; cbn [run] in H.
  - injection H as <- <-. exists [], []. rewrite (app_nil_r done). auto.
  - cbn [flat_map]. unfold expand at 1. unfold is_name in H. destruct (String.eqb t "install") eqn:Et.
    + destruct (fire s done (install_events s)) as [d1 o] eqn:Ef.
      destruct (fire_ok _ _ _ _ _ Ef) as (e1 & e2 & He & -> & Ho). unfold install_events in He. rewrite He.
      destruct o as [e|].
      * injection H as <- <-. exists e1, (e2 ++ flat_map (expand s) ts)%list.
        split; [rewrite <- app_assoc; reflexivity|]. split; [reflexivity|discriminate].
      * rewrite (Ho eq_refl), app_nil_r. destruct (IH _ H) as (f1 & f2 & -> & -> & Hr).
        exists (e1 ++ f1)%list, f2. split; [apply app_assoc|]. split; [symmetry; apply app_assoc|exact Hr].
    + destruct (mem t (s_targets s)).
      * destruct (fire s done [ETarget t]) as [d1 o] eqn:Ef.
        destruct (fire_ok _ _ _ _ _ Ef) as (e1 & e2 & He & -> & Ho). rewrite He.
        destruct o as [e|].
        -- injection H as <- <-. exists e1, (e2 ++ flat_map (expand s) ts)%list.
           split; [rewrite <- app_assoc; reflexivity|]. split; [reflexivity|discriminate].
        -- rewrite (Ho eq_refl), app_nil_r. destruct (IH _ H) as (f1 & f2 & -> & -> & Hr).
           exists (e1 ++ f1)%list, f2. split; [apply app_assoc|]. split; [symmetry; apply app_assoc|exact Hr].
      * injection H as <- <-. exists [], (ETarget t :: flat_map (expand s) ts).
        rewrite (app_nil_r done). split; [reflexivity|]. split; [reflexivity|discriminate].
Qed.

(** What runs is an initial part of the plan, all of it if nothing fails. *)
Theorem C47_run s ts es r :
  build s ts = Some (es, r) ->
  exists p rest, plan ts = Some p /\ flat_map (expand s) p = (es ++ rest)%list /\ (r = Done -> rest = []).
Proof.
  unfold build. destruct (plan ts) as [p|]; [|discriminate]. intros [= H].
  destruct (run_ok _ _ _ _ _ H) as (es1 & es2 & Hf & -> & Hr). exists p, es2. auto.
Qed.

(** Files are installed only after the function of build has returned, if install
    is the only request. *)
Theorem C47_files_after_build s es r l1 l2 :
  build s ["install"] = Some (es, r) -> es = (l1 ++ EFiles :: l2)%list ->
  In (ETarget "build") l1 /\ s_raises s [] (ETarget "build") = false.
Proof.
  unfold build. change (plan ["install"]) with (Some ["build"; "install"]). intros [= H] ->.
  cbn in H. destruct (mem "build" (s_targets s)).
  2: { injection H as H _. destruct l1; discriminate. }
  destruct (s_raises s [] (ETarget "build")) eqn:Er.
  { injection H as H _. destruct l1 as [|a [|b l1]]; discriminate. }
  split; [|reflexivity].
  destruct (fire s [ETarget "build"] (install_events s)) as [d o] eqn:Ef.
  destruct (fire_ok _ _ _ _ _ Ef) as (e1 & e2 & _ & -> & _).
  assert (([ETarget "build"] ++ e1)%list = (l1 ++ EFiles :: l2)%list) as He by (destruct o; injection H as H _; exact H).
  destruct l1 as [|a l1]; [discriminate|]. injection He as <- _. left. reflexivity.
Qed.

Definition ex_script : script := Script ["configure"; "build"] false true (fun _ _ => false).
Example C47_run_ex :
  build ex_script ["configure"; "install"] =
    Some ([ETarget "build"; ETarget "configure"; EFiles; EPost], Done) /\
  build ex_script ["install"] = Some ([ETarget "build"; EFiles; EPost], Done).
Proof. split; reflexivity. Qed.

Print Assumptions C47_configure_refuted.
Print Assumptions C47_build_refuted.
Print Assumptions C47_build_refuted_other.
Print Assumptions C47_accepted.
Print Assumptions C47_content.
Print Assumptions C47_plan_exact.
Print Assumptions C47_order_partial.
Print Assumptions C47_run.
Print Assumptions C47_files_after_build.
