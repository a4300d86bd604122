(** Building again, with any backend whose answers are right. *)
From stdpp Require Import base list strings gmap.
From Coq Require Import ZArith Lia.
From Verif Require Import PyMonad DbModel DbSpec DbClaims DbHistory CodeSpec TargetSpec AgainSpec StepEnv.

Section Facts.
  Context {V R : Type} (veq : V -> V -> bool) (md5 : content -> digest).
  Context {S FunId CallId FileId : Type}.
  Context (BK : backend V R S FunId CallId FileId).
  Notation sys := (sys V R S FunId CallId FileId).
  Notation op := (op V R).
  Notation occ := (occ V R).
  Notation step := (step md5 BK).
  Notation runs := (runs md5 BK).
  Notation project := (list (request V R * deed R)).
  Context (Hrefl : forall x, veq x x = true).

  Lemma digest_of (e e' : env) f : e_fs e !! f = e_fs e' !! f -> digest_at md5 e f = digest_at md5 e' f.
  Proof. unfold digest_at. by intros ->. Qed.
  Lemma untouched (s : sys) (b : list op) f :
    (forall o, o ∈ b -> ~ touches o f) -> e_fs (s_env (runs s b)) !! f = e_fs (s_env s) !! f.
  Proof.
    revert s. induction b as [|o b IH]; intros s H; [done|]. simpl. rewrite IH.
    - rewrite env_after. pose proof (H o ltac:(by left)) as Ho. destruct o; simpl in Ho; try done.
      + simpl; by rewrite lookup_insert_ne.
      + simpl; by rewrite lookup_delete_ne.
    - intros o' Ho'. apply H. by right.
  Qed.
  Lemma no_restart (s : sys) (b : list op) :
    (forall funs, ORestart funs ∉ b) -> e_fun (s_env (runs s b)) = e_fun (s_env s).
  Proof.
    revert s. induction b as [|o b IH]; intros s H; [done|]. simpl. rewrite IH.
    - rewrite env_after. destruct o; try done. destruct (H funs). by left.
    - intros funs Hf. apply (H funs). by right.
  Qed.
  Lemma running_no_restart t s0 rq (a b : list op) : runs_during md5 BK s0 t rq a b -> forall funs, ORestart funs ∉ b.
  Proof.
    intros [[_ H] _] funs Hin. apply elem_of_list_split in Hin as (b1 & b2 & ->).
    specialize (H (b1 ++ [ORestart funs]) b2 ltac:(by rewrite <- app_assoc)).
    rewrite app_comm_cons, app_assoc, runs_snoc in H. unfold depth, thread in H. simpl in H.
    rewrite lookup_empty in H. simpl in H. lia.
  Qed.

  Section Build.
    Context (D : name -> V -> list name) (G : nature (V := V) (R := R)) (t : nat) (s0 : sys).
    Context (full : list op) (code : name -> digest) (l : project).
    Context (HD : declared_by veq D full) (HG : decided veq D G).
    Context (Hdid : did veq md5 BK t s0 G l full).
    (** Answers from the database are right. *)
    Context (Hplanned : forall os rq k r srcs dsts rest,
      full = os ++ OBegin t rq :: rest -> (rq, k) ∈ l ->
      G (rq_fun rq) (code (rq_fun rq)) (rq_bound rq) (digest_at md5 (s_env (runs s0 os))) = k ->
      e_fun (s_env (runs s0 os)) !! rq_fun rq = Some (code (rq_fun rq)) ->
      snd (step (runs s0 os) (OBegin t rq)) = RHit r srcs dsts ->
      r = d_result k /\ forall f ct, d_files k !! f = Some ct -> exists m, e_fs (s_env (runs s0 os)) !! f = Some (m, ct)).

    (** What is so between the calls. *)
    Definition so_far (os : list op) (w : world) (todo : project) : Prop :=
      forall f, part l f -> ~ writes todo f -> digest_at md5 (s_env (runs s0 os)) f = w f.

    (** What the call would do now is what was planned. *)
    Lemma as_planned os w rq k todo : (rq, k) ∈ l -> full = os ++ OBegin t rq :: todo ->
      k = G (rq_fun rq) (code (rq_fun rq)) (rq_bound rq) w ->
      (forall f, needs rq k f -> digest_at md5 (s_env (runs s0 os)) f = w f) ->
      G (rq_fun rq) (code (rq_fun rq)) (rq_bound rq) (digest_at md5 (s_env (runs s0 os))) = k.
    Proof.
      intros Hin Hfull Hk Hw. rewrite Hk. symmetry. apply HG; [apply Hrefl|]. intros g Hg. symmetry. apply Hw.
      unfold needs. rewrite Hk. destruct Hg as [Hg|Hg]; [left|by right].
      rewrite (proj1 HD t rq); [done|]. rewrite Hfull. apply elem_of_app. right. by left.
    Qed.

    Lemma build_ok os todo rs b : building md5 BK t s0 l os todo rs b -> forall w rqs,
      full = os ++ b -> todo = from_scratch md5 G code w rqs -> (forall x, x ∈ todo -> x ∈ l) -> in_order todo ->
      so_far os w todo ->
      (forall rq, rq ∈ rqs -> e_fun (s_env (runs s0 os)) !! rq_fun rq = Some (code (rq_fun rq))) ->
      rs = (fun x => d_result (snd x)) <$> todo /\
      (forall rq k f ct, (rq, k) ∈ todo -> d_files k !! f = Some ct ->
         exists m, e_fs (s_env (runs s0 full)) !! f = Some (m, ct)) /\
      forall f, part l f -> ~ writes todo f -> e_fs (s_env (runs s0 full)) !! f = e_fs (s_env (runs s0 os)) !! f.
    Proof.
      induction 1 as [os|os o todo rs b Ha Hb IH|os rq k r srcs dsts todo rs b Hhit Hb IH|os rq k during r todo rs b Hrd Htouch Hb IH];
        intros w rqs Hfull Htodo Hsub Hord Hso Hfun.
      - rewrite app_nil_r in Hfull. subst full. split; [done|]. split; [|done].
        intros rq k f ct Hin. by apply elem_of_nil in Hin.
      - assert (forall f, part l f -> e_fs (s_env (runs s0 (os ++ [o]))) !! f = e_fs (s_env (runs s0 os)) !! f) as Hkeep.
        { intros f Hp. rewrite runs_app. apply untouched. intros o' ->%elem_of_list_singleton. destruct o; simpl in *; try done; congruence. }
        destruct (IH w rqs) as (H1 & H2 & H3); try done.
        + by rewrite <- app_assoc.
        + intros f Hp Hw. rewrite <- (Hso f Hp Hw). by apply digest_of, Hkeep.
        + intros rq Hin. rewrite runs_app, no_restart; [by apply Hfun|]. intros funs H0%elem_of_list_singleton. by subst.
        + split_and!; try done. intros f Hp Hw. rewrite (H3 f Hp Hw). by apply Hkeep.
      - destruct rqs as [|rq0 rqs]; [done|]. simpl in Htodo. injection Htodo as -> Hk Htodo.
        destruct Hord as (Ho1 & Ho2 & Ho3).
        assert ((rq0, k) ∈ l) as Hin by (apply Hsub; by left).
        assert (forall f, e_fs (s_env (runs s0 (os ++ [OBegin t rq0]))) !! f = e_fs (s_env (runs s0 os)) !! f) as Hkeep.
        { intros f. rewrite runs_app. apply untouched. by intros o' ->%elem_of_list_singleton []. }
        destruct (Hplanned os rq0 k r srcs dsts b Hfull Hin) as [Hr Hfiles].
        { apply (as_planned os w rq0 k b); try done. intros f Hn. apply Hso; [|by apply Ho1]. right. eauto. }
        { apply Hfun. by left. }
        { done. }
        destruct (IH (after md5 k w) rqs) as (H1 & H2 & H3); try done.
        + by rewrite <- app_assoc.
        + by rewrite Htodo, Hk.
        + intros x Hx. apply Hsub. by right.
        + intros f Hp Hw. rewrite (digest_of _ _ f (Hkeep f)). unfold after. destruct (d_files k !! f) as [ct|] eqn:E.
          * destruct (Hfiles f ct E) as [m Hm]. unfold digest_at. by rewrite Hm.
          * apply Hso; [done|]. intros (rq' & k' & [[= -> ->]|Hin']%elem_of_cons & Hs); [rewrite E in Hs; by destruct Hs|].
            apply Hw. by exists rq', k'.
        + intros rq Hrq. rewrite runs_app, no_restart; [apply Hfun; by right|]. intros funs H0%elem_of_list_singleton. by subst.
        + split_and!.
          * rewrite fmap_cons. cbn [snd]. congruence.
          * intros rq k' f ct [[= -> ->]|Hin']%elem_of_cons Hfc; [|by eapply H2].
            destruct (Hfiles f ct Hfc) as [m Hm]. exists m. rewrite H3, Hkeep; [done|left; exists rq0, k; eauto|].
            apply Ho2. eauto.
          * intros f Hp Hw. rewrite H3, Hkeep; [done|done|]. intros (rq' & k' & Hin' & Hs). apply Hw. exists rq', k'.
            split; [by right|done].
      - destruct rqs as [|rq0 rqs]; [done|]. simpl in Htodo. injection Htodo as -> Hk Htodo.
        destruct Hord as (Ho1 & Ho2 & Ho3).
        assert ((rq0, k) ∈ l) as Hin by (apply Hsub; by left).
        set (oc := Occ os rq0 during r).
        assert (full = os ++ OBegin t rq0 :: during ++ OEnd t r :: b) as Hfull2 by done.
        assert (completed md5 BK t s0 full oc) as Hcomp by (exists b; split; done).
        assert (equal_call veq rq0 (oc_req oc)) as Hsame by (split; [done|apply Hrefl]).
        assert (oc_code md5 BK s0 oc = Some (code (rq_fun rq0))) as Hoc by (apply Hfun; by left).
        pose proof (Hdid rq0 k oc _ Hin Hcomp Hsame Hoc) as (Hres & Hout & _). cbv zeta in Hres, Hout.
        unfold oc_fun in Hres, Hout. cbn [oc oc_req oc_before oc_result oc_during] in Hres, Hout.
        rewrite (as_planned os w rq0 k (during ++ OEnd t r :: b)) in Hres, Hout; try done.
        2,3: intros f Hn; apply Hso; [right; eauto|by apply Ho1].
        assert (forall f, e_fs (s_env (runs s0 (os ++ OBegin t rq0 :: during ++ [OEnd t r]))) !! f =
          e_fs (oc_end md5 BK t s0 oc) !! f) as Hend.
        { intros f. unfold oc_end, oc_upto. cbn [oc oc_req oc_before oc_result oc_during].
          rewrite app_comm_cons, app_assoc, runs_app. apply untouched. by intros o' ->%elem_of_list_singleton []. }
        assert (forall f, part l f -> d_files k !! f = None ->
          e_fs (oc_end md5 BK t s0 oc) !! f = e_fs (s_env (runs s0 os)) !! f) as Hkeep.
        { intros f Hp Hn. unfold oc_end, oc_upto. cbn [oc oc_req oc_before oc_result oc_during]. rewrite runs_app.
          apply untouched. intros o' [->|Ho']%elem_of_cons Ht; [by destruct Ht|]. destruct (Htouch o' f Ho' Ht Hp) as [ct Hct]. congruence. }
        destruct (IH (after md5 k w) rqs) as (H1 & H2 & H3); try done.
        + rewrite Hfull2. by rewrite <- app_assoc, <- app_comm_cons, <- app_assoc.
        + by rewrite Htodo, Hk.
        + intros x Hx. apply Hsub. by right.
        + intros f Hp Hw. rewrite (digest_of _ _ f (Hend f)). unfold after. destruct (d_files k !! f) as [ct|] eqn:E.
          * destruct (Hout f ct E) as [m Hm]. unfold digest_at. by rewrite Hm.
          * rewrite (digest_of _ _ f (Hkeep f Hp E)).
            apply Hso; [done|]. intros (rq' & k' & [[= -> ->]|Hin']%elem_of_cons & Hs); [rewrite E in Hs; by destruct Hs|].
            apply Hw. by exists rq', k'.
        + intros rq Hrq. rewrite runs_app, no_restart; [apply Hfun; by right|].
          intros funs [?|[?|?%elem_of_list_singleton]%elem_of_app]%elem_of_cons; try done.
          by eapply running_no_restart.
        + split_and!.
          * rewrite fmap_cons. cbn [snd]. congruence.
          * intros rq k' f ct [[= -> ->]|Hin']%elem_of_cons Hfc; [|by eapply H2].
            destruct (Hout f ct Hfc) as [m Hm]. exists m. rewrite H3, Hend; [done|left; exists rq0, k; eauto|].
            apply Ho2. eauto.
          * intros f Hp Hw. rewrite H3, Hend, Hkeep; try done.
            -- destruct (d_files k !! f) eqn:E; [|done]. exfalso. apply Hw. exists rq0, k. split; [by left|by rewrite E].
            -- intros (rq' & k' & Hin' & Hs). apply Hw. exists rq', k'. split; [by right|done].
    Qed.
  End Build.

  (** Two histories, on databases of their own: if the files of the project that no call writes have
      the same contents before the builds, the results and all targets have the same contents after them. *)
  Lemma scratch_same (G : nature (V := V) (R := R)) code D (HG : decided veq D G) (rqs : list (request V R)) : forall w w',
    (forall rq, rq ∈ rqs -> rq_srcs rq = D (rq_fun rq) (rq_bound rq)) ->
    let l := from_scratch md5 G code w rqs in
    in_order l -> (forall f, part l f -> ~ writes l f -> w f = w' f) ->
    from_scratch md5 G code w' rqs = l.
  Proof.
    induction rqs as [|rq rqs IH]; intros w w' HD l Hord Hw; [done|]. subst l. simpl in *.
    set (k := G (rq_fun rq) (code (rq_fun rq)) (rq_bound rq) w) in *. destruct Hord as (Ho1 & Ho2 & Ho3).
    assert (G (rq_fun rq) (code (rq_fun rq)) (rq_bound rq) w' = k) as ->.
    { symmetry. apply HG; [apply Hrefl|]. intros g Hg.
      assert (needs rq k g) as Hn by (destruct Hg as [Hg|Hg]; [left; rewrite HD; [done|by left]|by right]).
      apply Hw; [|by apply Ho1]. right. exists rq, k. split; [by left|done]. }
    f_equal. apply IH; [intros rq' Hin; apply HD; by right|done|].
    intros f Hp Hn. unfold after. destruct (d_files k !! f) eqn:E; [done|]. apply Hw.
    - destruct Hp as [(rq' & k' & Hin & Hs)|(rq' & k' & Hin & Hs)]; [left|right]; exists rq', k'; (split; [by right|done]).
    - intros (rq' & k' & [[= -> ->]|Hin]%elem_of_cons & Hs); [rewrite E in Hs; by destruct Hs|]. apply Hn. by exists rq', k'.
  Qed.
End Facts.
