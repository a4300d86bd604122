(** The invariant behind the soundness of hits with the SQLite backend. *)
From stdpp Require Import base list strings gmap.
From Coq Require Import ZArith Lia.
From Verif Require Import PyMonad DbModel DbSpec SqlBackend SqlSpec SqlLift SqlFacts.

Section Inv.
  Context {V R : Type} (veq : V -> V -> bool) (md5 : content -> digest).
  Context (F : name -> Z -> content).
  Context (Hveq : equivalence_test veq).
  Notation core0 := (sql_core0 (R := R) veq).
  Notation sq := (sq V R).
  Notation frame := (frame V R nat nat nat).
  Notation run := (run V R).
  Notation digest_at := (digest_at md5).
  Notation wf := (wf (V := V) (R := R) md5 F).
  Notation shrink := (shrink (V := V) (R := R) md5 F).
  Implicit Types q : sq.

  (** Row [c] of function [i] was written for the run [ru]. *)
  Record entry_of q (c i : nat) (b : V) (r : R) (ru : run) : Prop := EntryOf {
    en_digest : exists deps, q_funs q !! rq_fun (ru_req ru) = Some (i, ru_digest ru, deps);
    en_bound : veq b (rq_bound (ru_req ru)) = true;
    en_result : ru_result ru = r;
    en_srcs : forall f d, cfn q c f = Some d -> f ∈ rq_srcs (ru_req ru) -> digest_at (ru_begin ru) f = Some d
  }.
  Record db_inv_ex (ex : option nat) (lg : list run) q : Prop := DbInv {
    di_wf : wf q;
    di_entry : forall c i b r, (c, i, b, r) ∈ q_calls q -> ex <> Some c -> exists ru, ru ∈ lg /\ entry_of q c i b r ru
  }.
  Notation db_inv := (db_inv_ex None).

  Record frame_inv (e : env) q (fr : frame) : Prop := FrameInv {
    fi_digest : e_fun e !! rq_fun (fr_req fr) = Some (fr_digest fr);
    fi_stable : forall f, f ∈ rq_srcs (fr_req fr) -> digest_at (fr_begin fr) f = digest_at e f;
    fi_files : forall j f d, (j, f, d) ∈ pr_files (fr_prep fr) ->
      f ∈ rq_srcs (fr_req fr) /\ digest_at (fr_begin fr) f = Some d /\ owns q j f;
    fi_all : pr_call_id (fr_prep fr) = None ->
      forall f, f ∈ rq_srcs (fr_req fr) -> exists j d, (j, f, d) ∈ pr_files (fr_prep fr);
    fi_clean : pr_fun_dirty (fr_prep fr) = false ->
      exists i, pr_fun_id (fr_prep fr) = Some i /\ i < q_nfun q /\
        forall g d deps, q_funs q !! g = Some (i, d, deps) -> g = rq_fun (fr_req fr) /\ d = fr_digest fr;
    fi_cid : forall c, pr_call_id (fr_prep fr) = Some c ->
      pr_fun_dirty (fr_prep fr) = false /\ c < q_ncall q /\
      forall i b r, (c, i, b, r) ∈ q_calls q -> pr_fun_id (fr_prep fr) = Some i /\ veq (rq_bound (fr_req fr)) b = true;
    fi_same : forall c, pr_call_id (fr_prep fr) = Some c ->
      forall f, f ∈ rq_srcs (fr_req fr) ->
      (exists j d, (j, f, d) ∈ pr_files (fr_prep fr)) \/
      (forall d, cfn q c f = Some d -> digest_at e f = Some d)
  }.

  (** Changes of the tables that are harmless for running calls. *)
  Record agrees (e : env) q q' : Prop := Agrees {
    ag_nfile : q_nfile q <= q_nfile q';
    ag_nfun : q_nfun q <= q_nfun q';
    ag_ncall : q_ncall q <= q_ncall q';
    ag_ids : forall f j m d, q_files q' !! f = Some (j, m, d) ->
      (exists m' d', q_files q !! f = Some (j, m', d')) \/ q_nfile q <= j;
    ag_funs : forall g i d deps, q_funs q' !! g = Some (i, d, deps) ->
      (exists deps', q_funs q !! g = Some (i, d, deps')) \/ q_nfun q <= i;
    ag_calls : forall c i b r, (c, i, b, r) ∈ q_calls q' ->
      (exists r', (c, i, b, r') ∈ q_calls q) \/ q_ncall q <= c;
    ag_cf : forall c f d, cfn q' c f = Some d -> cfn q c f = Some d \/ digest_at e f = Some d
  }.

  Lemma agrees_refl e q : agrees e q q.
  Proof. split; auto; intros; left; eauto. Qed.
  Lemma agrees_trans e a b c : agrees e a b -> agrees e b c -> agrees e a c.
  Proof.
    intros [] []. split; try lia.
    - intros f j m d H. destruct (ag_ids1 _ _ _ _ H) as [(m' & d' & H')|?]; [eauto|right; lia].
    - intros g i d deps H. destruct (ag_funs1 _ _ _ _ H) as [(dp & H')|?]; [eauto|right; lia].
    - intros x i b' r H. destruct (ag_calls1 _ _ _ _ H) as [(r' & H')|?]; [eauto|right; lia].
    - intros x f d H. destruct (ag_cf1 _ _ _ H); eauto.
  Qed.
  Lemma shrink_agrees e q q' : shrink q q' -> agrees e q q'.
  Proof.
    intros []. split; try lia; auto.
    - intros g i d deps. rewrite sh_funs. eauto.
    - intros x i b' r. rewrite sh_calls. eauto.
  Qed.
  Lemma owns_agrees e q q' j f : agrees e q q' -> owns q j f -> owns q' j f.
  Proof.
    intros [] [H1 H2]. split; [lia|]. intros g m d H.
    destruct (ag_ids0 _ _ _ _ H) as [(m' & d' & H')|?]; [eauto|lia].
  Qed.
  Lemma frame_inv_agrees e q q' fr : agrees e q q' -> frame_inv e q fr -> frame_inv e q' fr.
  Proof.
    intros Ha []. pose proof Ha as []. split; auto.
    - intros j f d H. destruct (fi_files0 _ _ _ H) as (? & ? & ?). split_and!; try done. by eapply owns_agrees.
    - intros H. destruct (fi_clean0 H) as (i & Hi & Hlt & Hu). exists i. split_and!; [done|lia|].
      intros g d deps Hg. destruct (ag_funs0 _ _ _ _ Hg) as [(dp & H')|?]; [eauto|lia].
    - intros c H. destruct (fi_cid0 c H) as (? & ? & Hu). split_and!; [done|lia|].
      intros i b r Hin. destruct (ag_calls0 _ _ _ _ Hin) as [(r' & H')|?]; [eauto|lia].
    - intros c H f Hf. destruct (fi_same0 c H f Hf) as [?|Hs]; [by left|right].
      intros d Hd. destruct (ag_cf0 _ _ _ Hd); auto.
  Qed.

  Lemma db_inv_shrink ex lg q q' : shrink q q' -> db_inv_ex ex lg q -> db_inv_ex ex lg q'.
  Proof.
    intros [] [Hw He]. split; [auto|]. intros c i b r H1 H2. rewrite sh_calls in H1.
    destruct (He _ _ _ _ H1 H2) as (ru & Hru & []). exists ru. split; [done|]. split; auto.
    by rewrite sh_funs.
  Qed.
  Lemma db_inv_log ex lg ru q : db_inv_ex ex lg q -> db_inv_ex ex (ru :: lg) q.
  Proof.
    intros [Hw He]. split; auto. intros c i b r H1 H2.
    destruct (He _ _ _ _ H1 H2) as (ru' & ? & ?). exists ru'. split; [by right|done].
  Qed.
  Lemma db_inv_empty lg : db_inv lg sq_empty.
  Proof.
    split; [split|]; simpl; intros *; rewrite ?lookup_empty; try done.
    all: by intros ?%elem_of_nil.
  Qed.

  (** Deleting a function. *)
  Lemma delete_function_inv lg e fn q :
    let q' := snd (s_delete_function fn q) in
    db_inv lg q -> db_inv lg q' /\ q_funs q' !! fn = None /\ agrees e q q'.
  Proof.
    unfold s_delete_function; simpl. destruct (q_funs q !! fn) as [[[i d] s]|] eqn:Ef.
    2:{ intros H. split_and!; [done|done|apply agrees_refl]. }
    intros [Hw He]. set (q' := Sq _ _ _ _ _ _ _ _ _).
    assert (forall c f d', cfn q' c f = Some d' -> cfn q c f = Some d') as Hcf.
    { intros c f d'. unfold cfn, q'; simpl. destruct (q_files q !! f) as [[[j m] dg]|]; [|done]. apply filter_cf. }
    assert (forall x, x ∈ q_calls q' -> x ∈ q_calls q /\ call_fun x <> i) as Hcalls.
    { intros x. unfold q'; simpl. intros [Hx Hin]%elem_of_list_filter. split; [done|]. intros Hi.
      apply not_true_iff_false in Hx. apply Hx. apply existsb_exists. exists x. split; [by apply elem_of_list_In|].
      by rewrite Hi, !Nat.eqb_refl. }
    split_and!.
    - destruct Hw. split; [split|]; unfold q'; simpl; auto.
      + intros c j d' H%filter_cf. eauto.
      + intros g j d' s' [_ H]%lookup_delete_Some. eauto.
      + intros g g' j d' s' d2 s2 [_ H]%lookup_delete_Some [_ H']%lookup_delete_Some. eauto.
      + intros x Hx. apply wf_clt. by apply Hcalls.
      + intros x y Hx Hy. apply wf_cuniq; by apply Hcalls.
      + intros c j b r Hin _. destruct (Hcalls _ Hin) as [Hin' Hne]. cbn in Hne.
        destruct (He _ _ _ _ Hin') as (ru & Hru & []); [done|]. exists ru. split; [done|]. split; auto.
        simpl. destruct en_digest0 as [dp Hd]. exists dp. rewrite lookup_delete_ne; [done|]. intros Heq. rewrite <- Heq in Hd. congruence.
    - simpl. by rewrite lookup_delete.
    - split; auto.
      + intros f j m d' H. left. eauto.
      + intros g j d' s' H. unfold q' in H; simpl in H. apply lookup_delete_Some in H as [_ H]. eauto.
      + intros c j b r [Hin _]%Hcalls. eauto.
  Qed.

  Lemma save_function_inv lg e fn fd deps q i q' :
    db_inv lg q -> s_save_function (V := V) (R := R) None fn fd deps q = (inr i, q') ->
    db_inv lg q' /\ agrees e q q' /\ q_funs q' !! fn = Some (i, fd, join0 deps) /\ i < q_nfun q'.
  Proof.
    intros [Hw He]. unfold s_save_function. destruct (q_funs q !! fn) eqn:Ef; intros [= <- <-].
    assert (forall g j d s, <[fn := (q_nfun q, fd, join0 deps)]> (q_funs q) !! g = Some (j, d, s) ->
      (g = fn /\ j = q_nfun q /\ d = fd) \/ (g <> fn /\ q_funs q !! g = Some (j, d, s))) as Hins.
    { intros g j d s. destruct (decide (fn = g)) as [<-|Hn].
      - rewrite lookup_insert. intros [= <- <- <-]. by left.
      - rewrite lookup_insert_ne by done. intros. right. by split. }
    split_and!; simpl.
    - pose proof Hw as []. split; [split|]; simpl; auto.
      + intros g j d s [(-> & -> & ->)|[_ H]]%Hins; [lia|]. apply wf_glt in H. lia.
      + intros g g' j d s d2 s2 [(-> & -> & ->)|[_ H]]%Hins [(-> & Hj & ->)|[_ H']]%Hins; try done.
        * apply wf_glt in H'. lia.
        * apply wf_glt in H. lia.
        * eauto.
      + intros c j b r Hin _. destruct (He _ _ _ _ Hin) as (ru & Hru & []); [done|]. exists ru. split; [done|].
        split; auto. simpl. destruct en_digest0 as [dp Hd]. exists dp. rewrite lookup_insert_ne; [done|]. intros Heq. rewrite <- Heq in Hd. congruence.
    - split; simpl; auto.
      + intros f j m d H. left. eauto.
      + intros g j d s [(-> & -> & ->)|[_ H]]%Hins; [by right|left; eauto].
      + intros c j b r H. left. eauto.
    - by rewrite lookup_insert.
    - lia.
  Qed.

  (** Only digests of call [c] change, and they become those of files with the ids given. *)
  Record puts (e : env) (c : nat) q q' : Prop := Puts {
    pu_funs : q_funs q' = q_funs q;
    pu_calls : q_calls q' = q_calls q;
    pu_nfun : q_nfun q' = q_nfun q;
    pu_ncall : q_ncall q' = q_ncall q;
    pu_nfile : q_nfile q <= q_nfile q';
    pu_ids : forall f j m d, q_files q' !! f = Some (j, m, d) ->
      (exists m' d', q_files q !! f = Some (j, m', d')) \/ q_nfile q <= j;
    pu_cf : forall x f d, cfn q' x f = Some d -> cfn q x f = Some d \/ (x = c /\ digest_at e f = Some d);
    pu_wf : wf q -> wf q'
  }.
  Lemma puts_refl e c q : puts e c q q.
  Proof. split; auto. intros. left. eauto. Qed.
  Lemma puts_trans e c q1 q2 q3 : puts e c q1 q2 -> puts e c q2 q3 -> puts e c q1 q3.
  Proof.
    intros [] []. split; try congruence; auto; [lia| |].
    - intros f j m d H. destruct (pu_ids1 _ _ _ _ H) as [(m' & d' & H')|?]; [eauto|right; lia].
    - intros x f d H. destruct (pu_cf1 _ _ _ H); eauto.
  Qed.
  Lemma puts_shrink e c q q' : shrink q q' -> puts e c q q'.
  Proof. intros []. split; auto. Qed.
  Lemma puts_agrees e c q q' : puts e c q q' -> agrees e q q'.
  Proof.
    intros []. split; try lia; auto.
    - intros g i d deps. rewrite pu_funs0. eauto.
    - intros x i b' r. rewrite pu_calls0. eauto.
    - intros x f d H. destruct (pu_cf0 _ _ _ H) as [?|[_ ?]]; auto.
  Qed.
  Lemma puts_db_inv e c lg q q' : puts e c q q' -> db_inv_ex (Some c) lg q -> db_inv_ex (Some c) lg q'.
  Proof.
    intros [] [Hw He]. split; [auto|]. intros x i b r H1 H2. rewrite pu_calls0 in H1.
    destruct (He _ _ _ _ H1 H2) as (ru & Hru & []). exists ru. split; [done|]. split; auto.
    - by rewrite pu_funs0.
    - intros f d H. destruct (pu_cf0 _ _ _ H) as [?|[-> _]]; [auto|done].
  Qed.
  Lemma owns_puts e c q q' j f : puts e c q q' -> owns q j f -> owns q' j f.
  Proof. intros Hp. eapply (owns_agrees e), puts_agrees, Hp. Qed.

  Lemma save_call_file_puts e c j f d q u q' :
    wf q -> owns q j f -> digest_at e f = Some d -> s_save_call_file (V := V) (R := R) c j d q = (inr u, q') ->
    puts e c q q' /\ cfn q' c f = Some d.
  Proof.
    intros Hw Hown Hd. unfold s_save_call_file. destruct (has_call q c && has_file q j)%bool eqn:Eh; intros [= <- <-].
    apply andb_prop in Eh as [(x & Hx & Hxc)%has_call_spec (g & m & dg & Hg)%has_file_spec].
    pose proof (proj2 Hown _ _ _ Hg) as ->.
    split.
    - pose proof Hw as []. split; simpl; auto.
      + intros ? ? ? ? H. left. eauto.
      + intros y g d'. unfold cfn; simpl. destruct (q_files q !! g) as [[[j' m'] d2]|] eqn:Eg; [|done].
        destruct (decide ((c, j) = (y, j'))) as [[= <- <-]|Hn].
        * rewrite lookup_insert. intros [= <-]. right. split; [done|]. assert (g = f) as -> by eauto. done.
        * rewrite lookup_insert_ne by done. by left.
      + intros _. split; simpl; auto. intros y j' d' H. destruct (decide ((c, j) = (y, j'))) as [[= <- <-]|Hn].
        * split; [|by apply Hown]. rewrite <- Hxc. eauto.
        * rewrite lookup_insert_ne in H by done. eauto.
    - unfold cfn; simpl. by rewrite Hg, lookup_insert.
  Qed.
  Lemma puts_keeps e c q q' f : puts e c q q' -> forall d', cfn q' c f = Some d' -> cfn q c f = Some d' \/ digest_at e f = Some d'.
  Proof. intros [] d' H. destruct (pu_cf0 _ _ _ H) as [?|[_ ?]]; auto. Qed.

  Lemma save_call_files_puts e c ds q u q' :
    wf q -> (forall j f d, (j, f, d) ∈ ds -> owns q j f /\ digest_at e f = Some d) ->
    save_call_files core0 c ds q = (inr u, q') ->
    puts e c q q' /\ forall f d', cfn q' c f = Some d' -> (exists j d, (j, f, d) ∈ ds) -> digest_at e f = Some d'.
  Proof.
    revert q. induction ds as [|[[j f] d] ds IH]; intros q Hw Hall H; simpl in H.
    - injection H as <- <-. split; [apply puts_refl|]. intros ? ? _ (? & ? & ?%elem_of_nil). done.
    - unfold bind in H. cbn [save_call_file sql_core0] in H.
      destruct (s_save_call_file c j d q) as [[x|u1] q1] eqn:E1; [done|].
      destruct (Hall j f d) as [Hown Hd]; [by left|].
      apply (save_call_file_puts e c j f) in E1 as [Hp Hcf]; try done.
      apply IH in H as [Hp' Hds].
      + split; [by eapply puts_trans|]. intros g d' Hg (j2 & d2 & [[= -> -> ->]|Hin]%elem_of_cons); [|eauto].
        destruct (puts_keeps _ _ _ _ _ Hp' _ Hg) as [Hg'|?]; [|done]. congruence.
      + by apply (pu_wf _ _ _ _ Hp).
      + intros j2 f2 d2 Hin. destruct (Hall j2 f2 d2) as [Ho ?]; [by right|]. split; [|done]. by eapply owns_puts.
  Qed.

  Lemma check_all_spec e c fs q l q' :
    fs_faithful F e -> wf q -> check_all veq md5 e c fs q = (inr l, q') ->
    shrink q q' /\ forall b j d, (b, j, d) ∈ l -> exists f, owns q' j f /\ digest_at e f = Some d.
  Proof.
    intros Hfs. revert q l q'. induction fs as [|f fs IH]; intros q l q' Hw H; simpl in H.
    - injection H as <- <-. split; [apply shrink_refl|]. by intros ? ? ? ?%elem_of_nil.
    - unfold bind in H.
      destruct (check_call_file md5 core0 e (Some c) f q) as [[x|[[b j] d]] q1] eqn:E1; [done|].
      apply (check_call_file_spec veq md5 F) in E1 as [Hsh1 (Hd & (m & Hm) & _)]; [|done|done].
      pose proof (sh_wf _ _ _ _ Hsh1 Hw) as Hw1.
      destruct (check_all veq md5 e c fs q1) as [[x|l2] q2] eqn:E2; [done|].
      apply IH in E2 as [Hsh2 H2]; [|done]. injection H as <- <-.
      split; [by eapply shrink_trans|].
      intros b' j' d' [[= -> -> ->]|Hin]%elem_of_cons; [|eauto]. exists f. split; [|done].
      eapply owns_shrink; [done|]. by eapply row_owns.
  Qed.
  Lemma insert_ext_puts e src c l q u q' : insert_ext (V := V) (R := R) src c l q = (inr u, q') -> puts e c q q'.
  Proof.
    revert q. induction l as [|j l IH]; intros q H; simpl in H; [injection H as <- <-; apply puts_refl|].
    unfold bind in H. destruct (has_call q c && has_file q j)%bool; [|done].
    apply IH in H. eapply puts_trans; [|exact H]. split; simpl; auto.
    - intros ? ? ? ? Hf. left. eauto.
    - intros []. split; auto.
  Qed.
  Lemma insert_files_puts e c l q u q' :
    wf q -> (forall b j d, (b, j, d) ∈ l -> exists f, owns q j f /\ digest_at e f = Some d) ->
    insert_files (V := V) (R := R) c l q = (inr u, q') -> puts e c q q'.
  Proof.
    revert q. induction l as [|[[b j] d] l IH]; intros q Hw Hall H; simpl in H; [injection H as <- <-; apply puts_refl|].
    unfold bind in H.
    destruct ((if b then s_save_call_file c j d else ret tt) q) as [[x|u1] q1] eqn:E1; [done|].
    assert (puts e c q q1) as Hp.
    { destruct b; [|injection E1 as _ <-; apply puts_refl].
      destruct (Hall true j d) as (f & Hown & Hd); [by left|]. by eapply save_call_file_puts in E1 as [? _]. }
    apply IH in H; [by eapply puts_trans|by apply (pu_wf _ _ _ _ Hp)|].
    intros b' j' d' Hin. destruct (Hall b' j' d') as (f & Hown & Hd); [by right|]. exists f. split; [|done]. by eapply owns_puts.
  Qed.
  Lemma save_external_puts e c xs xd q u q' :
    fs_faithful F e -> wf q -> s_save_external veq md5 e c xs xd q = (inr u, q') -> puts e c q q'.
  Proof.
    intros Hfs Hw H. unfold s_save_external, modify in H. unfold bind at 1 in H.
    set (q1 := Sq _ _ _ _ _ _ _ _ _) in H.
    assert (puts e c q q1) as H1.
    { split; simpl; auto; [intros ? ? ? ? Hf; left; eauto|]. intros []. split; auto. }
    pose proof (pu_wf _ _ _ _ H1 Hw) as Hw1.
    unfold bind at 1 in H. destruct (check_all veq md5 e c (remove_dups xs) q1) as [[x|ss] q2] eqn:E2; [done|].
    apply check_all_spec in E2 as [Hsh2 Hss]; [|done|done]. apply (puts_shrink e c) in Hsh2 as H2.
    pose proof (pu_wf _ _ _ _ H2 Hw1) as Hw2.
    unfold bind at 1 in H. destruct (insert_ext true c _ q2) as [[x|u3] q3] eqn:E3; [done|].
    apply (insert_ext_puts e) in E3 as H3. pose proof (pu_wf _ _ _ _ H3 Hw2) as Hw3.
    unfold bind at 1 in H. destruct (insert_files c ss q3) as [[x|u4] q4] eqn:E4; [done|].
    apply (insert_files_puts e) in E4 as H4; [|done|].
    2:{ intros b j d Hin. destruct (Hss _ _ _ Hin) as (f & ? & ?). exists f. split; [|done]. by eapply owns_puts. }
    pose proof (pu_wf _ _ _ _ H4 Hw3) as Hw4.
    unfold bind at 1 in H. destruct (check_all veq md5 e c (remove_dups xd) q4) as [[x|ds] q5] eqn:E5; [done|].
    apply check_all_spec in E5 as [Hsh5 _]; [|done|done]. apply (puts_shrink e c) in Hsh5 as H5.
    apply (insert_ext_puts e) in H.
    eapply puts_trans; [exact H1|]. eapply puts_trans; [exact H2|]. eapply puts_trans; [exact H3|].
    eapply puts_trans; [exact H4|]. by eapply puts_trans.
  Qed.

  (** The row of the call itself. *)
  Lemma save_call_inv lg e fr q i r c q' :
    db_inv lg q -> frame_inv e q fr ->
    (pr_call_id (fr_prep fr) = None -> i < q_nfun q /\ forall g d s, q_funs q !! g = Some (i, d, s) -> g = rq_fun (fr_req fr) /\ d = fr_digest fr) ->
    (forall c, pr_call_id (fr_prep fr) = Some c -> pr_fun_id (fr_prep fr) = Some i) ->
    s_save_call (pr_call_id (fr_prep fr)) i (rq_bound (fr_req fr)) r q = (inr c, q') ->
    agrees e q q' /\ db_inv_ex (Some c) lg q' /\
    (forall j b r', (c, j, b, r') ∈ q_calls q' -> r' = r /\ veq b (rq_bound (fr_req fr)) = true /\
       exists deps, q_funs q' !! rq_fun (fr_req fr) = Some (j, fr_digest fr, deps)) /\
    (forall f d, cfn q' c f = Some d -> f ∈ rq_srcs (fr_req fr) ->
       (exists j d, (j, f, d) ∈ pr_files (fr_prep fr)) \/ digest_at e f = Some d).
  Proof.
    intros [Hw He] Hfr Hi Hid. destruct Hveq as (Vr & Vs & Vt). unfold s_save_call.
    destruct (pr_call_id (fr_prep fr)) as [c0|] eqn:Ec.
    - intros [= <- <-].
      destruct (fi_cid _ _ _ Hfr _ Ec) as (Hcl & Hlt & Hrow).
      set (upd := fun x : nat * nat * V * R => if Nat.eqb (call_id x) c0 then (x.1.1, x.1.2, r) else x).
      assert (forall x, call_id (upd x) = call_id x) as Hup by (intros x; unfold upd; by destruct (Nat.eqb _ _)).
      assert (forall y j b r', (y, j, b, r') ∈ upd <$> q_calls q ->
        (y <> c0 /\ (y, j, b, r') ∈ q_calls q) \/ (y = c0 /\ r' = r /\ exists r0, (c0, j, b, r0) ∈ q_calls q)) as Hin.
      { intros y j b r' (x & Hx & Hxin)%elem_of_list_fmap. unfold upd in Hx.
        destruct (Nat.eqb_spec (call_id x) c0) as [Hxc|Hxc].
        - right. destruct x as [[[c1 i1] b1] r1]. cbn in *. injection Hx as -> -> -> ->. subst. eauto.
        - left. subst x. done. }
      split_and!.
      + split; simpl; auto.
        * intros ? ? ? ? H. left. eauto.
        * intros ? ? ? ? H. left. eauto.
        * intros y j b r' H. left. destruct (Hin _ _ _ _ H) as [[_ ?]|(-> & -> & r0 & ?)]; eauto.
      + pose proof Hw as []. split; [split|]; simpl; auto.
        * intros x (x0 & -> & Hx0)%elem_of_list_fmap. fold (upd x0). rewrite Hup. auto.
        * intros x y (x0 & -> & Hx0)%elem_of_list_fmap (y0 & -> & Hy0)%elem_of_list_fmap.
          fold (upd x0) (upd y0). rewrite !Hup. intros H. by rewrite (wf_cuniq _ _ Hx0 Hy0 H).
        * intros y j b r' H Hne. destruct (Hin _ _ _ _ H) as [[_ Hy]|(-> & _)]; [|done].
          destruct (He _ _ _ _ Hy) as (ru & Hru & []); [done|]. exists ru. split; [done|]. split; auto.
      + simpl. intros j b r' H. destruct (Hin _ _ _ _ H) as [[? _]|(_ & -> & r0 & Hy)]; [done|].
        destruct (Hrow _ _ _ Hy) as [Hfid Hv]. split; [done|]. split; [by apply Vs|].
        destruct (He _ _ _ _ Hy) as (ru & Hru & []); [done|]. destruct en_digest0 as [dp Hdp].
        destruct (fi_clean _ _ _ Hfr Hcl) as (i' & Hi' & _ & Hu). rewrite Hfid in Hi'. injection Hi' as <-.
        destruct (Hu _ _ _ Hdp) as [Hg Hd]. rewrite Hg, Hd in Hdp. eauto.
      + intros f d Hcf Hf. destruct (fi_same _ _ _ Hfr _ Ec f Hf) as [?|Hs]; [by left|right]. apply Hs. exact Hcf.
    - destruct (has_fun q i) eqn:Eh; intros [= <- <-].
      apply has_fun_spec in Eh as (g & d & s & Hg). destruct (Hi eq_refl) as [Hlt Hu].
      destruct (Hu _ _ _ Hg) as [-> ->]. pose proof Hw as [].
      split_and!.
      + split; simpl; auto.
        * intros ? ? ? ? H. left. eauto.
        * intros ? ? ? ? H. left. eauto.
        * intros y j b r' [H|H]%elem_of_app; [left; eauto|]. apply elem_of_list_singleton in H as [= -> -> -> ->]. by right.
      + split; [split|]; simpl; auto.
        * intros y j d' H. destruct (wf_cf _ _ _ H). split; [lia|done].
        * intros x [H|H]%elem_of_app; [apply wf_clt in H; lia|]. apply elem_of_list_singleton in H as ->. unfold call_id. simpl. lia.
        * intros x y [H|H]%elem_of_app [H'|H']%elem_of_app; try apply elem_of_list_singleton in H as ->;
            try apply elem_of_list_singleton in H' as ->; try done; [by apply wf_cuniq|..].
          -- apply wf_clt in H. unfold call_id in *. simpl. lia.
          -- apply wf_clt in H'. unfold call_id in *. simpl. lia.
        * intros y j b r' [H|H]%elem_of_app Hne.
          -- destruct (He _ _ _ _ H) as (ru & Hru & []); [done|]. exists ru. split; [done|]. split; auto.
          -- apply elem_of_list_singleton in H as [= -> -> -> ->]. done.
      + simpl. intros j b r' [H|H]%elem_of_app.
        * apply wf_clt in H. cbn in H. lia.
        * apply elem_of_list_singleton in H as [= -> -> ->]. split; [done|]. split; [apply Vr|]. eauto.
      + intros f d' Hcf Hf. left. by apply (fi_all _ _ _ Hfr).
  Qed.

  (** Which rows there are afterwards. *)
  Lemma save_call_rows cid i b r q c q' : s_save_call (R := R) cid i b r q = (inr c, q') ->
    q_funs q' = q_funs q /\ (forall c0, cid = Some c0 -> c = c0) /\
    forall y j b' r', (y, j, b', r') ∈ q_calls q' -> y <> c -> (y, j, b', r') ∈ q_calls q.
  Proof.
    unfold s_save_call. destruct cid as [c0|].
    - intros [= <- <-]. split; [done|]. split; [by intros ? [= <-]|]. simpl.
      intros y j b' r' (x & Hx & Hin)%elem_of_list_fmap Hne. destruct (Nat.eqb_spec (call_id x) c0) as [Hc|Hc].
      + destruct x as [[[c1 i1] b1] r1]. cbn in *. injection Hx as -> -> -> ->. done.
      + by subst x.
    - destruct (has_fun q i); intros [= <- <-]. split; [done|]. split; [done|]. simpl.
      intros y j b' r' [H|H]%elem_of_app Hne; [done|]. apply elem_of_list_singleton in H as [= -> -> -> ->]. done.
  Qed.
  Lemma delete_function_rows fn q : let q' := snd (s_delete_function (V := V) (R := R) fn q) in
    (forall x, x ∈ q_calls q' -> x ∈ q_calls q) /\ (forall g x, q_funs q' !! g = Some x -> q_funs q !! g = Some x).
  Proof.
    unfold s_delete_function; simpl. destruct (q_funs q !! fn) as [[[i d] s]|] eqn:Ef; [|done]. simpl. split.
    - intros x. by intros [_ ?]%elem_of_list_filter.
    - intros g x. by intros [_ ?]%lookup_delete_Some.
  Qed.

  (** After recording a run there is a row [c] for it; the other rows were there before, and those of
      its function only if that did not change. *)
  Lemma cache0_rows lg e fr deps r q u q' :
    fs_faithful F e -> db_inv lg q -> frame_inv e q fr ->
    cache0 veq md5 e (pr_fun_dirty (fr_prep fr)) (pr_fun_id (fr_prep fr)) (rq_fun (fr_req fr))
      (fr_digest fr) deps (pr_call_id (fr_prep fr)) (rq_bound (fr_req fr)) r
      (pr_files (fr_prep fr)) (fr_xsrcs fr) (fr_xdsts fr) q = (inr u, q') ->
    exists c, agrees e q q' /\ db_inv_ex (Some c) lg q' /\
      (forall c0, pr_call_id (fr_prep fr) = Some c0 -> c = c0) /\
      (forall j b r', (c, j, b, r') ∈ q_calls q' -> entry_of q' c j b r'
         (Run (fr_req fr) (fr_digest fr) r (fr_begin fr) e (fr_xsrcs fr) (fr_xdsts fr) true)) /\
      (forall y j b r', (y, j, b, r') ∈ q_calls q' -> y <> c -> (y, j, b, r') ∈ q_calls q) /\
      (forall y j b r' g d s, (y, j, b, r') ∈ q_calls q' -> y <> c -> q_funs q' !! g = Some (j, d, s) ->
         q_funs q !! g = Some (j, d, s) /\ (g = rq_fun (fr_req fr) -> pr_fun_dirty (fr_prep fr) = false)).
  Proof.
    intros Hfs Hdb Hfr. unfold cache0. unfold bind at 1.
    set (fn := rq_fun (fr_req fr)).
    match goal with |- match ?m q with _ => _ end = _ -> _ => set (stage1 := m) end.
    destruct (stage1 q) as [[x|fid] q1] eqn:Es1; [done|].
    assert (forall i, fid = Some i -> db_inv lg q1 /\ agrees e q q1 /\ i < q_nfun q1 /\
              (forall g d s, q_funs q1 !! g = Some (i, d, s) -> g = fn /\ d = fr_digest fr) /\
              (forall c, pr_call_id (fr_prep fr) = Some c -> pr_fun_id (fr_prep fr) = Some i) /\
              (forall x, x ∈ q_calls q1 -> x ∈ q_calls q) /\
              (forall y j b r' g d s, (y, j, b, r') ∈ q_calls q1 -> q_funs q1 !! g = Some (j, d, s) ->
                 q_funs q !! g = Some (j, d, s) /\ (g = fn -> pr_fun_dirty (fr_prep fr) = false))) as Hs1.
    { intros i ->. unfold stage1 in Es1. destruct (pr_fun_dirty (fr_prep fr)) eqn:Efd.
      - unfold bind in Es1.
        set (del := match pr_fun_id (fr_prep fr) with Some _ => delete_function core0 fn | None => ret true end) in Es1.
        destruct (del q) as [[?|b] qd] eqn:Ed; [done|].
        assert (db_inv lg qd /\ agrees e q qd /\ (forall x, x ∈ q_calls qd -> x ∈ q_calls q) /\
          (forall g x, q_funs qd !! g = Some x -> q_funs q !! g = Some x)) as (Hdbd & Hagd & Hrd & Hfd).
        { unfold del in Ed. destruct (pr_fun_id (fr_prep fr)) as [x|] eqn:Eid.
          - cbn in Ed. pose proof (delete_function_inv lg e fn q Hdb) as (H1 & H2 & H3).
            injection Ed as _ <-. destruct (delete_function_rows fn q). done.
          - injection Ed as _ <-. split_and!; [done|apply agrees_refl|done|done]. }
        cbn [save_function sql_core0] in Es1.
        destruct (s_save_function None fn (fr_digest fr) deps qd) as [[?|i1] q2] eqn:Es2; [done|].
        injection Es1 as -> <-.
        assert (q_calls q2 = q_calls qd /\ i = q_nfun qd /\ forall g x, g <> fn -> q_funs q2 !! g = Some x -> q_funs qd !! g = Some x) as (Hcq & Hiq & Hfq).
        { unfold s_save_function in Es2. destruct (q_funs qd !! fn); [done|]. injection Es2 as <- <-. split_and!; try done.
          intros g x Hn. simpl. by rewrite lookup_insert_ne. }
        apply (save_function_inv lg e) in Es2 as (H1 & H2 & H3 & H4); [|done].
        split_and!; [done|by eapply agrees_trans|done| | | |].
        + intros g d s Hg. assert (g = fn) as -> by (eapply wf_ginj; [apply H1|exact Hg|exact H3]).
          split; [done|]. rewrite H3 in Hg. by injection Hg.
        + intros c Hc. destruct (fi_cid _ _ _ Hfr _ Hc). congruence.
        + intros x. rewrite Hcq. auto.
        + intros y j b' r' g d s Hrow Hg. rewrite Hcq in Hrow.
          destruct (di_entry _ _ _ Hdbd _ _ _ _ Hrow) as (ru & _ & [[dp Hdp] _ _ _]); [done|].
          destruct (decide (g = fn)) as [->|Hn].
          * rewrite H3 in Hg. injection Hg as <- _ _. pose proof (wf_glt _ _ _ (di_wf _ _ _ Hdbd) _ _ _ _ Hdp). lia.
          * split; [|done]. apply Hfd. by apply Hfq.
      - injection Es1 as Hid <-. destruct (fi_clean _ _ _ Hfr Efd) as (i' & Hi' & Hlt & Hu).
        rewrite Hi' in Hid. injection Hid as ->. split_and!; [done|apply agrees_refl|done|done|done|done|done]. }
    destruct fid as [i|]; [|done]. destruct (Hs1 i eq_refl) as (Hdb1 & Hag1 & Hlt & Hu & Hfid & Hr1 & Hf1). clear Hs1 Es1 stage1.
    pose proof (frame_inv_agrees _ _ _ _ Hag1 Hfr) as Hfr1.
    unfold bind at 1. cbn [save_call sql_core0].
    destruct (s_save_call (pr_call_id (fr_prep fr)) i (rq_bound (fr_req fr)) r q1) as [[x|c] q2] eqn:Es2; [done|].
    pose proof (save_call_rows _ _ _ _ _ _ _ Es2) as (Hf2 & Hc2 & Hr2).
    apply (save_call_inv lg e fr) in Es2 as (Hag2 & Hdb2 & Hrow & Hleft); [|done|done|done|done].
    unfold bind at 1.
    destruct (save_call_files core0 c (pr_files (fr_prep fr)) q2) as [[x|u3] q3] eqn:Es3; [done|].
    pose proof (frame_inv_agrees _ _ _ _ Hag2 Hfr1) as Hfr2.
    apply (save_call_files_puts e) in Es3 as (Hp3 & Hds).
    2:{ apply Hdb2. }
    2:{ intros j f d Hin. destruct (fi_files _ _ _ Hfr2 _ _ _ Hin) as (Hf & Hd & Hown). split; [done|].
        by rewrite <- (fi_stable _ _ _ Hfr). }
    pose proof (pu_wf _ _ _ _ Hp3 (di_wf _ _ _ Hdb2)) as Hw3.
    intros Hx. apply save_external_puts in Hx as Hp4; [|done|done].
    exists c. split.
    { eapply agrees_trans; [exact Hag1|]. eapply agrees_trans; [exact Hag2|].
      eapply agrees_trans; by eapply puts_agrees. }
    split; [exact (puts_db_inv _ _ _ _ _ Hp4 (puts_db_inv _ _ _ _ _ Hp3 Hdb2))|].
    split; [exact Hc2|].
    rewrite (pu_calls _ _ _ _ Hp4), (pu_calls _ _ _ _ Hp3).
    assert (q_funs q' = q_funs q1) as Hf3 by (by rewrite (pu_funs _ _ _ _ Hp4), (pu_funs _ _ _ _ Hp3)).
    split_and!.
    - intros j b r' Hin. destruct (Hrow _ _ _ Hin) as (-> & Hv & dp & Hdp). split; simpl.
      + exists dp. by rewrite (pu_funs _ _ _ _ Hp4), (pu_funs _ _ _ _ Hp3).
      + done.
      + done.
      + intros f d Hcf Hf. rewrite (fi_stable _ _ _ Hfr) by done.
        destruct (pu_cf _ _ _ _ Hp4 _ _ _ Hcf) as [Hcf3|[_ ?]]; [|done].
        destruct (pu_cf _ _ _ _ Hp3 _ _ _ Hcf3) as [Hcf2|[_ ?]]; [|done].
        destruct (Hleft _ _ Hcf2 Hf) as [Hpr|?]; [|done]. by apply Hds.
    - intros y j b r' Hin Hne. apply Hr1. by eapply Hr2.
    - intros y j b r' g d s Hin Hne Hg. rewrite Hf3 in Hg. by eapply Hf1; [eapply Hr2|].
  Qed.

  Lemma cache0_inv lg e fr deps r q u q' :
    fs_faithful F e -> db_inv lg q -> frame_inv e q fr ->
    cache0 veq md5 e (pr_fun_dirty (fr_prep fr)) (pr_fun_id (fr_prep fr)) (rq_fun (fr_req fr))
      (fr_digest fr) deps (pr_call_id (fr_prep fr)) (rq_bound (fr_req fr)) r
      (pr_files (fr_prep fr)) (fr_xsrcs fr) (fr_xdsts fr) q = (inr u, q') ->
    agrees e q q' /\
    db_inv (Run (fr_req fr) (fr_digest fr) r (fr_begin fr) e (fr_xsrcs fr) (fr_xdsts fr) true :: lg) q'.
  Proof.
    intros Hfs Hdb Hfr H. destruct (cache0_rows _ _ _ _ _ _ _ _ Hfs Hdb Hfr H) as (c & Hag & [Hw He] & _ & Hrow & _).
    split; [done|]. split; [done|]. intros y j b r' Hin _. destruct (decide (y = c)) as [->|Hne].
    - eexists. split; [by left|]. by apply Hrow.
    - destruct (He _ _ _ _ Hin) as (ru & Hru & ?); [congruence|]. exists ru. split; [by right|done].
  Qed.
End Inv.
