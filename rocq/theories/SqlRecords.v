(** The tables Function and Call of the SQLite backend: their ids are never given out twice, so
    that a row of Call is only ever written by runs of its function, whatever the history. *)
From stdpp Require Import base list strings gmap.
From Coq Require Import ZArith Lia.
From Verif Require Import PyMonad DbModel DbSpec DbHistory SqlBackend SqlSpec SqlLift SqlFacts SqlInv SqlExt SqlKept SqlChange.

(** What is stored about function [gn]: its digest, the cached functions it calls, and the
    arguments and results of its calls, oldest first. *)
Definition stored {V R} (q : sq V R) (gn : name) : option (digest * list name * list (V * R)) :=
  match q_funs q !! gn with
  | None => None
  | Some (i, d, s) => Some (d, decode s, map (fun x => (x.1.2, x.2)) (filter (fun x => call_fun x = i) (q_calls q)))
  end.
(** The cached function an operation deals with, as for the pickle backend. *)
Definition deals_with {V R} (s : sys V R (conn V R) nat nat nat) (o : op V R) : option name :=
  match o with
  | OBegin _ rq => Some (rq_fun rq)
  | OEnd t _ | ORaise t | OAddExt t _ _ _ =>
      match thread s t with [] => None | fr :: _ => Some (rq_fun (fr_req fr)) end
  | ODelFun f => Some f
  | _ => None
  end.

Section Records.
  Context {V R : Type} (veq : V -> V -> bool) (md5 : content -> digest).
  Notation core0 := (sql_core0 (R := R) veq).
  Notation BK := (sql_backend (V := V) (R := R) veq md5).
  Notation sq := (sq V R).
  Notation run := (run V R).
  Notation frame := (frame V R nat nat nat).
  Notation sys := (sys V R (conn V R) nat nat nat).
  Notation op := (op V R).
  Notation step := (step md5 BK).
  Notation runs := (runs md5 BK).
  Notation cur s := (k_cur (s_db s)).
  Notation base s := (k_base (s_db s)).
  Implicit Types q : sq.

  Definition tables q := (q_funs q, q_calls q, q_nfun q, q_ncall q).
  Lemma tables_parts q q' : tables q' = tables q ->
    q_funs q' = q_funs q /\ q_calls q' = q_calls q /\ q_nfun q' = q_nfun q /\ q_ncall q' = q_ncall q.
  Proof. by intros [= -> -> -> ->]. Qed.

  (** Looking at files leaves them alone. *)
  Lemma add_file_tables T e f : keeps (fun q => tables q = T) (add_file md5 core0 e f).
  Proof.
    unfold add_file. apply keeps_bind; [intros q r q' H [= <- <-]; exact H|]. intros [[fid om] od].
    destruct (e_fs e !! f) as [[mt ct]|]; [|intros q r q' H [= <- <-]; exact H].
    assert (forall (x : option nat), keeps (fun q => tables q = T) (save_file core0 x f mt (md5 ct))) as Hsave.
    { intros [i|] q r q' H E; simpl in E; destruct (q_files q !! f) as [[[j ?] ?]|]; simpl in E; try (injection E as <- <-; exact H).
      destruct (i =? j); injection E as <- <-; exact H. }
    assert (keeps (fun q => tables q = T) (delete_file core0 f)) as Hdel.
    { intros q r q' H [= <- <-]. simpl. by destruct (q_files q !! f) as [[[j ?] ?]|]. }
    assert (forall b : bool, keeps (fun q => tables q = T)
      (if b then
        let* fid' := save_file core0 fid f mt (md5 ct) in
        ret (false, match fid with Some i => i | None => fid' end, md5 ct)
      else
        let* _ := match fid with Some _ => delete_file core0 f | None => ret true end in
        let* fid' := save_file core0 None f mt (md5 ct) in
        ret (true, fid', md5 ct))) as Hslow.
    { intros [].
      - apply keeps_bind; [apply Hsave|]. intros. apply keeps_ret.
      - apply keeps_bind; [destruct fid; [done|apply keeps_ret]|].
        intros _. apply keeps_bind; [apply Hsave|]. intros. apply keeps_ret. }
    destruct om as [om|], od as [od|], fid as [fid|]; try apply Hslow; try exact (Hslow false).
    destruct (_ && _)%bool; [apply keeps_ret|apply Hslow].
  Qed.
  Lemma prepare_tables e g b srcs q r q' : prepare md5 core0 e g b srcs q = (r, q') -> tables q' = tables q.
  Proof.
    set (T := tables q). assert (tables q = T) as Hq by done. clearbody T. revert q r q' Hq.
    change (keeps (fun q => tables q = T) (prepare md5 core0 e g b srcs)). unfold prepare.
    apply keeps_bind; [intros q r q' Hq E; by rewrite (check_function_pure veq _ _ _ _ _ _ E)|]. intros [fd fid].
    apply keeps_bind.
    { destruct fd; [apply keeps_ret|]. destruct fid as [fid|]; [|apply keeps_ret]. by intros q r q' Hq [= <- <-]. }
    intros [[cd cid] old]. apply keeps_bind; [apply check_call_files_keeps; intros; apply add_file_tables|]. intros files.
    apply keeps_bind; [|intros [[? ?] ?]; apply keeps_ret].
    destruct cid as [c|]; [|apply keeps_ret]. unfold check_external_files.
    apply keeps_bind; [by intros q r q' Hq [= <- <-]|]. intros xs. apply keeps_bind; [by intros q r q' Hq [= <- <-]|]. intros xd.
    apply keeps_bind; [apply check_external_loop_keeps; intros; apply add_file_tables|]. intros. apply keeps_ret.
  Qed.
  Lemma save_call_files_tables T c ds : keeps (fun q => tables q = T) (save_call_files core0 c ds).
  Proof.
    induction ds as [|[[i f] d] ds IH]; simpl; [apply keeps_ret|]. apply keeps_bind; [|done].
    intros q r q' H E. simpl in E. unfold s_save_call_file in E. destruct (_ && _)%bool; injection E as <- <-; exact H.
  Qed.
  Lemma save_external_tables T e c xs xd : keeps (fun q => tables q = T) (s_save_external (R := R) veq md5 e c xs xd).
  Proof.
    unfold s_save_external. apply keeps_bind; [intros q r q' H [= <- <-]; exact H|]. intros _.
    assert (forall b l, keeps (fun q => tables q = T) (insert_ext (V := V) (R := R) b c l)) as Hins.
    { intros b l. induction l as [|j l IH]; simpl; [apply keeps_ret|]. apply keeps_bind; [|done].
      intros q r q' H E. destruct (_ && _)%bool; injection E as <- <-; exact H. }
    apply keeps_bind; [apply check_all_keeps; intros; apply add_file_tables|]. intros ss.
    apply keeps_bind; [apply Hins|]. intros _.
    apply keeps_bind.
    { induction ss as [|[[b i] d] ss IH]; simpl; [apply keeps_ret|]. apply keeps_bind; [|done].
      destruct b; [|apply keeps_ret]. intros q r q' H E. unfold s_save_call_file in E. destruct (_ && _)%bool; injection E as <- <-; exact H. }
    intros _. apply keeps_bind; [apply check_all_keeps; intros; apply add_file_tables|]. intros ds. apply Hins.
  Qed.

  (** Ids. *)
  Record idw q : Prop := Idw {
    iw_glt : forall g i d s, q_funs q !! g = Some (i, d, s) -> i < q_nfun q;
    iw_ginj : forall f g i d s d' s', q_funs q !! f = Some (i, d, s) -> q_funs q !! g = Some (i, d', s') -> f = g;
    iw_clt : forall x, x ∈ q_calls q -> call_id x < q_ncall q /\ call_fun x < q_nfun q;
    iw_cuniq : forall x y, x ∈ q_calls q -> y ∈ q_calls q -> call_id x = call_id y -> x = y
  }.
  Record grow q q' : Prop := Grow {
    gr_nfun : q_nfun q <= q_nfun q';
    gr_ncall : q_ncall q <= q_ncall q';
    gr_funs : forall g i d s, q_funs q' !! g = Some (i, d, s) -> i < q_nfun q -> q_funs q !! g = Some (i, d, s);
    gr_calls : forall x', x' ∈ q_calls q' -> call_id x' < q_ncall q -> exists x, x ∈ q_calls q /\ x.1 = x'.1
  }.
  Lemma grow_refl q : grow q q.
  Proof. split; eauto. Qed.
  Lemma grow_trans a b c : grow a b -> grow b c -> grow a c.
  Proof.
    intros [] []. split; [lia|lia|..].
    - intros g i d s H Hi. apply gr_funs0; [|done]. apply gr_funs1; [done|lia].
    - intros x H Hx. destruct (gr_calls1 x H) as (y & Hy & Hxy); [lia|].
      destruct (gr_calls0 y Hy) as (z & Hz & Hyz); [unfold call_id in *; by rewrite Hxy|]. exists z. split; [done|congruence].
  Qed.
  (** Every row of Call comes from a recorded run of its function. *)
  Definition justified (lg : list run) q : Prop :=
    forall g i d s x, q_funs q !! g = Some (i, d, s) -> x ∈ q_calls q -> call_fun x = i ->
      exists ru, ru ∈ lg /\ ru_recorded ru = true /\ rq_fun (ru_req ru) = g /\ ru_digest ru = d /\
        veq (rq_bound (ru_req ru)) x.1.2 = true /\ ru_result ru = x.2.
  Lemma justified_log lg ru q : justified lg q -> justified (ru :: lg) q.
  Proof. intros H g i d s x H1 H2 H3. destruct (H g i d s x H1 H2 H3) as (ru' & ? & ?). exists ru'. split; [by right|done]. Qed.

  (** What a running call remembers. *)
  Record fok q (fr : frame) : Prop := Fok {
    fk_fun : pr_fun_dirty (fr_prep fr) = false -> exists i, pr_fun_id (fr_prep fr) = Some i /\ i < q_nfun q /\
      forall g d s, q_funs q !! g = Some (i, d, s) -> g = rq_fun (fr_req fr) /\ d = fr_digest fr;
    fk_call : forall c, pr_call_id (fr_prep fr) = Some c -> pr_fun_dirty (fr_prep fr) = false /\ c < q_ncall q /\
      forall x, x ∈ q_calls q -> call_id x = c ->
        Some (call_fun x) = pr_fun_id (fr_prep fr) /\ veq (rq_bound (fr_req fr)) x.1.2 = true
  }.
  Lemma fok_grow q q' fr : grow q q' -> fok q fr -> fok q' fr.
  Proof.
    intros [] []. split.
    - intros H. destruct (fk_fun0 H) as (i & Hi & Hlt & Hg). exists i. split; [done|]. split; [lia|]. eauto.
    - intros c H. destruct (fk_call0 c H) as (Hd & Hlt & Hx). split; [done|]. split; [lia|].
      intros x Hin Hc. destruct (gr_calls0 x Hin) as (y & Hy & Hyx); [lia|].
      destruct (Hx y Hy) as [H1 H2]; [unfold call_id in *; congruence|]. unfold call_fun in *. by rewrite Hyx in H1, H2.
  Qed.

  Lemma idw_tables q q' : tables q' = tables q -> idw q -> idw q'.
  Proof. intros (E1 & E2 & E3 & E4)%tables_parts []. split; rewrite ?E1, ?E2, ?E3, ?E4; done. Qed.
  Lemma grow_tables q q' : tables q' = tables q -> grow q q'.
  Proof. intros (E1 & E2 & E3 & E4)%tables_parts. split; rewrite ?E1, ?E2, ?E3, ?E4; eauto. Qed.
  Lemma justified_tables lg q q' : tables q' = tables q -> justified lg q -> justified lg q'.
  Proof. intros (E1 & E2 & E3 & E4)%tables_parts H. unfold justified. by rewrite E1, E2. Qed.
  Lemma stored_tables q q' gn : tables q' = tables q -> stored q' gn = stored q gn.
  Proof. intros (E1 & E2 & E3 & E4)%tables_parts. unfold stored. by rewrite E1, E2. Qed.

  (** Rows disappear. *)
  Record sub q q' : Prop := Sub {
    su_funs : forall g x, q_funs q' !! g = Some x -> q_funs q !! g = Some x;
    su_calls : forall x, x ∈ q_calls q' -> x ∈ q_calls q;
    su_nfun : q_nfun q' = q_nfun q;
    su_ncall : q_ncall q' = q_ncall q
  }.
  Lemma sub_refl q : sub q q.
  Proof. by split. Qed.
  Lemma sub_trans a b c : sub a b -> sub b c -> sub a c.
  Proof. intros [] []. split; eauto; congruence. Qed.
  Lemma sub_tables q q' : tables q' = tables q -> sub q q'.
  Proof. intros (E1 & E2 & E3 & E4)%tables_parts. split; rewrite ?E1, ?E2; done. Qed.
  Lemma sub_idw q q' : sub q q' -> idw q -> idw q'.
  Proof.
    intros [S1 S2 S3 S4] []. split; rewrite ?S3, ?S4; eauto.
  Qed.
  Lemma sub_grow q q' : sub q q' -> grow q q'.
  Proof. intros []. split; [lia|lia|eauto|]. intros x Hx _. eauto. Qed.
  Lemma sub_justified lg q q' : sub q q' -> justified lg q -> justified lg q'.
  Proof. intros [] H g i d s x H1 H2. eauto. Qed.

  Lemma delete_function_sub fn q : sub q (snd (s_delete_function fn q)).
  Proof.
    unfold s_delete_function; simpl. destruct (q_funs q !! fn) as [[[i d] s]|]; [|apply sub_refl].
    split; simpl; try done.
    - intros g x. rewrite lookup_delete_Some. by intros [].
    - intros x. by intros [? ?]%elem_of_list_filter.
  Qed.
  Lemma delete_function_gone fn q : q_funs (snd (s_delete_function fn q)) !! fn = None.
  Proof.
    unfold s_delete_function; simpl. destruct (q_funs q !! fn) as [[[i d] s]|] eqn:E; simpl; [|done]. apply lookup_delete.
  Qed.
  Lemma filter_filter_same {A} (P Q : A -> Prop) `{forall x, Decision (P x)} `{forall x, Decision (Q x)} (l : list A) :
    (forall x, x ∈ l -> P x -> Q x) -> filter P (filter Q l) = filter P l.
  Proof.
    induction l as [|x l IH]; intros HPQ; [done|]. rewrite (filter_cons Q), (filter_cons P).
    rewrite <- IH by (intros; apply HPQ; [by right|done]).
    destruct (decide (Q x)) as [Hq|Hq]; [by rewrite filter_cons|].
    rewrite decide_False; [done|]. intros Hp. apply Hq, HPQ; [by left|done].
  Qed.
  Lemma delete_function_stored fn q gn : idw q -> gn <> fn -> stored (snd (s_delete_function fn q)) gn = stored q gn.
  Proof.
    intros Hw Hn. unfold s_delete_function; simpl. destruct (q_funs q !! fn) as [[[i d] s]|] eqn:E; simpl; [|done].
    unfold stored; simpl. rewrite lookup_delete_ne by done. destruct (q_funs q !! gn) as [[[j d'] s']|] eqn:Eg; [|done].
    f_equal. f_equal. f_equal. apply filter_filter_same. intros x Hx Hj.
    apply not_true_iff_false. intros Hex. apply existsb_exists in Hex as (y & Hy & [H1 H2]%andb_true_iff).
    apply elem_of_list_In in Hy. apply Nat.eqb_eq in H1. apply Nat.eqb_eq in H2.
    rewrite (iw_cuniq _ Hw y x Hy Hx H1) in H2. apply Hn. eapply (iw_ginj _ Hw); [exact Eg|]. rewrite <- Hj, H2. exact E.
  Qed.

  Lemma save_function_ok lg fn fd deps q i q' : idw q -> justified lg q ->
    s_save_function (V := V) (R := R) None fn fd deps q = (inr i, q') ->
    idw q' /\ grow q q' /\ justified lg q' /\ i < q_nfun q' /\
    (forall g d s, q_funs q' !! g = Some (i, d, s) -> g = fn /\ d = fd) /\
    forall gn, gn <> fn -> stored q' gn = stored q gn.
  Proof.
    intros Hw Hj. unfold s_save_function. destruct (q_funs q !! fn) as [?|] eqn:E; [done|]. intros [= <- <-].
    assert (forall g i d s, <[fn:=(q_nfun q, fd, join0 deps)]> (q_funs q) !! g = Some (i, d, s) ->
      (g = fn /\ i = q_nfun q /\ d = fd) \/ (q_funs q !! g = Some (i, d, s) /\ i < q_nfun q)) as Hrow.
    { intros g i d s. rewrite lookup_insert_Some. intros [[-> [= <- <- <-]]|[_ H]]; [by left|]. right. split; [done|]. by eapply (iw_glt _ Hw). }
    split_and!; simpl.
    - split; simpl.
      + intros g i d s [(_ & -> & _)|[_ ?]]%Hrow; lia.
      + intros f g i d s d' s' [(-> & -> & _)|[H1 H1']]%Hrow [(-> & H2 & _)|[H2 H2']]%Hrow; [done|lia|lia|]. by eapply (iw_ginj _ Hw).
      + intros x Hx. destruct (iw_clt _ Hw x Hx). lia.
      + apply (iw_cuniq _ Hw).
    - split; simpl; [lia|lia| |].
      + intros g i d s [(_ & -> & _)|[? _]]%Hrow; [lia|done].
      + eauto.
    - intros g i d s x [(-> & -> & ->)|[H _]]%Hrow Hx Hc; [|eauto].
      simpl in Hx. destruct (iw_clt _ Hw x Hx). lia.
    - lia.
    - intros g d s [(-> & _ & ->)|[_ ?]]%Hrow; [done|lia].
    - intros gn Hn. unfold stored; simpl. by rewrite lookup_insert_ne.
  Qed.

  Lemma save_call_ok lg ru cid i bd r q c q' : idw q -> justified lg q -> equivalence_test veq ->
    i < q_nfun q -> (forall g d s, q_funs q !! g = Some (i, d, s) -> g = rq_fun (ru_req ru) /\ d = ru_digest ru) ->
    ru_recorded ru = true -> rq_bound (ru_req ru) = bd -> ru_result ru = r ->
    (forall c, cid = Some c -> forall x, x ∈ q_calls q -> call_id x = c -> call_fun x = i /\ veq bd x.1.2 = true) ->
    s_save_call cid i bd r q = (inr c, q') ->
    idw q' /\ grow q q' /\ justified (ru :: lg) q' /\
    forall gn, gn <> rq_fun (ru_req ru) -> stored q' gn = stored q gn.
  Proof.
    intros Hw Hj Hv Hi Hg Hrec Hbd Hr Hc. unfold s_save_call. destruct cid as [c0|].
    - specialize (Hc c0 eq_refl). intros [= <- <-].
      set (up := fun x : nat * nat * V * R => if call_id x =? c0 then (x.1.1, x.1.2, r) else x).
      assert (forall x, (up x).1 = x.1) as Hup by (intros [[[? ?] ?] ?]; unfold up; cbn; by destruct (_ =? _)).
      assert (forall x', x' ∈ up <$> q_calls q -> exists x, x ∈ q_calls q /\ x' = up x) as Hin.
      { intros x' (x & -> & H)%elem_of_list_fmap. eauto. }
      assert (forall x, call_id (up x) = call_id x /\ call_fun (up x) = call_fun x) as Hid
        by (intros x; unfold call_id, call_fun; by rewrite Hup).
      split_and!.
      + split; simpl; [apply Hw|apply Hw| |].
        * intros x' (x & Hx & ->)%Hin. destruct (Hid x) as [-> ->]. by apply Hw.
        * intros x' y' (x & Hx & ->)%Hin (y & Hy & ->)%Hin. destruct (Hid x) as [-> _], (Hid y) as [-> _].
          intros E. by rewrite (iw_cuniq _ Hw x y Hx Hy E).
      + split; simpl; [lia|lia|done|]. intros x' (x & Hx & ->)%Hin _. exists x. by rewrite Hup.
      + intros g j d s x' Hrow (x & Hx & ->)%Hin Hfun. simpl in Hrow. rewrite Hup. destruct (Hid x) as [_ Hf]. rewrite Hf in Hfun.
        unfold up. destruct (call_id x =? c0) eqn:Ec.
        * apply Nat.eqb_eq in Ec. destruct (Hc x Hx Ec) as [Hxi Hxv]. exists ru. split; [by left|].
          rewrite <- Hfun, Hxi in Hrow. destruct (Hg _ _ _ Hrow) as [-> ->]. rewrite Hbd. by split_and!.
        * destruct (Hj g j d s x Hrow Hx Hfun) as (ru' & ? & ?). exists ru'. split; [by right|done].
      + intros gn Hn. unfold stored; simpl. destruct (q_funs q !! gn) as [[[j d] s]|] eqn:Egn; [|done].
        f_equal. f_equal. assert (j <> i) as Hji.
        { intros ->. destruct (Hg _ _ _ Egn) as [-> _]. done. }
        clear -Hji Hid Hc. assert (forall x, x ∈ q_calls q -> call_fun x = j -> up x = x) as Hsame.
        { intros x Hx Hj. unfold up. destruct (call_id x =? c0) eqn:Ec; [|done]. apply Nat.eqb_eq in Ec.
          destruct (Hc x Hx Ec). congruence. }
        clear Hc.
        induction (q_calls q) as [|x l IH]; [done|]. rewrite fmap_cons, !filter_cons.
        destruct (Hid x) as [_ Hf]. rewrite Hf. destruct (decide (call_fun x = j)) as [E|E].
        * rewrite (Hsame x) by (done || by left). simpl. f_equal. apply IH. intros y Hy. apply Hsame. by right.
        * apply IH. intros y Hy. apply Hsame. by right.
    - destruct (has_fun q i); [|done]. intros [= <- <-].
      assert (forall x, x ∈ q_calls q ++ [(q_ncall q, i, bd, r)] -> (x ∈ q_calls q /\ call_id x < q_ncall q) \/ x = (q_ncall q, i, bd, r)) as Hin.
      { intros x [H|H]%elem_of_app; [left; split; [done|]; by apply Hw|]. right. by apply elem_of_list_singleton in H. }
      split_and!.
      + split; simpl; [apply Hw|apply Hw| |].
        * intros x [[Hx _]| ->]%Hin; [destruct (iw_clt _ Hw x Hx); lia|]. cbn. lia.
        * intros x y [[Hx Hx']| ->]%Hin [[Hy Hy']| ->]%Hin; [by apply (iw_cuniq _ Hw)|cbn; lia|cbn; lia|done].
      + split; simpl; [lia|lia|done|]. intros x [[Hx _]| ->]%Hin H; [eauto|cbn in H; lia].
      + intros g j d s x Hrow [[Hx _]| ->]%Hin Hfun; simpl in Hrow.
        * destruct (Hj g j d s x Hrow Hx Hfun) as (ru' & ? & ?). exists ru'. split; [by right|done].
        * cbn in Hfun. subst j. exists ru. split; [by left|]. destruct (Hg _ _ _ Hrow) as [-> ->].
          split_and!; try done. rewrite Hbd. cbn. apply (proj1 Hv).
      + intros gn Hn. unfold stored; simpl. destruct (q_funs q !! gn) as [[[j d] s]|] eqn:Egn; [|done].
        f_equal. f_equal. rewrite filter_app, map_app. rewrite (filter_cons _ (_, _, _, _)), decide_False; [by rewrite app_nil_r|].
        cbn. intros ->. destruct (Hg _ _ _ Egn) as [-> _]. done.
  Qed.

  Lemma cache0_ok lg e fr deps r ru q q' : equivalence_test veq -> idw q -> justified lg q -> fok q fr ->
    ru_recorded ru = true -> ru_req ru = fr_req fr -> ru_digest ru = fr_digest fr -> ru_result ru = r ->
    cache0 veq md5 e (pr_fun_dirty (fr_prep fr)) (pr_fun_id (fr_prep fr)) (rq_fun (fr_req fr)) (fr_digest fr) deps
      (pr_call_id (fr_prep fr)) (rq_bound (fr_req fr)) r (pr_files (fr_prep fr)) (fr_xsrcs fr) (fr_xdsts fr) q = (inr tt, q') ->
    idw q' /\ grow q q' /\ justified (ru :: lg) q' /\
    forall gn, gn <> rq_fun (fr_req fr) -> stored q' gn = stored q gn.
  Proof.
    intros Hv Hw Hj [Hf Hc] Hrec Hreq Hdig Hres. unfold cache0, bind.
    match goal with |- match ?m q with _ => _ end = _ -> _ => destruct (m q) as [[x|fid] q1] eqn:E1 end; [done|].
    assert (exists i, fid = Some i /\ idw q1 /\ grow q q1 /\ justified lg q1 /\ i < q_nfun q1 /\
      (forall g d s, q_funs q1 !! g = Some (i, d, s) -> g = rq_fun (fr_req fr) /\ d = fr_digest fr) /\
      (forall gn, gn <> rq_fun (fr_req fr) -> stored q1 gn = stored q gn) /\
      (forall c, pr_call_id (fr_prep fr) = Some c -> forall x, x ∈ q_calls q1 -> call_id x = c -> call_fun x = i /\ veq (rq_bound (fr_req fr)) x.1.2 = true))
      as (i & -> & Hw1 & Hg1 & Hj1 & Hi1 & Hn1 & Hs1 & Hc1).
    { destruct (pr_fun_dirty (fr_prep fr)) eqn:Ed.
      - match type of E1 with match ?m q with _ => _ end = _ => destruct (m q) as [[x|bb] q0] eqn:E0 end; [done|].
        assert (q0 = q \/ q0 = snd (s_delete_function (rq_fun (fr_req fr)) q)) as Hq0.
        { destruct (pr_fun_id (fr_prep fr)); [right|left]; [|by injection E0 as <- <-]. simpl in E0. by injection E0 as <- <-. }
        assert (sub q q0) as Hsub by (destruct Hq0 as [-> | ->]; [apply sub_refl|apply delete_function_sub]).
        destruct (save_function core0 None (rq_fun (fr_req fr)) (fr_digest fr) deps q0) as [[x|i] q2] eqn:E2; [done|].
        injection E1 as <- <-. exists i. split; [done|].
        destruct (save_function_ok lg _ _ _ _ _ _ (sub_idw _ _ Hsub Hw) (sub_justified _ _ _ Hsub Hj) E2) as (A & B & C & D & E & G).
        split_and!; try done.
        + eapply grow_trans; [by apply sub_grow|done].
        + intros gn Hn. rewrite G by done. destruct Hq0 as [-> | ->]; [done|]. by apply delete_function_stored.
        + intros c Hcid. by destruct (Hc c Hcid) as [Hd _].
      - injection E1 as <- <-. destruct (Hf eq_refl) as (i & Hi & Hlt & Hg). exists i. split_and!; try done; [apply grow_refl|].
        intros c Hcid x Hx Hxc. destruct (Hc c Hcid) as (_ & _ & H). destruct (H x Hx Hxc) as [H1 H2]. split; [|done]. congruence. }
    intros H. simpl save_call in H. 
    destruct (s_save_call (pr_call_id (fr_prep fr)) i (rq_bound (fr_req fr)) r q1) as [[x|c] q2] eqn:E2; [done|].
    destruct (save_call_ok lg ru _ _ _ _ _ _ _ Hw1 Hj1 Hv Hi1 ltac:(by rewrite Hreq, Hdig) Hrec ltac:(by rewrite Hreq) Hres Hc1 E2) as (A & B & C & D).
    rewrite Hreq in D.
    destruct (save_call_files core0 c (pr_files (fr_prep fr)) q2) as [[x|u] q3] eqn:E3; [done|].
    pose proof (save_call_files_tables (tables q2) _ _ _ _ _ eq_refl E3) as T3.
    pose proof (save_external_tables (tables q3) _ _ _ _ _ _ _ eq_refl H) as T4.
    rewrite T3 in T4. split_and!.
    - by eapply idw_tables.
    - eapply grow_trans; [exact Hg1|]. eapply grow_trans; [exact B|]. by apply grow_tables.
    - by eapply justified_tables.
    - intros gn Hn. rewrite (stored_tables q2) by done. rewrite D by done. by apply Hs1.
  Qed.

  (** The invariant of all histories. *)
  Record rinv (s : sys) : Prop := Rinv {
    ri_idw : idw (base s);
    ri_sub : sub (base s) (cur s);
    ri_just : justified (s_log s) (base s);
    ri_frames : forall t fr, fr ∈ thread s t -> fok (base s) fr
  }.
  Lemma rinv_fresh s : fresh conn_empty s -> rinv s.
  Proof.
    intros (Hdb & Hcs & Hth & Hlg). split; rewrite ?Hdb; simpl.
    - split; simpl; try done. intros x Hx. by apply elem_of_nil in Hx. intros x y Hx. by apply elem_of_nil in Hx.
    - apply sub_refl.
    - intros g i d s'. simpl. by rewrite lookup_empty.
    - intros t fr. unfold thread. rewrite Hth, lookup_empty. by intros ?%elem_of_nil.
  Qed.

  Lemma begin_fok (s : sys) rq p d q' : rinv s ->
    prepare md5 core0 (s_env s) (rq_fun rq) (rq_bound rq) (rq_srcs rq) (cur s) = (inr p, q') ->
    e_fun (s_env s) !! rq_fun rq = Some d -> fok (base s) (Frame rq d p [] [] (s_env s)).
  Proof.
    intros [Hw Hsub Hj Hfr] H Hd. pose proof (sub_idw _ _ Hsub Hw) as Hwc.
    pose proof (prepare_cid veq md5 _ _ _ _ _ _ _ H) as Hcid.
    assert ((pr_fun_dirty p = false -> exists i s', pr_fun_id p = Some i /\ q_funs (cur s) !! rq_fun rq = Some (i, d, s')) /\
      (pr_fun_dirty p = true -> pr_call_id p = None)) as [Hcl Hdirty].
    { unfold prepare, bind in H. destruct (check_function core0 (e_limit (s_env s)) (s_env s) (rq_fun rq) (cur s)) as [[x|[fd fid]] q1] eqn:E1; [done|].
      pose proof (check_function_pure veq _ _ _ _ _ _ E1) as ->.
      pose proof (check_function_spec veq _ _ _ _ _ _ _ E1) as (d' & Hd' & Hclean).
      rewrite Hd in Hd'. injection Hd' as <-.
      match type of H with match ?m (cur s) with _ => _ end = _ => destruct (m (cur s)) as [[x|[[cd cid] old]] q2] eqn:E2 end; [done|].
      destruct (check_call_files md5 core0 (s_env s) cid (rq_srcs rq) q2) as [[x|files] q3]; [done|].
      match type of H with match ?m q3 with _ => _ end = _ => destruct (m q3) as [[x|[[xs xd] xf]] q4] end; [done|].
      injection H as <- <-. simpl. split.
      - intros ->. destruct (Hclean eq_refl) as (i & deps & -> & ?). eauto.
      - intros ->. by injection E2 as <- <- <- <-. }
    split; simpl.
    - intros Hf. destruct (Hcl Hf) as (i & s' & Hi & Hrow). exists i. apply (su_funs _ _ Hsub) in Hrow. split; [done|].
      split; [by eapply (iw_glt _ Hw)|]. intros g d' s'' Hg. pose proof (iw_ginj _ Hw _ _ _ _ _ _ _ Hrow Hg) as <-.
      split; [done|]. congruence.
    - intros c Hc. destruct (pr_fun_dirty p) eqn:Ed; [by rewrite Hdirty in Hc|]. split; [done|].
      destruct (Hcl eq_refl) as (i & s' & Hi & Hrow). destruct (Hcid eq_refl i Hi) as [_ Hs]. rewrite Hc in Hs.
      destruct (search_row veq i (rq_bound rq) (q_calls (cur s))) as [[c' r]|] eqn:Es; [|done]. injection Hs as <-.
      apply search_row_spec in Es as (b' & Hin & Hv). apply (su_calls _ _ Hsub) in Hin.
      destruct (iw_clt _ Hw _ Hin) as [Hlt _]. cbn in Hlt. split; [done|].
      intros x Hx Hxc. assert (x = (c, i, b', r)) as -> by (by apply (iw_cuniq _ Hw)). by rewrite Hi.
  Qed.

  Lemma begin_same_threads (s : sys) t rq : let s' := fst (step s (OBegin t rq)) in
    s_log s' = s_log s /\ base s' = base s /\ tables (cur s') = tables (cur s) /\
    (rinv s -> forall t' fr, fr ∈ thread s' t' -> fr ∈ thread s t' \/ fok (base s) fr).
  Proof.
    pose proof (begin_tables veq md5 s t rq) as (Hb & Hl & Hc). intros s'. split; [done|]. split; [done|]. split.
    { subst s'. destruct Hc as [-> | [r H]]; [done|]. by eapply prepare_tables. }
    intros Hinv. unfold s'. clear Hb Hl Hc s'. simpl. unfold begin_call. destruct (e_fun (s_env s) !! rq_fun rq) as [d|] eqn:Ed; [|by left].
    destruct (prepare md5 (b_core BK) _ _ _ _ _) as [res db] eqn:Ep. simpl in Ep.
    rewrite (lifts_prepare veq md5 _ _ _ _ (s_db s)) in Ep. unfold on_cur in Ep.
    destruct (prepare _ core0 _ _ _ _ _) as [r q] eqn:E. injection Ep as <- <-.
    destruct r as [x|p]; [by left|].
    pose proof (begin_fok s rq p d q Hinv E Ed) as Hfok.
    assert (forall cs t' fr, fr ∈ thread (Sys (s_env s) (Conn q (base s) (k_version (s_db s))) cs
        (<[t := Frame rq d p [] [] (s_env s) :: thread s t]> (s_threads s)) (s_log s)) t' -> fr ∈ thread s t' \/ fok (base s) fr) as Hrun.
    { intros cs t' fr. rewrite thread_insert. destruct (decide (t = t')) as [<-|Hn]; [|by left].
      intros [-> |H]%elem_of_cons; [by right|by left]. }
    destruct (pr_fun_dirty p), (pr_call_dirty p), (pr_files p), (pr_xfiles p), (pr_old_result p); try (apply Hrun).
    destruct (forallb _ _); [by left|apply Hrun].
  Qed.

  Lemma end_threads (s : sys) t r t' fr : fr ∈ thread (fst (step s (OEnd t r))) t' -> fr ∈ thread s t'.
  Proof.
    simpl. unfold end_call. destruct (thread s t) as [|f0 frs] eqn:Et; [done|].
    assert (forall e db cs lg, fr ∈ thread (Sys (FunId := nat) (CallId := nat) (FileId := nat) e db cs (<[t := frs]> (s_threads s)) lg : sys) t' -> fr ∈ thread s t') as H.
    { intros e db cs lg. rewrite thread_insert. destruct (decide (t = t')) as [<-|]; [|done]. rewrite Et. intros. by right. }
    destruct (s_callstack s) as [|deps cs]; [apply H|].
    destruct (cache _ _ _ _ _ _ _ _ _ _ _ _ _ _) as [[?|?] ?]; apply H.
  Qed.

  Lemma rinv_step (s : sys) o : equivalence_test veq -> rinv s -> rinv (fst (step s o)).
  Proof.
    intros Hv Hinv. pose proof Hinv as [Hw Hsub Hj Hfr].
    destruct o as [t rq|t xs xd g|t r|t|f ct m|f|dt| |funs|f|f]; try (by split).
    - destruct (begin_same_threads s t rq) as (Hl & Hb & Hc & Hth). split; rewrite ?Hl, ?Hb; [done| |done|].
      + eapply sub_trans; [done|]. by apply sub_tables.
      + intros t' fr [H|H]%(Hth Hinv); [by eapply Hfr|done].
    - split; try done. intros t' fr. simpl. unfold add_ext. rewrite thread_insert. destruct (decide (t = t')) as [<-|]; [|apply Hfr].
      assert (forall fr0, fr0 ∈ thread s t -> fok (base s) (frame_add xs xd fr0)) as Hadd.
      { intros fr0 H. destruct (Hfr t fr0 H). by split. }
      simpl. specialize (Hfr t). destruct (thread s t) as [|f0 frs]; [by intros ?%elem_of_nil|].
      intros [-> |H]%elem_of_cons; [apply Hadd; by left|]. destruct g; [apply Hfr; by right|].
      apply elem_of_list_fmap in H as (f1 & -> & H). apply Hadd. by right.
    - pose proof (end_threads s t r) as Hth.
      destruct (end_tables veq md5 s t r) as [(Hdb & Hl & _)|(fr & frs & deps & ok & Et & Hl & [(-> & Hb & _ & Hc)|(-> & Hb & Hc & _)])].
      + split; rewrite ?Hdb, ?Hl; try done. intros t' fr H%Hth. by eapply Hfr.
      + assert (fok (cur s) fr) as Hfrc.
        { eapply fok_grow; [by apply sub_grow|]. apply (Hfr t). rewrite Et. by left. }
        destruct (cache0_ok (s_log s) (s_env s) fr deps r
          (Run (fr_req fr) (fr_digest fr) r (fr_begin fr) (s_env s) (fr_xsrcs fr) (fr_xdsts fr) true) _ _ Hv
          (sub_idw _ _ Hsub Hw) (sub_justified _ _ _ Hsub Hj) Hfrc eq_refl eq_refl eq_refl eq_refl Hc) as (A & B & C & D).
        split; rewrite ?Hb; [exact A|apply sub_refl| |].
        * rewrite Hl. exact C.
        * intros t' fr' H%Hth. eapply fok_grow; [exact B|]. eapply fok_grow; [by apply sub_grow|]. by eapply Hfr.
      + split; rewrite ?Hb, ?Hc, ?Hl; [done|apply sub_refl|by apply justified_log|]. intros t' fr' H%Hth. by eapply Hfr.
    - simpl. unfold raise_call. destruct (thread s t) as [|f0 frs] eqn:Et; [done|].
      split; try done. intros t' fr. simpl. rewrite thread_insert. destruct (decide (t = t')) as [<-|]; [|apply Hfr].
      intros H. apply (Hfr t). rewrite Et. by right.
    - split; simpl; [by eapply sub_idw|apply sub_refl|by eapply sub_justified|].
      intros t fr H. eapply fok_grow; [by apply sub_grow|]. by eapply Hfr.
    - simpl. destruct (k_version (s_db s)).
      2:{ split; simpl; [|apply sub_refl| |].
          - split; simpl; try done; intros x; [|intros y]; by intros ?%elem_of_nil.
          - intros g i d s'. simpl. by rewrite lookup_empty.
          - intros t fr. unfold thread. simpl. rewrite lookup_empty. by intros ?%elem_of_nil. }
      split; simpl; [done|apply sub_refl|done|]. intros t fr. unfold thread. simpl. rewrite lookup_empty. by intros ?%elem_of_nil.
    - split; try done. simpl. eapply sub_trans; [done|]. apply delete_function_sub.
    - split; try done. simpl. eapply sub_trans; [done|]. apply sub_tables. unfold s_delete_file. simpl.
      by destruct (q_files (cur s) !! f) as [[[? ?] ?]|].
  Qed.

  Lemma rinv_runs (s : sys) os : equivalence_test veq -> rinv s -> rinv (runs s os).
  Proof. intros Hv. revert s. induction os as [|o os IH]; intros s H; [done|]. by apply IH, rinv_step. Qed.

  Lemma not_stored (s : sys) t rq r srcs dsts : stored (cur s) (rq_fun rq) = None -> snd (step s (OBegin t rq)) <> RHit r srcs dsts.
  Proof.
    intros Hn. assert (q_funs (cur s) !! rq_fun rq = None) as Hrow.
    { unfold stored in Hn. by destruct (q_funs (cur s) !! rq_fun rq) as [[[? ?] ?]|]. }
    simpl. unfold begin_call. destruct (e_fun (s_env s) !! rq_fun rq) as [d|] eqn:Ed; [|done].
    destruct (prepare md5 (b_core BK) _ _ _ _ _) as [res db] eqn:Ep. simpl in Ep.
    rewrite (lifts_prepare veq md5 _ _ _ _ (s_db s)) in Ep. unfold on_cur in Ep.
    destruct (prepare _ core0 _ _ _ _ _) as [x q] eqn:E. injection Ep as <- <-.
    destruct x as [x|p]; [done|]. destruct (pr_fun_dirty p) eqn:Epd; [done|]. exfalso.
    unfold prepare, bind in E. destruct (check_function core0 (e_limit (s_env s)) (s_env s) (rq_fun rq) (cur s)) as [[x|[fd fid]] q1] eqn:E1; [done|].
    pose proof (check_function_spec veq _ _ _ _ _ _ _ E1) as (d' & Hd' & Hclean).
    match type of E with match ?m q1 with _ => _ end = _ => destruct (m q1) as [[x|[[cd cid] old]] q2] eqn:E2 end; [done|].
    destruct (check_call_files md5 core0 (s_env s) cid (rq_srcs rq) q2) as [[x|files] q3]; [done|].
    match type of E with match ?m q3 with _ => _ end = _ => destruct (m q3) as [[x|[[xs xd] xf]] q4] end; [done|].
    injection E as <- <-. simpl in Epd. destruct (Hclean Epd) as (i & deps & -> & H). congruence.
  Qed.

  Lemma hit_recorded (s : sys) t rq r srcs dsts : equivalence_test veq -> rinv s ->
    snd (step s (OBegin t rq)) = RHit r srcs dsts ->
    exists ru, ru ∈ s_log s /\ ru_recorded ru = true /\ rq_fun (ru_req ru) = rq_fun rq /\
      veq (rq_bound rq) (rq_bound (ru_req ru)) = true /\ ru_result ru = r /\
      e_fun (s_env s) !! rq_fun rq = Some (ru_digest ru).
  Proof.
    intros Hv [Hw Hsub Hj _]. simpl. unfold begin_call. destruct (e_fun (s_env s) !! rq_fun rq) as [d|] eqn:Ed; [|done].
    destruct (prepare md5 (b_core BK) _ _ _ _ _) as [res db] eqn:Ep. simpl in Ep.
    rewrite (lifts_prepare veq md5 _ _ _ _ (s_db s)) in Ep. unfold on_cur in Ep.
    destruct (prepare _ core0 _ _ _ _ _) as [x q] eqn:E. injection Ep as <- <-.
    destruct x as [x|p]; [done|]. destruct (pr_fun_dirty p) eqn:Epd; [done|].
    destruct (pr_call_dirty p) eqn:E2; [done|]. destruct (pr_files p) as [|] eqn:E3; [|done].
    destruct (pr_xfiles p) as [|] eqn:E4; [|done]. destruct (pr_old_result p) as [r0|] eqn:E5; [|done].
    destruct (forallb _ _) eqn:E6; [|done]. simpl. intros [= <- <- <-].
    unfold prepare, bind in E. destruct (check_function core0 (e_limit (s_env s)) (s_env s) (rq_fun rq) (cur s)) as [[x|[fd fid]] q1] eqn:E1; [done|].
    pose proof (check_function_pure veq _ _ _ _ _ _ E1) as ->.
    pose proof (check_function_spec veq _ _ _ _ _ _ _ E1) as (d' & Hd' & Hclean). rewrite Ed in Hd'. injection Hd' as <-.
    match type of E with match ?m (cur s) with _ => _ end = _ => destruct (m (cur s)) as [[x|[[cd cid] old]] q2] eqn:Ec end; [done|].
    destruct (check_call_files md5 core0 (s_env s) cid (rq_srcs rq) q2) as [[x|files] q3]; [done|].
    match type of E with match ?m q3 with _ => _ end = _ => destruct (m q3) as [[x|[[xs xd] xf]] q4] end; [done|].
    injection E as <- <-. simpl in *. subst. destruct (Hclean eq_refl) as (i & deps & -> & Hrow).
    simpl in Ec. unfold s_find_call in Ec. destruct (search_row veq i (rq_bound rq) (q_calls (cur s))) as [[c r]|] eqn:Es; [|done].
    injection Ec as <- <- <-. apply search_row_spec in Es as (b' & Hin & Hvb).
    destruct (Hj _ _ _ _ _ (su_funs _ _ Hsub _ _ Hrow) (su_calls _ _ Hsub _ Hin) eq_refl) as (ru & H1 & H2 & H3 & H4 & H5 & H6).
    exists ru. destruct Hv as (_ & Hsym & Htr). split_and!; try done; [|by rewrite H4].
    eapply Htr; [exact Hvb|]. by apply Hsym.
  Qed.

  (** Deletions of [gn] have been followed by something that commits them, or ends the process. *)
  Definition settled (s0 : sys) (gn : name) (os : list op) : Prop :=
    forall a b, os = a ++ ODelFun gn :: b -> exists b1 o b2, b = b1 ++ o :: b2 /\
      (o = OSave \/ (exists funs, o = ORestart funs) \/
       exists t r srcs dsts, o = OEnd t r /\ snd (step (runs s0 (a ++ ODelFun gn :: b1)) o) = RDone r srcs dsts).

  (** What one operation does to what is stored. *)
  Lemma step_stored (s : sys) o gn : equivalence_test veq -> rinv s -> stored (base s) gn = stored (cur s) gn ->
    (forall funs, o <> ORestart funs) ->
    deals_with s o <> Some gn \/ (exists t rq, o = OBegin t rq) \/ (exists t xs xd g, o = OAddExt t xs xd g) \/ (exists t, o = ORaise t) \/
      (exists t r x, o = OEnd t r /\ snd (step s o) = RErr x) ->
    stored (cur (fst (step s o))) gn = stored (cur s) gn.
  Proof.
    intros Hv Hinv Hag Hr Hs. pose proof Hinv as [Hw Hsub Hj Hfr].
    destruct o as [t rq|t xs xd g|t r|t|f ct m|f|dt| |funs|f|f]; try done.
    - destruct (begin_same_threads s t rq) as (_ & _ & Hc & _). by apply stored_tables.
    - destruct (end_tables veq md5 s t r) as [(Hdb & Hl & _)|(fr & frs & deps & ok & Et & Hl & [(-> & Hb & Hd & Hc)|(-> & Hb & Hc & _)])].
      + by rewrite Hdb.
      + assert (gn <> rq_fun (fr_req fr)) as Hn.
        { destruct Hs as [Hs|[(? & ? & ?)|[(? & ? & ? & ? & ?)|[[? ?]|(t' & r' & x & _ & Hx)]]]]; [|done..|].
          - simpl in Hs. rewrite Et in Hs. congruence.
          - destruct Hd as (? & ? & Hd). congruence. }
        destruct (cache0_ok (s_log s) (s_env s) fr deps r
          (Run (fr_req fr) (fr_digest fr) r (fr_begin fr) (s_env s) (fr_xsrcs fr) (fr_xdsts fr) true) _ _ Hv
          (sub_idw _ _ Hsub Hw) (sub_justified _ _ _ Hsub Hj)
          (fok_grow _ _ _ (sub_grow _ _ Hsub) (Hfr t fr ltac:(rewrite Et; by left))) eq_refl eq_refl eq_refl eq_refl Hc) as (A & B & C & D).
        by apply D.
      + by rewrite Hc.
    - simpl. unfold raise_call. by destruct (thread s t).
    - by destruct (Hr funs).
    - assert (gn <> f) as Hn.
      { destruct Hs as [Hs|[(? & ? & ?)|[(? & ? & ? & ? & ?)|[[? ?]|(? & ? & ? & ? & _)]]]]; try done. simpl in Hs. congruence. }
      simpl. apply delete_function_stored; [|done]. by eapply sub_idw.
    - apply stored_tables. simpl. unfold s_delete_file. simpl. by destruct (q_files (cur s) !! f) as [[[? ?] ?]|].
  Qed.

  Lemma agree_runs (s0 : sys) os gn : equivalence_test veq -> fresh conn_empty s0 -> settled s0 gn os ->
    stored (base (runs s0 os)) gn = stored (cur (runs s0 os)) gn.
  Proof.
    intros Hv Hf. pose proof (rinv_fresh s0 Hf) as H0.
    induction os as [|o os IH] using rev_ind; intros Hset.
    { destruct Hf as (Hdb & _). simpl. by rewrite Hdb. }
    set (s := runs s0 os) in *. assert (rinv s) as Hinv by (by apply rinv_runs).
    assert (runs s0 (os ++ [o]) = fst (step s o)) as ->.
    { unfold s. clear. revert s0. induction os as [|o' os IH]; intros s0; [done|]. apply IH. }
    assert (base (fst (step s o)) = cur (fst (step s o)) \/
      (~ (o = OSave \/ (exists funs, o = ORestart funs) \/
       exists t r srcs dsts, o = OEnd t r /\ snd (step s o) = RDone r srcs dsts))) as [-> |Hno]; [|done|].
    { destruct o as [t rq|t xs xd g|t r|t|f ct m|f|dt| |funs|f|f];
        try (right; intros [?|[[? ?]|(? & ? & ? & ? & ? & ?)]]; discriminate).
      - destruct (end_tables veq md5 s t r) as [(_ & _ & Hd)|(fr & frs & deps & ok & Et & Hl & [(-> & Hb & Hd & Hc)|(-> & Hb & Hc & x & Hx)])].
        + right. intros [?|[[? ?]|(t' & r' & srcs & dsts & [= <- <-] & H)]]; try discriminate. by apply Hd in H.
        + by left.
        + left. congruence.
      - by left.
      - left. simpl. by destruct (k_version (s_db s)). }
    assert (settled s0 gn os) as Hset'.
    { intros a b ->. destruct (Hset a (b ++ [o])) as (b1 & o' & b2 & Hb & Ho'); [by rewrite <- app_assoc|].
      destruct (decide (b2 = [])) as [-> |Hb2].
      - apply app_inj_tail in Hb as [-> ->]. by destruct Hno.
      - destruct (exists_last Hb2) as (b3 & z & ->). exists b1, o', b3. split; [|done].
        rewrite app_comm_cons, app_assoc in Hb. by apply app_inj_tail in Hb as [-> _]. }
    specialize (IH Hset').
    assert (o <> ODelFun gn) as Hnd.
    { intros ->. destruct (Hset os [] eq_refl) as (b1 & o' & b2 & Hb & _). by destruct b1. }
    destruct o as [t rq|t xs xd g|t r|t|f ct m|f|dt| |funs|f|f]; try done.
    - destruct (begin_same_threads s t rq) as (_ & -> & Hc & _). by rewrite (stored_tables _ _ gn Hc).
    - destruct (end_tables veq md5 s t r) as [(-> & _)|(fr & frs & deps & ok & Et & Hl & [(-> & -> & _)|(-> & Hb & Hc & _)])]; try done.
      by rewrite Hb, Hc.
    - simpl. unfold raise_call. by destruct (thread s t).
    - destruct Hno. right. left. eauto.
    - rewrite (step_stored s (ODelFun f) gn); try done. left. simpl. congruence.
    - rewrite (step_stored s (ODelFile f) gn); try done. by left.
  Qed.

  Lemma untouched (s0 : sys) os o gn : equivalence_test veq -> fresh conn_empty s0 -> settled s0 gn os ->
    (forall funs, o <> ORestart funs) -> let s := runs s0 os in
    deals_with s o <> Some gn \/ (exists t rq, o = OBegin t rq) \/ (exists t xs xd g, o = OAddExt t xs xd g) \/ (exists t, o = ORaise t) \/
      (exists t r x, o = OEnd t r /\ snd (step s o) = RErr x) ->
    stored (cur (fst (step s o))) gn = stored (cur s) gn.
  Proof.
    intros Hv Hf Hset Hr s Hs. apply step_stored; try done.
    - by apply rinv_runs, rinv_fresh.
    - by apply agree_runs.
  Qed.

  Lemma recorded (s0 : sys) os t rq r srcs dsts : equivalence_test veq -> fresh conn_empty s0 ->
    let s := runs s0 os in snd (step s (OBegin t rq)) = RHit r srcs dsts ->
    exists ru, ran md5 BK s0 os ru /\ ru_recorded ru = true /\ rq_fun (ru_req ru) = rq_fun rq /\
      veq (rq_bound rq) (rq_bound (ru_req ru)) = true /\ ru_result ru = r /\
      e_fun (s_env s) !! rq_fun rq = Some (ru_digest ru).
  Proof.
    intros Hv Hf s H. destruct (hit_recorded s t rq r srcs dsts Hv) as (ru & Hru & ?); [by apply rinv_runs, rinv_fresh|done|].
    exists ru. split; [|done]. destruct Hf as (_ & _ & ? & ?). by apply log_ran.
  Qed.

  Lemma deleted (s0 : sys) os fn : equivalence_test veq -> fresh conn_empty s0 ->
    let s := runs s0 os in let s' := fst (step s (ODelFun fn)) in
    stored (cur s') fn = None /\ forall gn, gn <> fn -> stored (cur s') gn = stored (cur s) gn.
  Proof.
    intros Hv Hf s s'. assert (rinv s) as [Hw Hsub _ _] by (by apply rinv_runs, rinv_fresh). split.
    - change (cur s') with (snd (s_delete_function fn (cur s))). unfold stored. by rewrite delete_function_gone.
    - intros gn Hn. change (cur s') with (snd (s_delete_function fn (cur s))). apply delete_function_stored; [|done]. by eapply sub_idw.
  Qed.

  (** A declared source without row makes the call run. *)
  Lemma check_call_files_new e cid fs f q ds q' : f ∈ fs -> q_files q !! f = None ->
    check_call_files md5 core0 e cid fs q = (inr ds, q') -> ds <> [].
  Proof.
    revert q ds q'. induction fs as [|g fs IH]; intros q ds q' Hin Hn H; [by apply elem_of_nil in Hin|].
    simpl in H. unfold bind in H. destruct (check_call_file md5 core0 e cid g q) as [[x|[[b i] d]] q1] eqn:E1; [done|].
    destruct (check_call_files md5 core0 e cid fs q1) as [[x|rest] q2] eqn:E2; [done|]. injection H as <- <-.
    destruct (decide (g = f)) as [-> |Hgf].
    - destruct b; [done|]. exfalso. unfold check_call_file, bind in E1.
      destruct (add_file md5 core0 e f q) as [[x|[[b i'] d']] q1'] eqn:Ea; [done|].
      assert (b = true) as ->.
      { unfold add_file, bind in Ea. cbn in Ea. rewrite Hn in Ea. destruct (e_fs e !! f) as [[mt ct]|]; [|done].
        cbn in Ea. rewrite Hn in Ea. by injection Ea as <- <- <- <-. }
      destruct cid as [c|]; [|by injection E1]. cbn in E1.
      destruct (q_cf q1' !! (c, i')) as [o|]; [destruct (String.eqb d' o)|]; by injection E1.
    - destruct b; [done|]. apply elem_of_cons in Hin as [->|Hin]; [done|]. eapply IH; [done| |exact E2].
      clear -E1 Hn Hgf. revert E1. unfold check_call_file, bind.
      destruct (add_file md5 core0 e g q) as [[x|[[b i'] d']] q1'] eqn:Ea; [done|].
      assert (q_files q1' !! f = None) as Hf1.
      { revert Ea. unfold add_file, bind. cbn. intros Ea.
        destruct (e_fs e !! g) as [[mt ct]|]; [|by destruct (q_files q !! g) as [[[? ?] ?]|]].
        destruct (q_files q !! g) as [[[j m] d0]|] eqn:Eg; cbn in Ea.
        - destruct (_ && _)%bool; [by injection Ea as _ _ _ <-|].
          destruct (String.eqb (md5 ct) d0); cbn in Ea.
          + rewrite Eg, Nat.eqb_refl in Ea. injection Ea as _ _ _ <-. simpl. by rewrite lookup_insert_ne.
          + rewrite Eg in Ea. cbn in Ea. rewrite lookup_delete in Ea. cbn in Ea. injection Ea as _ _ _ <-. simpl.
            by rewrite lookup_insert_ne, lookup_delete_ne.
        - rewrite Eg in Ea. cbn in Ea. injection Ea as _ _ _ <-. simpl. by rewrite lookup_insert_ne. }
      destruct cid as [c|]; cbn; [|by intros [= _ _ _ <-]].
      destruct (q_cf q1' !! (c, i')) as [o|]; [destruct (String.eqb d' o)|]; by intros [= _ _ _ <-].
  Qed.
  Lemma deleted_file (s : sys) f : let s' := fst (step s (ODelFile f)) in
    (forall gn, stored (cur s') gn = stored (cur s) gn) /\
    forall t rq r srcs dsts, f ∈ rq_srcs rq -> snd (step s' (OBegin t rq)) <> RHit r srcs dsts.
  Proof.
    split.
    - intros gn. apply stored_tables. simpl. unfold s_delete_file. simpl. by destruct (q_files (cur s) !! f) as [[[? ?] ?]|].
    - intros t rq r srcs dsts Hin. set (s' := fst (step s (ODelFile f))).
      assert (q_files (cur s') !! f = None) as Hn.
      { unfold s'. simpl. unfold s_delete_file. simpl. destruct (q_files (cur s) !! f) as [[[? ?] ?]|] eqn:E; [|done]. simpl. by rewrite lookup_delete. }
      clearbody s'. simpl. unfold begin_call. destruct (e_fun (s_env s') !! rq_fun rq) as [d|] eqn:Ed; [|done].
      destruct (prepare md5 (b_core BK) _ _ _ _ _) as [res db] eqn:Ep. simpl in Ep.
      rewrite (lifts_prepare veq md5 _ _ _ _ (s_db s')) in Ep. unfold on_cur in Ep.
      destruct (prepare _ core0 _ _ _ _ _) as [x q] eqn:E. injection Ep as <- <-.
      destruct x as [x|p]; [done|]. assert (pr_files p <> []) as Hp.
      { unfold prepare, bind in E. destruct (check_function core0 (e_limit (s_env s')) (s_env s') (rq_fun rq) (cur s')) as [[x|[fd fid]] q1] eqn:E1; [done|].
        pose proof (check_function_pure veq _ _ _ _ _ _ E1) as ->.
        match type of E with match ?m (cur s') with _ => _ end = _ => destruct (m (cur s')) as [[x|[[cd cid] old]] q2] eqn:Ec end; [done|].
        assert (q2 = cur s') as ->.
        { destruct fd; [by injection Ec as <- <- <- <-|]. destruct fid as [fid|]; [|by injection Ec as <- <- <- <-].
          simpl in Ec. unfold s_find_call in Ec. by injection Ec as ? ->. }
        destruct (check_call_files md5 core0 (s_env s') cid (rq_srcs rq) (cur s')) as [[x|files] q3] eqn:E3; [done|].
        match type of E with match ?m q3 with _ => _ end = _ => destruct (m q3) as [[x|[[xs xd] xf]] q4] end; [done|].
        injection E as <- <-. simpl. by eapply check_call_files_new. }
      destruct (pr_fun_dirty p), (pr_call_dirty p), (pr_files p); try done.
  Qed.

  Lemma outputs (s : sys) t (rq : request V R) r srcs dsts :
    snd (step s (OBegin t rq)) = RHit r srcs dsts ->
    (forall f, f ∈ rq_dsts rq -> f ∈ dsts) /\ (forall f, f ∈ rq_ret rq r -> f ∈ dsts) /\
    forall f, f ∈ dsts -> is_Some (e_fs (s_env s) !! f).
  Proof.
    simpl. unfold begin_call.
    destruct (e_fun (s_env s) !! rq_fun rq) as [d|] eqn:Ed; [|done].
    destruct (prepare md5 _ _ _ _ _ _) as [[x|p] db] eqn:Ep; [done|].
    destruct (pr_fun_dirty p) eqn:E1; [done|].
    destruct (pr_call_dirty p) eqn:E2; [done|].
    destruct (pr_files p) as [|] eqn:E3; [|done].
    destruct (pr_xfiles p) as [|] eqn:E4; [|done].
    destruct (pr_old_result p) as [r0|] eqn:E5; [|done].
    destruct (forallb _ _) eqn:E6; [|done]. simpl. intros [= <- <- <-].
    split_and!; intros f; rewrite !elem_of_app; try tauto. intros Hf.
    rewrite forallb_forall in E6. specialize (E6 f).
    unfold exists_file in E6. destruct (e_fs (s_env s) !! f); [done|].
    discriminate E6. rewrite <- elem_of_list_In, !elem_of_app. tauto.
  Qed.
End Records.
