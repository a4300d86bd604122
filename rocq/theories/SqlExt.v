(** External sources in the tables of the SQLite backend: where rows of ExternalSrc come from,
    and what keeps the dependency of one call on one file in place. *)
From stdpp Require Import base list strings gmap.
From Coq Require Import ZArith Lia.
From Verif Require Import PyMonad DbModel DbSpec SqlBackend SqlSpec SqlLift SqlFacts SqlInv.

Definition keeps {S A} (Q : S -> Prop) (m : M S A) : Prop := forall q r q', Q q -> m q = (r, q') -> Q q'.
Lemma keeps_ret {S A} (Q : S -> Prop) (x : A) : keeps Q (ret x).
Proof. intros q r q' H [= <- <-]. done. Qed.
Lemma keeps_bind {S A B} (Q : S -> Prop) (m : M S A) (k : A -> M S B) :
  keeps Q m -> (forall x, keeps Q (k x)) -> keeps Q (bind m k).
Proof.
  intros Hm Hk q r q' H. unfold bind. destruct (m q) as [[x|x] q1] eqn:E.
  - intros [= <- <-]. by eapply Hm.
  - intros E'. eapply Hk; [|exact E']. by eapply Hm.
Qed.
Lemma keeps_try {S A} (Q : S -> Prop) (m : M S A) : keeps Q m -> keeps Q (try_os m).
Proof.
  intros Hm q r q' H. unfold try_os. destruct (m q) as [[[]|x] q1] eqn:E; intros [= <- <-]; by eapply Hm.
Qed.

Section Ext.
  Context {V R : Type} (veq : V -> V -> bool) (md5 : content -> digest).
  Context (F : name -> Z -> content).
  Notation core0 := (sql_core0 (R := R) veq).
  Notation sq := (sq V R).
  Notation run := (run V R).
  Notation digest_at := (digest_at md5).
  Notation wf := (wf (V := V) (R := R) md5 F).
  Implicit Types q : sq.

  (** A file gets a row with a new id, instead of the one it had. *)
  Definition renewed (g : name) (m : Z) (d : digest) (q : sq) : sq :=
    let q1 := snd (s_delete_file g q) in
    Sq (q_funs q1) (q_calls q1) (<[g := (q_nfile q1, m, d)]> (q_files q1)) (q_cf q1)
       (q_xs q1) (q_xd q1) (q_nfun q1) (q_ncall q1) (S (q_nfile q1)).
  Definition stamped (g : name) (i : nat) (m : Z) (d : digest) (q : sq) : sq :=
    Sq (q_funs q) (q_calls q) (<[g := (i, m, d)]> (q_files q)) (q_cf q)
       (q_xs q) (q_xd q) (q_nfun q) (q_ncall q) (q_nfile q).
  Lemma add_file_cases e g q r q' : fs_faithful F e -> wf q -> add_file md5 core0 e g q = (r, q') ->
    q' = q \/
    (exists i m m' d, q_files q !! g = Some (i, m, d) /\ digest_at e g = Some d /\ q' = stamped g i m' d q) \/
    (exists m d, digest_at e g = Some d /\ (forall i m' d', q_files q !! g = Some (i, m', d') -> d' <> d) /\
       q' = renewed g m d q).
  Proof.
    intros Hfs Hwf. unfold add_file, bind, ret, raise, DbSpec.digest_at. cbn [find_file sql_core0 s_find_file].
    unfold s_find_file.
    destruct (e_fs e !! g) as [[m ct]|] eqn:Ef.
    2:{ destruct (q_files q !! g) as [[[??]?]|]; intros [= <- <-]; by left. }
    cbn [fmap option_fmap option_map snd].
    destruct (q_files q !! g) as [[[i om] od]|] eqn:Eq; cbn.
    - destruct (Z.eqb m om && Z.ltb one_second (e_now e - m))%bool eqn:Esh; cbn.
      + intros [= <- <-]. by left.
      + destruct (String.eqb _ _) eqn:Ed; cbn.
        * apply String.eqb_eq in Ed. rewrite Eq, Nat.eqb_refl. intros [= <- <-]. right. left.
          exists i, om, m, od. split; [done|]. split; [by rewrite Ed|]. by rewrite Ed.
        * apply String.eqb_neq in Ed. rewrite Eq. unfold s_save_file. simpl. rewrite lookup_delete.
          intros [= <- <-]. right. right. exists m, (md5 ct). split; [done|]. split.
          -- intros i' m' d' [= <- <- <-]. congruence.
          -- unfold renewed, s_delete_file. rewrite Eq. done.
    - unfold s_save_file. rewrite Eq. intros [= <- <-]. right. right. exists m, (md5 ct). split; [done|]. split; [done|].
      unfold renewed, s_delete_file. rewrite Eq. done.
  Qed.

  Definition xlt q : Prop := forall c j, (c, j) ∈ q_xs q -> c < q_ncall q /\ j < q_nfile q.
  Definition calls_fun q : Prop :=
    forall c i b r, (c, i, b, r) ∈ q_calls q -> exists g d s, q_funs q !! g = Some (i, d, s).
  (** Call [c] of function [i] has [g] among its external sources. *)
  Definition known (lg : list run) q : Prop :=
    forall c i b r g j m d, (c, i, b, r) ∈ q_calls q -> q_files q !! g = Some (j, m, d) -> (c, j) ∈ q_xs q ->
    exists ru, ru ∈ lg /\ g ∈ ru_xsrcs ru /\ exists dg s, q_funs q !! rq_fun (ru_req ru) = Some (i, dg, s).
  Record pinv (lg : list run) q : Prop := Pinv {
    p_wf : wf q; p_xlt : xlt q; p_fun : calls_fun q; p_known : known lg q
  }.

  (** The call of [fn] with arguments [bd] depends on [f] having digest [d0]. *)
  Context (fn : name) (bd : V) (f : name) (d0 : digest).
  Definition tied (c : nat) q : Prop :=
    exists j m, q_files q !! f = Some (j, m, d0) /\ (c, j) ∈ q_xs q /\ q_cf q !! (c, j) = Some d0.
  Definition dep q : Prop :=
    forall i d s c r, q_funs q !! fn = Some (i, d, s) -> search_row veq i bd (q_calls q) = Some (c, r) -> tied c q.

  Lemma elem_filter_xs (P : nat * nat -> Prop) `{forall x, Decision (P x)} (x : gset (nat * nat)) k :
    k ∈ filter P x <-> P k /\ k ∈ x.
  Proof. by rewrite elem_of_filter. Qed.

  Lemma stamped_keeps lg g i m m' d q : q_files q !! g = Some (i, m, d) -> (d = md5 (F g m')) ->
    pinv lg q -> pinv lg (stamped g i m' d q).
  Proof.
    intros Hg Hd [[] Hx Hf Hk].
    assert (forall h j m2 d2, <[g := (i, m', d)]> (q_files q) !! h = Some (j, m2, d2) ->
              exists m3, q_files q !! h = Some (j, m3, d2) /\ d2 = md5 (F h m2)) as Hrow.
    { intros h j m2 d2. destruct (decide (g = h)) as [<-|Hn].
      - rewrite lookup_insert. intros [= <- <- <-]. eauto.
      - rewrite lookup_insert_ne by done. eauto. }
    split; [split|..]; simpl; auto.
    - intros h j m2 d2 (m3 & ? & ?)%Hrow. done.
    - intros h j m2 d2 (m3 & ? & _)%Hrow. eauto.
    - intros h h' j m2 d2 m4 d4 (m3 & ? & _)%Hrow (m5 & ? & _)%Hrow. eauto.
    - intros c j b r h k m2 d2 H1 (m3 & H2 & _)%Hrow H3. eauto.
  Qed.
  Lemma renewed_lookup g m d q h :
    q_files (renewed g m d q) !! h = if decide (g = h) then Some (q_nfile q, m, d) else q_files q !! h.
  Proof.
    unfold renewed, s_delete_file. simpl. destruct (q_files q !! g) as [[[i m0] dg]|] eqn:E; simpl.
    - destruct (decide (g = h)) as [<-|Hn]; [by rewrite lookup_insert|]. by rewrite lookup_insert_ne, lookup_delete_ne by done.
    - destruct (decide (g = h)) as [<-|Hn]; [by rewrite lookup_insert|]. by rewrite lookup_insert_ne by done.
  Qed.
  Lemma renewed_parts g m d q : let q' := renewed g m d q in
    q_funs q' = q_funs q /\ q_calls q' = q_calls q /\ q_nfun q' = q_nfun q /\ q_ncall q' = q_ncall q /\
    q_nfile q' = S (q_nfile q) /\ (forall k, k ∈ q_xs q' -> k ∈ q_xs q) /\
    (forall k d', q_cf q' !! k = Some d' -> q_cf q !! k = Some d') /\
    (forall i m' d', q_files q !! g = Some (i, m', d') -> forall k, k.2 <> i ->
       (k ∈ q_xs q -> k ∈ q_xs q') /\ (q_cf q' !! k = q_cf q !! k)) /\
    (q_files q !! g = None -> q_xs q' = q_xs q /\ q_cf q' = q_cf q).
  Proof.
    unfold renewed, s_delete_file. simpl. destruct (q_files q !! g) as [[[i m0] dg]|] eqn:E; simpl; split_and!; try done.
    - intros k Hk. by apply elem_filter_xs in Hk as [_ ?].
    - intros k d' H. by apply filter_cf in H.
    - intros i' m' d' [= <- <- <-] k Hk. split; [intros; by apply elem_filter_xs|].
      destruct (q_cf q !! k) as [dk|] eqn:Ek.
      + apply map_filter_lookup_Some. by split.
      + apply map_filter_lookup_None. by left.
  Qed.
  Lemma renewed_keeps lg g m d q : d = md5 (F g m) -> pinv lg q -> pinv lg (renewed g m d q).
  Proof.
    intros Hd [Hwf Hx Hf Hk]. pose proof Hwf as [].
    destruct (renewed_parts g m d q) as (E1 & E2 & E3 & E4 & E5 & E6 & E7 & _). cbv zeta in *.
    assert (forall h j m2 d2, q_files (renewed g m d q) !! h = Some (j, m2, d2) ->
              (h = g /\ j = q_nfile q /\ m2 = m /\ d2 = d) \/ q_files q !! h = Some (j, m2, d2)) as Hrow.
    { intros h j m2 d2. rewrite renewed_lookup. destruct (decide (g = h)) as [<-|]; [|by right]. intros [= <- <- <-]. by left. }
    split; [split|..]; unfold xlt, calls_fun, known; rewrite ?E1, ?E2, ?E3, ?E4, ?E5; auto.
    - intros h j m2 d2 [(-> & -> & -> & ->)|H]%Hrow; eauto.
    - intros h j m2 d2 [(-> & -> & -> & ->)|H]%Hrow; [lia|]. apply wf_flt in H. lia.
    - intros h h' j m2 d2 m3 d3 [(-> & -> & -> & ->)|H]%Hrow [(-> & Hj & -> & ->)|H']%Hrow; auto.
      + apply wf_flt in H'. lia.
      + apply wf_flt in H. lia.
      + eauto.
    - intros c j d' H%E7. apply wf_cf in H. lia.
    - intros c j H%E6. apply Hx in H. lia.
    - intros c i b r h j m2 d2 H1 [(-> & -> & -> & ->)|H2]%Hrow H3%E6; [|eauto]. apply Hx in H3. lia.
  Qed.
  (** Looking at [g] keeps the dependency, unless [g] is [f] and has changed. *)
  Definition unchanged (e : env) : Prop := forall d, digest_at e f = Some d -> d = d0.
  Definition calm (lg : list run) q : Prop := pinv lg q /\ dep q.
  Lemma tied_stamped c g i m m' d q : q_files q !! g = Some (i, m, d) -> tied c q -> tied c (stamped g i m' d q).
  Proof.
    intros Hg (j & m0 & H1 & H2 & H3). destruct (decide (g = f)) as [->|Hn].
    - rewrite Hg in H1. injection H1 as -> -> ->. exists j, m'. simpl. by rewrite lookup_insert.
    - exists j, m0. simpl. by rewrite lookup_insert_ne.
  Qed.
  Lemma tied_renewed c g m d q : wf q -> (g = f -> exists d', d = d' /\ d' = d0) ->
    (forall i m' d', q_files q !! g = Some (i, m', d') -> d' <> d) -> tied c q -> tied c (renewed g m d q).
  Proof.
    intros Hwf Hg Hne (j & m0 & H1 & H2 & H3). destruct (decide (g = f)) as [->|Hn].
    - exfalso. destruct (Hg eq_refl) as (d' & -> & ->). by apply (Hne _ _ _ H1).
    - exists j, m0. rewrite renewed_lookup, decide_False by done.
      destruct (renewed_parts g m d q) as (_ & _ & _ & _ & _ & _ & _ & E8 & E9). cbv zeta in *.
      destruct (q_files q !! g) as [[[i m'] d']|] eqn:Eg.
      + destruct (E8 _ _ _ eq_refl (c, j)) as [A1 A2].
        { simpl. intros ->. apply Hn. by eapply (wf_finj _ _ _ Hwf). }
        split; [done|]. split; [by apply A1|]. by rewrite A2.
      + destruct (E9 eq_refl) as [-> ->]. done.
  Qed.
  Lemma add_file_pinv lg e g : fs_faithful F e -> keeps (pinv lg) (add_file md5 core0 e g).
  Proof.
    intros Hfs q r q' Hp Ha.
    assert (add_file md5 core0 e g q = (r, q')) as Ha' by done.
    apply (add_file_spec veq md5 F) in Ha' as [Hsh _]; [|done|apply Hp].
    apply add_file_cases in Ha as [->|[(i & m & m' & d & H1 & H2 & ->)|(m & d & H1 & H2 & ->)]]; [done| | |done|apply Hp].
    - apply (stamped_keeps lg g i m m' d); [done| |done].
      apply (wf_files _ _ _ (sh_wf _ _ _ _ Hsh (p_wf _ _ Hp)) g i). simpl. by rewrite lookup_insert.
    - apply renewed_keeps; [|done].
      apply (wf_files _ _ _ (sh_wf _ _ _ _ Hsh (p_wf _ _ Hp)) g (q_nfile q)). rewrite renewed_lookup. by rewrite decide_True.
  Qed.
  Lemma add_file_tied e g c q r q' : fs_faithful F e -> wf q -> (g = f -> unchanged e) -> tied c q ->
    add_file md5 core0 e g q = (r, q') -> tied c q'.
  Proof.
    intros Hfs Hw Hg Ht Ha.
    apply add_file_cases in Ha as [->|[(i & m & m' & d & H1 & H2 & ->)|(m & d & H1 & H2 & ->)]]; [done| | |done|done].
    - by apply (tied_stamped c g i m).
    - apply tied_renewed; [done| |done|done]. intros ->. exists d. split; [done|]. by apply (Hg eq_refl).
  Qed.
  Lemma add_file_calm lg e g : fs_faithful F e -> (g = f -> unchanged e) -> keeps (calm lg) (add_file md5 core0 e g).
  Proof.
    intros Hfs Hg q r q' [Hp Hd] Ha. split; [by eapply add_file_pinv|].
    pose proof Ha as Ha'. apply (add_file_spec veq md5 F) in Ha' as [Hsh _]; [|done|apply Hp].
    intros i d s c r0. rewrite (sh_funs _ _ _ _ Hsh), (sh_calls _ _ _ _ Hsh). intros H1 H2.
    eapply add_file_tied; [done|apply Hp|done|by eapply Hd|done].
  Qed.

  (** The loops over files. *)
  Lemma check_call_file_keeps (Q : sq -> Prop) e cid g : keeps Q (add_file md5 core0 e g) ->
    keeps Q (check_call_file md5 core0 e cid g).
  Proof.
    intros H. apply keeps_bind; [done|]. intros [[b i] d]. destruct cid as [c|]; [|apply keeps_ret].
    apply keeps_bind; [by intros q r q' Hq [= <- <-]|]. intros [o|]; [destruct (String.eqb d o)|]; apply keeps_ret.
  Qed.
  Lemma check_call_files_keeps (Q : sq -> Prop) e cid fs : (forall g, g ∈ fs -> keeps Q (add_file md5 core0 e g)) ->
    keeps Q (check_call_files md5 core0 e cid fs).
  Proof.
    induction fs as [|g fs IH]; intros H; [apply keeps_ret|].
    apply keeps_bind; [apply check_call_file_keeps, H; by left|]. intros [[b i] d].
    apply keeps_bind; [apply IH; intros; apply H; by right|]. intros. apply keeps_ret.
  Qed.
  Lemma check_external_loop_keeps (Q : sq -> Prop) e c fs : (forall g, g ∈ fs -> keeps Q (add_file md5 core0 e g)) ->
    keeps Q (check_external_loop md5 core0 e c fs).
  Proof.
    induction fs as [|g fs IH]; intros H; [apply keeps_ret|].
    apply keeps_bind; [apply keeps_try, check_call_file_keeps, H; by left|]. intros x.
    apply keeps_bind; [apply IH; intros; apply H; by right|]. intros. apply keeps_ret.
  Qed.
  Lemma check_all_keeps (Q : sq -> Prop) e c fs : (forall g, g ∈ fs -> keeps Q (add_file md5 core0 e g)) ->
    keeps Q (check_all veq md5 e c fs).
  Proof.
    induction fs as [|g fs IH]; intros H; [apply keeps_ret|].
    apply keeps_bind; [apply check_call_file_keeps, H; by left|]. intros x.
    apply keeps_bind; [apply IH; intros; apply H; by right|]. intros. apply keeps_ret.
  Qed.

  (** Preparing a call. *)
  Lemma names_of_spec q c g : g ∈ names_of q (q_xs q) c <-> exists j m d, q_files q !! g = Some (j, m, d) /\ (c, j) ∈ q_xs q.
  Proof.
    unfold names_of. rewrite elem_of_list_fmap. split.
    - intros ([g' [[j m] d]] & -> & [H1 H2]%elem_of_list_filter). apply elem_of_map_to_list in H2. eauto.
    - intros (j & m & d & H1 & H2). exists (g, (j, m, d)). split; [done|]. apply elem_of_list_filter. split; [done|]. by apply elem_of_map_to_list.
  Qed.
  (** [rq] looks only at files other than [f], as far as the runs in [lg] tell. *)
  Definition avoids (lg : list run) (g : name) (srcs : list name) : Prop :=
    f ∉ srcs /\ forall ru, ru ∈ lg -> rq_fun (ru_req ru) = g -> f ∉ ru_xsrcs ru.
  Lemma prepare_keeps (Q : sq -> Prop) lg e g b srcs q r q' : (forall q, Q q -> pinv lg q) ->
    fs_faithful F e -> (forall h, h ∈ srcs -> keeps Q (add_file md5 core0 e h)) ->
    (forall h ru, ru ∈ lg -> rq_fun (ru_req ru) = g -> h ∈ ru_xsrcs ru -> keeps Q (add_file md5 core0 e h)) ->
    Q q -> prepare md5 core0 e g b srcs q = (r, q') -> Q q'.
  Proof.
    intros HQ Hfs Hs Hx Hq H. unfold prepare, bind in H.
    destruct (check_function core0 (e_limit e) e g q) as [r1 q1] eqn:E1.
    pose proof (check_function_pure veq _ _ _ _ _ _ E1) as ->.
    destruct r1 as [x|[fd fid]]; [by injection H as <- <-|].
    pose proof (check_function_spec veq _ _ _ _ _ _ _ E1) as (d & Hd & Hclean).
    set (fc := match fd, fid with
               | false, Some fid0 => find_call core0 fid0 b
               | _, _ => ret (true, None, None)
               end) in H.
    assert (exists cd cid old, fc q = (inr (cd, cid, old), q) /\
      (forall c, cid = Some c -> exists i b' r d s, q_funs q !! g = Some (i, d, s) /\ (c, i, b', r) ∈ q_calls q)) as (cd & cid & old & Hfc & Hcid).
    { unfold fc. destruct fd; [by exists true, None, None|]. destruct fid as [fid|]; [|by exists true, None, None].
      destruct (Hclean eq_refl) as (i & deps & [= ->] & Hrow).
      cbn. unfold s_find_call. destruct (search_row veq i b (q_calls q)) as [[c r0]|] eqn:Es; [|by exists true, None, None].
      apply search_row_spec in Es as (b' & Hin & _). exists false, (Some c), (Some r0). split; [done|].
      intros ? [= <-]. eauto 10. }
    rewrite Hfc in H.
    destruct (check_call_files md5 core0 e cid srcs q) as [r2 q2] eqn:E2.
    pose proof (check_call_files_spec veq md5 F _ _ _ _ _ _ Hfs (p_wf _ _ (HQ _ Hq)) E2) as [Hsh2 _].
    apply (check_call_files_keeps Q) in E2; [|done|done].
    destruct r2 as [x|files]; [by injection H as <- <-|].
    destruct cid as [c|]; [|cbn in H; by injection H as <- <-].
    unfold check_external_files, bind in H. cbn in H.
    destruct (check_external_loop md5 core0 e c _ q2) as [r3 q3] eqn:E3.
    apply (check_external_loop_keeps Q) in E3; [|intros h Hh|done].
    { destruct r3 as [?|xf]; cbn in H; by injection H as <- <-. }
    apply names_of_spec in Hh as (j & m & d' & Hrow & Hin).
    destruct (Hcid _ eq_refl) as (i & b' & r' & dg & s & Hfun & Hcall).
    destruct (p_known _ _ (HQ _ E2) c i b' r' h j m d') as (ru & Hru & Hhx & dg' & s' & Hfun'); [|done|done|].
    { by rewrite (sh_calls _ _ _ _ Hsh2). }
    eapply Hx; [done| |done]. rewrite (sh_funs _ _ _ _ Hsh2) in Hfun'.
    by eapply (wf_ginj _ _ _ (p_wf _ _ (HQ _ Hq))).
  Qed.
  Lemma prepare_pinv lg e g b srcs : fs_faithful F e -> keeps (pinv lg) (prepare md5 core0 e g b srcs).
  Proof. intros Hfs q r q' Hp. apply (prepare_keeps (pinv lg) lg); auto; intros; by apply add_file_pinv. Qed.
  Lemma prepare_calm lg e g b srcs : fs_faithful F e -> unchanged e \/ avoids lg g srcs ->
    keeps (calm lg) (prepare md5 core0 e g b srcs).
  Proof.
    intros Hfs Hu q r q' Hp. apply (prepare_keeps (calm lg) lg); auto; [by intros ? []| |].
    - intros h Hh. apply add_file_calm; [done|]. intros ->. destruct Hu as [?|[Hu _]]; [done|]. by destruct Hu.
    - intros h ru Hru Hg Hh. apply add_file_calm; [done|]. intros ->. destruct Hu as [?|[_ Hu]]; [done|]. by edestruct Hu.
  Qed.
End Ext.
