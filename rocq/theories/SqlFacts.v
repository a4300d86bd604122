(** What the generic functions do to the tables of the SQLite backend. *)
From stdpp Require Import base list strings gmap.
From Coq Require Import ZArith Lia.
From Verif Require Import PyMonad DbModel DbSpec SqlBackend.

Section Facts.
  Context {V R : Type} (veq : V -> V -> bool) (md5 : content -> digest).
  Notation core0 := (sql_core0 (R := R) veq).
  Notation sq := (sq V R).
  Context (F : name -> Z -> content).
  Implicit Types q : sq.

  (** Ids are unique, smaller than the counters, and file digests belong to the modification times. *)
  Record wf (q : sq) : Prop := Wf {
    wf_files : forall f i m d, q_files q !! f = Some (i, m, d) -> d = md5 (F f m);
    wf_flt : forall f i m d, q_files q !! f = Some (i, m, d) -> i < q_nfile q;
    wf_finj : forall f g i m d m' d', q_files q !! f = Some (i, m, d) -> q_files q !! g = Some (i, m', d') -> f = g;
    wf_cf : forall c j d, q_cf q !! (c, j) = Some d -> c < q_ncall q /\ j < q_nfile q;
    wf_glt : forall g i d s, q_funs q !! g = Some (i, d, s) -> i < q_nfun q;
    wf_ginj : forall f g i d s d' s', q_funs q !! f = Some (i, d, s) -> q_funs q !! g = Some (i, d', s') -> f = g;
    wf_clt : forall x, x ∈ q_calls q -> call_id x < q_ncall q;
    wf_cuniq : forall x y, x ∈ q_calls q -> y ∈ q_calls q -> call_id x = call_id y -> x = y
  }.

  (** The digest recorded for call [c] and the file now named [f]. *)
  Definition cfn (q : sq) (c : nat) (f : name) : option digest :=
    match q_files q !! f with Some (j, _, _) => q_cf q !! (c, j) | None => None end.
  (** [j] is, or was, the id of file [f]. *)
  Definition owns (q : sq) (j : nat) (f : name) : Prop :=
    j < q_nfile q /\ forall g m d, q_files q !! g = Some (j, m, d) -> g = f.

  Record shrink (q q' : sq) : Prop := Shrink {
    sh_funs : q_funs q' = q_funs q;
    sh_calls : q_calls q' = q_calls q;
    sh_nfun : q_nfun q' = q_nfun q;
    sh_ncall : q_ncall q' = q_ncall q;
    sh_nfile : q_nfile q <= q_nfile q';
    sh_ids : forall f j m d, q_files q' !! f = Some (j, m, d) ->
      (exists m' d', q_files q !! f = Some (j, m', d')) \/ q_nfile q <= j;
    sh_cf : forall c f d, cfn q' c f = Some d -> cfn q c f = Some d;
    sh_wf : wf q -> wf q'
  }.

  Lemma shrink_refl q : shrink q q.
  Proof. split; auto. intros f j m d H. left. eauto. Qed.
  Lemma shrink_trans a b c : shrink a b -> shrink b c -> shrink a c.
  Proof.
    intros [] []; split; try congruence; auto; [lia|].
    intros f j m d H. destruct (sh_ids1 _ _ _ _ H) as [(m' & d' & H')|?]; [eauto|right; lia].
  Qed.
  Lemma owns_shrink q q' j f : shrink q q' -> owns q j f -> owns q' j f.
  Proof.
    intros [] [H1 H2]. split; [lia|]. intros g m d H.
    destruct (sh_ids0 _ _ _ _ H) as [(m' & d' & H')|?]; [eauto|lia].
  Qed.

  Lemma has_fun_spec q i : has_fun q i = true <-> exists g d s, q_funs q !! g = Some (i, d, s).
  Proof.
    unfold has_fun. rewrite existsb_exists. split.
    - intros ([g [[j d] s]] & Hin & He). simpl in He. apply Nat.eqb_eq in He as ->.
      apply elem_of_list_In, elem_of_map_to_list in Hin. eauto.
    - intros (g & d & s & H). exists (g, (i, d, s)). split; [|by apply Nat.eqb_refl].
      by apply elem_of_list_In, elem_of_map_to_list.
  Qed.
  Lemma has_file_spec q i : has_file q i = true <-> exists g m d, q_files q !! g = Some (i, m, d).
  Proof.
    unfold has_file. rewrite existsb_exists. split.
    - intros ([g [[j d] s]] & Hin & He). simpl in He. apply Nat.eqb_eq in He as ->.
      apply elem_of_list_In, elem_of_map_to_list in Hin. eauto.
    - intros (g & d & s & H). exists (g, (i, d, s)). split; [|by apply Nat.eqb_refl].
      by apply elem_of_list_In, elem_of_map_to_list.
  Qed.
  Lemma has_call_spec q c : has_call q c = true <-> exists x, x ∈ q_calls q /\ call_id x = c.
  Proof.
    unfold has_call. rewrite existsb_exists. split; intros (x & Hin & He).
    - exists x. split; [by apply elem_of_list_In|by apply Nat.eqb_eq].
    - exists x. split; [by apply elem_of_list_In|by apply Nat.eqb_eq].
  Qed.

  Lemma filter_cf (P : nat * nat * digest -> Prop) `{forall x, Decision (P x)} (m : gmap (nat * nat) digest) k d :
    filter P m !! k = Some d -> m !! k = Some d.
  Proof. intros H'. by apply map_filter_lookup_Some in H' as [? _]. Qed.

  (** A file's row is removed. *)
  Lemma delete_file_shrink f q : shrink q (snd (s_delete_file f q)).
  Proof.
    unfold s_delete_file; simpl. destruct (q_files q !! f) as [[[i m] d]|] eqn:Ef; [|apply shrink_refl].
    split; simpl; try done.
    - intros g j m' d' [_ H]%lookup_delete_Some. left. eauto.
    - intros c g d'. unfold cfn; simpl. destruct (decide (f = g)) as [<-|Hn]; [by rewrite lookup_delete|].
      rewrite lookup_delete_ne by done. destruct (q_files q !! g) as [[[j m'] dg]|]; [|done]. apply filter_cf.
    - intros []. split; simpl; auto.
      + intros g j m' d' [_ H]%lookup_delete_Some. eauto.
      + intros g j m' d' [_ H]%lookup_delete_Some. eauto.
      + intros g g' j m' d' m2 d2 [_ H]%lookup_delete_Some [_ H']%lookup_delete_Some. eauto.
      + intros c j d' H. apply filter_cf in H. eauto.
  Qed.

  (** A row for a new file. *)
  Lemma new_file_shrink f m d q q' i :
    s_save_file None f m d q = (inr i, q') -> d = md5 (F f m) -> wf q ->
    shrink q q' /\ q_files q' !! f = Some (i, m, d) /\ i = q_nfile q.
  Proof.
    unfold s_save_file. destruct (q_files q !! f) eqn:Ef; intros [= <- <-] Hd Hwf.
    split; [|simpl; by rewrite lookup_insert]. destruct Hwf. split; simpl; try done.
    - lia.
    - intros g j m' d' H. destruct (decide (f = g)) as [<-|Hn].
      + rewrite lookup_insert in H. injection H as <- <- <-. by right.
      + rewrite lookup_insert_ne in H by done. left. eauto.
    - intros c g d'. unfold cfn; simpl. destruct (decide (f = g)) as [<-|Hn].
      + rewrite lookup_insert. intros H. apply wf_cf0 in H. lia.
      + by rewrite lookup_insert_ne by done.
    - intros _. split; simpl; auto.
      + intros g j m' d' H. destruct (decide (f = g)) as [<-|Hn].
        * rewrite lookup_insert in H. by injection H as <- <- <-.
        * rewrite lookup_insert_ne in H by done. eauto.
      + intros g j m' d' H. destruct (decide (f = g)) as [<-|Hn].
        * rewrite lookup_insert in H. injection H as <- <- <-. lia.
        * rewrite lookup_insert_ne in H by done. apply wf_flt0 in H. lia.
      + intros g g' j m' d' m2 d2 H H'. destruct (decide (f = g)) as [<-|Hn], (decide (f = g')) as [<-|Hn']; try done.
        * rewrite lookup_insert in H. rewrite lookup_insert_ne in H' by done. injection H as <- <- <-. apply wf_flt0 in H'. lia.
        * rewrite lookup_insert in H'. rewrite lookup_insert_ne in H by done. injection H' as <- <- <-. apply wf_flt0 in H. lia.
        * rewrite lookup_insert_ne in H by done. rewrite lookup_insert_ne in H' by done. eauto.
      + intros c j d' H. apply wf_cf0 in H. lia.
  Qed.

  Lemma add_file_spec (e : env) (f : name) q r q' :
    fs_faithful F e -> wf q -> add_file md5 core0 e f q = (r, q') ->
    shrink q q' /\
    match r with
    | inl x => x = OSErr /\ e_fs e !! f = None
    | inr (b, i, d) => digest_at md5 e f = Some d /\ exists m, q_files q' !! f = Some (i, m, d)
    end.
  Proof.
    intros Hfs Hwf. unfold add_file, bind, ret, raise, digest_at. cbn [find_file sql_core0 s_find_file].
    unfold s_find_file.
    destruct (e_fs e !! f) as [[m ct]|] eqn:Ef.
    2:{ destruct (q_files q !! f) as [[[??]?]|]; intros [= <- <-]; (split; [apply shrink_refl|done]). }
    pose proof (Hfs _ _ _ Ef) as ->. cbn [fmap option_fmap option_map snd].
    assert (forall q1 r q', shrink q q1 -> q_files q1 !! f = None ->
      match s_save_file (R := R) (V := V) None f m (md5 (F f m)) q1 with
      | (inl e0, s') => (inl e0, s')
      | (inr a, s') => (inr (true, a, md5 (F f m)), s')
      end = (r, q') ->
      shrink q q' /\ match r with
        | inl x => x = OSErr /\ Some (m, F f m) = None
        | inr (_, i, d) => Some (md5 (F f m)) = Some d /\ exists m0, q_files q' !! f = Some (i, m0, d)
        end) as Hnew.
    { intros q1 r1 q1' Hsh Hno. destruct (s_save_file None f m (md5 (F f m)) q1) as [[x|i] q2] eqn:Es.
      - unfold s_save_file in Es. by rewrite Hno in Es.
      - intros [= <- <-]. apply new_file_shrink in Es as (H1 & H2 & _); [|done|by apply Hsh].
        split; [by eapply shrink_trans|]. eauto. }
    destruct (q_files q !! f) as [[[i om] od]|] eqn:Eq; cbn.
    - pose proof (wf_files _ Hwf _ _ _ _ Eq) as ->.
      destruct (Z.eqb m om && Z.ltb one_second (e_now e - m))%bool eqn:Esh; cbn.
      + apply andb_prop in Esh as [Hm _]. apply Z.eqb_eq in Hm as ->. intros [= <- <-].
        split; [apply shrink_refl|]. eauto.
      + destruct (String.eqb _ _) eqn:Ed; cbn.
        * apply String.eqb_eq in Ed. rewrite Eq, Nat.eqb_refl. intros [= <- <-]. simpl. rewrite lookup_insert. split; [|eauto].
          pose proof Hwf as []. split; simpl; try done.
          -- intros g j m' d' H. destruct (decide (f = g)) as [<-|Hn].
             ++ rewrite lookup_insert in H. injection H as <- <- <-. left. eauto.
             ++ rewrite lookup_insert_ne in H by done. left. eauto.
          -- intros c g d'. unfold cfn; simpl. destruct (decide (f = g)) as [<-|Hn].
             ++ rewrite lookup_insert. by rewrite Eq.
             ++ by rewrite lookup_insert_ne by done.
          -- intros _. split; simpl; auto.
             ++ intros g j m' d' H. destruct (decide (f = g)) as [<-|Hn].
                ** rewrite lookup_insert in H. injection H as <- <- <-. done.
                ** rewrite lookup_insert_ne in H by done. eauto.
             ++ intros g j m' d' H. destruct (decide (f = g)) as [<-|Hn].
                ** rewrite lookup_insert in H. injection H as <- <- <-. eauto.
                ** rewrite lookup_insert_ne in H by done. eauto.
             ++ intros g g' j m' d' m2 d2 H H'. destruct (decide (f = g)) as [<-|Hn], (decide (f = g')) as [<-|Hn']; try done.
                ** rewrite lookup_insert in H. rewrite lookup_insert_ne in H' by done. injection H as <- <- <-. eauto.
                ** rewrite lookup_insert in H'. rewrite lookup_insert_ne in H by done. injection H' as <- <- <-. eauto.
                ** rewrite lookup_insert_ne in H by done. rewrite lookup_insert_ne in H' by done. eauto.
        * rewrite Eq. intros H. eapply Hnew; [| |exact H].
          -- pose proof (delete_file_shrink f q) as Hs. unfold s_delete_file in Hs. simpl in Hs. by rewrite Eq in Hs.
          -- simpl. by rewrite lookup_delete.
    - intros H. eapply Hnew; [apply shrink_refl|done|exact H].
  Qed.

  Lemma check_call_file_spec e cid f q r q' :
    fs_faithful F e -> wf q ->
    check_call_file md5 core0 e cid f q = (r, q') ->
    shrink q q' /\
    match r with
    | inl x => x = OSErr /\ e_fs e !! f = None
    | inr (b, i, d) =>
        digest_at md5 e f = Some d /\ (exists m, q_files q' !! f = Some (i, m, d)) /\
        (cid = None -> b = true) /\
        (forall c, cid = Some c -> b = false -> cfn q' c f = Some d)
    end.
  Proof.
    intros Hfs Hwf H. unfold check_call_file, bind in H.
    destruct (add_file md5 core0 e f q) as [ra qa] eqn:Ea.
    apply add_file_spec in Ea as [Hsh Ha]; [|done|done].
    destruct ra as [x|[[b i] d]]; [by injection H as <- <-|].
    destruct Ha as [Hd (m & Hm)]. destruct cid as [c|]; cbn in H.
    - destruct (q_cf qa !! (c, i)) as [o|] eqn:Eo.
      + destruct (String.eqb d o) eqn:Ed; injection H as <- <-.
        * split; [done|]. split_and!; try done; [by eauto|]. intros ? [= <-] _. unfold cfn. rewrite Hm, Eo.
          apply String.eqb_eq in Ed. by subst.
        * split; [done|]. split_and!; try done. by eauto.
      + injection H as <- <-. split; [done|]. split_and!; try done. by eauto.
    - injection H as <- <-. split; [done|]. split_and!; try done. by eauto.
  Qed.

  Lemma row_owns q f i m d : wf q -> q_files q !! f = Some (i, m, d) -> owns q i f.
  Proof. intros [] H. split; [eauto|]. intros g m' d' H'. eauto. Qed.

  Lemma check_call_files_spec e cid fs q r q' :
    fs_faithful F e -> wf q ->
    check_call_files md5 core0 e cid fs q = (r, q') ->
    shrink q q' /\
    match r with
    | inl _ => True
    | inr ds =>
        (forall i f d, (i, f, d) ∈ ds -> f ∈ fs /\ digest_at md5 e f = Some d /\ owns q' i f) /\
        (forall f, f ∈ fs -> is_Some (digest_at md5 e f)) /\
        (cid = None -> forall f, f ∈ fs -> exists i d, (i, f, d) ∈ ds) /\
        (forall c, cid = Some c -> forall f, f ∈ fs ->
           (exists i d, (i, f, d) ∈ ds) \/
           (exists d, digest_at md5 e f = Some d /\ cfn q c f = Some d))
    end.
  Proof.
    intros Hfs. revert q r q'. induction fs as [|f fs IH]; intros q r q' Hwf H; simpl in H.
    - injection H as <- <-. split; [apply shrink_refl|].
      repeat split; intros; by set_solver.
    - unfold bind in H.
      destruct (check_call_file md5 core0 e cid f q) as [r1 q1] eqn:E1.
      pose proof (check_call_file_spec _ _ _ _ _ _ Hfs Hwf E1) as [Hsh1 H1].
      destruct r1 as [x|[[b i] d]].
      { injection H as <- <-. auto. }
      destruct H1 as (Hd & (m & Hm) & Hn & Hc).
      destruct (check_call_files md5 core0 e cid fs q1) as [r2 q2] eqn:E2.
      pose proof (sh_wf _ _ Hsh1 Hwf) as Hwf1.
      apply IH in E2 as [Hsh2 H2]; [|done].
      destruct r2 as [x|ds].
      { injection H as <- <-. split; [by eapply shrink_trans|done]. }
      injection H as <- <-.
      split; [by eapply shrink_trans|].
      destruct H2 as (A & A' & B & C).
      assert (owns q2 i f) as Hown by (eapply owns_shrink; [done|]; by eapply row_owns).
      split_and!.
      + intros i' f' d' Hin.
        assert ((i', f', d') = (i, f, d) \/ (i', f', d') ∈ ds) as [[= -> -> ->]|Hin'].
        { destruct b; [by apply elem_of_cons in Hin|by right]. }
        * split; [by left|done].
        * destruct (A _ _ _ Hin') as (? & ? & ?). split; [by right|done].
      + intros g [->|Hg]%elem_of_cons; [by eexists|auto].
      + intros -> g [->|Hg]%elem_of_cons.
        * rewrite (Hn eq_refl). exists i, d. by left.
        * destruct (B eq_refl g Hg) as (i' & d' & ?). exists i', d'. destruct b; [by right|done].
      + intros c -> g [->|Hg]%elem_of_cons.
        * destruct b; [left; exists i, d; by left|].
          right. exists d. split; [done|]. apply Hsh1. by apply Hc.
        * destruct (C c eq_refl g Hg) as [(i' & d' & ?)|[d' [? ?]]].
          -- left. exists i', d'. destruct b; [by right|done].
          -- right. exists d'. split; [done|]. by apply Hsh1.
  Qed.

  Lemma check_external_loop_shrink e c fs q r q' :
    fs_faithful F e -> wf q ->
    check_external_loop md5 core0 e c fs q = (r, q') -> shrink q q'.
  Proof.
    intros Hfs. revert q r q'. induction fs as [|f fs IH]; intros q r q' Hwf H; simpl in H.
    - injection H as <- <-. apply shrink_refl.
    - unfold bind, try_os in H.
      destruct (check_call_file md5 core0 e (Some c) f q) as [r1 q1] eqn:E1.
      pose proof (check_call_file_spec _ _ _ _ _ _ Hfs Hwf E1) as [Hsh1 H1].
      pose proof (sh_wf _ _ Hsh1 Hwf) as Hwf1.
      destruct (check_external_loop md5 core0 e c fs q1) as [r2 q2] eqn:E2.
      pose proof E2 as E2'. apply IH in E2'; [|done].
      destruct r1 as [x|[[b i] d]]; [destruct H1 as [-> _]|];
        cbn in H; rewrite E2 in H; destruct r2; cbn in H; injection H as <- <-; by eapply shrink_trans.
  Qed.

  Lemma check_function_pure n e fn q r q' :
    check_function core0 n e fn q = (r, q') -> q' = q.
  Proof.
    revert fn q r q'. induction n as [|n IH]; intros fn q r q' H; simpl in H.
    - by injection H as <- <-.
    - destruct (e_fun e !! fn) as [d|]; [|by injection H as <- <-].
      unfold bind in H. cbn in H.
      destruct (q_funs q !! fn) as [[[i od] deps]|]; cbn in H.
      2:{ by injection H as <- <-. }
      destruct (String.eqb d od); cbn in H; [|by injection H as <- <-].
      revert H.
      set (chk := (fix check_deps (ds : list name) : M _ bool := _)).
      assert (forall ds q r q', chk ds q = (r, q') -> q' = q) as Hl.
      { induction ds as [|dep ds IHd]; intros q0 r0 q0' H0; simpl in H0.
        - by injection H0 as <- <-.
        - unfold bind in H0.
          destruct (check_function core0 n e dep q0) as [r1 q1] eqn:E1.
          apply IH in E1 as ->.
          destruct r1 as [x|[[] fid]]; simpl in H0; try by injection H0 as <- <-.
          eauto. }
      destruct (chk _ q) as [r1 q1] eqn:E1. apply Hl in E1 as ->.
      destruct r1; intros [= <- <-]; done.
  Qed.

  Lemma check_function_spec n e fn q b fid q' :
    check_function core0 n e fn q = (inr (b, fid), q') ->
    exists d, e_fun e !! fn = Some d /\
    (b = false -> exists i deps, fid = Some i /\ q_funs q !! fn = Some (i, d, deps)).
  Proof.
    destruct n as [|n]; intros H; simpl in H; [done|].
    destruct (e_fun e !! fn) as [d|]; [|done]. exists d. split; [done|].
    unfold bind in H. cbn in H.
    destruct (q_funs q !! fn) as [[[i od] deps]|]; cbn in H.
    2:{ by injection H as <- <- <-. }
    destruct (String.eqb d od) eqn:Ed; cbn in H.
    2:{ by injection H as <- <- <-. }
    revert H. set (chk := (fix check_deps (ds : list name) : M _ bool := _)).
    destruct (chk _ q) as [[x|dd] c1]; cbn; [done|].
    intros [= <- <- <-]. apply String.eqb_eq in Ed as ->. eauto.
  Qed.

  Lemma search_row_spec (i : nat) (b : V) (l : list (nat * nat * V * R)) c r :
    search_row veq i b l = Some (c, r) -> exists b', (c, i, b', r) ∈ l /\ veq b b' = true.
  Proof.
    induction l as [|[[[c' i'] ob] r0] l IH]; simpl; [done|].
    destruct (Nat.eqb i' i && veq b ob)%bool eqn:E.
    - intros [= -> ->]. apply andb_prop in E as [Hi Hv]. apply Nat.eqb_eq in Hi as ->.
      exists ob. split; [by left|done].
    - intros H. destruct (IH H) as (b' & ? & ?). exists b'. split; [by right|done].
  Qed.

  Record prep_ok (e : env) (fn : name) (b : V) (srcs : list name) (q q' : sq)
      (p : prepared R nat nat nat) : Prop := PrepOk {
    po_clean : pr_fun_dirty p = false ->
      exists i d deps, pr_fun_id p = Some i /\ e_fun e !! fn = Some d /\ q_funs q !! fn = Some (i, d, deps);
    po_cid : forall c, pr_call_id p = Some c ->
      exists i b' r, pr_fun_dirty p = false /\ pr_fun_id p = Some i /\
        (c, i, b', r) ∈ q_calls q /\ veq b b' = true /\ pr_old_result p = Some r;
    po_call_dirty : pr_call_dirty p = false -> is_Some (pr_call_id p);
    po_files : forall i f d, (i, f, d) ∈ pr_files p -> f ∈ srcs /\ digest_at md5 e f = Some d /\ owns q' i f;
    po_all : pr_call_id p = None -> forall f, f ∈ srcs -> exists i d, (i, f, d) ∈ pr_files p;
    po_same : forall c, pr_call_id p = Some c -> forall f, f ∈ srcs ->
      (exists i d, (i, f, d) ∈ pr_files p) \/
      (exists d, digest_at md5 e f = Some d /\ cfn q c f = Some d)
  }.

  Lemma prepare_spec e fn b srcs q r q' :
    fs_faithful F e -> wf q ->
    prepare md5 core0 e fn b srcs q = (r, q') ->
    shrink q q' /\ forall p, r = inr p -> prep_ok e fn b srcs q q' p.
  Proof.
    intros Hfs Hwf H. unfold prepare, bind in H.
    destruct (check_function core0 (e_limit e) e fn q) as [r1 q1] eqn:E1.
    pose proof (check_function_pure _ _ _ _ _ _ E1) as ->.
    destruct r1 as [x|[fd fid]].
    { injection H as <- <-. split; [apply shrink_refl|done]. }
    pose proof (check_function_spec _ _ _ _ _ _ _ E1) as (d & Hd & Hclean).
    set (fc := match fd, fid with
               | false, Some fid0 => find_call core0 fid0 b
               | _, _ => ret (true, None, None)
               end) in H.
    assert (exists cd cid old, fc q = (inr (cd, cid, old), q) /\
      (forall c, cid = Some c -> exists i b' r, fd = false /\ fid = Some i /\
        (c, i, b', r) ∈ q_calls q /\ veq b b' = true /\ old = Some r)
      /\ (cd = false -> is_Some cid)) as (cd & cid & old & Hfc & Hcid & Hcd).
    { unfold fc. destruct fd.
      - exists true, None, None. split; [done|]. split; done.
      - destruct fid as [fid|]; [|exists true, None, None; split; [done|]; split; done].
        cbn. unfold s_find_call. destruct (search_row veq fid b (q_calls q)) as [[c r0]|] eqn:Es.
        + apply search_row_spec in Es as (b' & Hin & Hv).
          exists false, (Some c), (Some r0). split; [done|]. split; [|eauto].
          intros ? [= <-]. exists fid, b', r0. by split_and!.
        + exists true, None, None. split; [done|]. split; done. }
    rewrite Hfc in H.
    destruct (check_call_files md5 core0 e cid srcs q) as [r2 q2] eqn:E2.
    pose proof (check_call_files_spec _ _ _ _ _ _ Hfs Hwf E2) as [Hsh2 H2].
    destruct r2 as [x|files].
    { injection H as <- <-. split; [done|done]. }
    destruct H2 as (A & A' & B & C).
    destruct cid as [c|].
    - unfold check_external_files, bind in H. cbn in H.
      destruct (check_external_loop md5 core0 e c _ q2) as [r3 q3] eqn:E3.
      pose proof (check_external_loop_shrink _ _ _ _ _ _ Hfs (sh_wf _ _ Hsh2 Hwf) E3) as Hsh3.
      destruct r3 as [?|xf]; cbn in H; injection H as <- <-; (split; [by eapply shrink_trans|]); [done|].
      intros p [= <-]. split; simpl; auto.
      + intros Hfd. destruct (Hclean Hfd) as (i & deps & -> & ?). eauto 6.
      + intros i f dg Hin. destruct (A _ _ _ Hin) as (? & ? & ?). split_and!; try done. by eapply owns_shrink.
    - cbn in H. injection H as <- <-.
      split; [done|]. intros p [= <-]. split; simpl; auto; try done.
      intros Hfd. destruct (Hclean Hfd) as (i & deps & -> & ?). eauto 6.
  Qed.
End Facts.
