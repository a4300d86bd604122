(** What recording a call does to the external sources of all calls, in the tables of the
    SQLite backend. *)
From stdpp Require Import base list strings gmap.
From Coq Require Import ZArith Lia.
From Verif Require Import PyMonad DbModel DbSpec SqlBackend SqlSpec SqlLift SqlFacts SqlInv SqlExt.

Section Kept.
  Context {V R : Type} (veq : V -> V -> bool) (md5 : content -> digest).
  Context (F : name -> Z -> content).
  Context (Hveq : equivalence_test veq).
  Notation core0 := (sql_core0 (R := R) veq).
  Notation sq := (sq V R).
  Notation frame := (frame V R nat nat nat).
  Notation run := (run V R).
  Notation digest_at := (digest_at md5).
  Notation wf := (wf (V := V) (R := R) md5 F).
  Notation pinv := (pinv (V := V) (R := R) md5 F).
  Notation db_inv := (db_inv_ex (V := V) (R := R) veq md5 F None).
  Notation frame_inv := (frame_inv (V := V) (R := R) veq md5).
  Implicit Types q : sq.

  (** Searching. *)
  Lemma search_filter (P : nat * nat * V * R -> Prop) `{forall x, Decision (P x)} i b l :
    (forall x, x ∈ l -> call_fun x = i -> P x) -> search_row veq i b (filter P l) = search_row veq i b l.
  Proof.
    induction l as [|[[[c j] b'] r] l IH]; intros Hall; [done|]. rewrite filter_cons.
    assert (search_row veq i b (filter P l) = search_row veq i b l) as IH' by (apply IH; intros; apply Hall; [by right|done]).
    destruct (decide _) as [Hp|Hp]; simpl; [by rewrite IH'|].
    destruct (Nat.eqb_spec j i) as [->|]; [|done]. exfalso. apply Hp, Hall; [by left|done].
  Qed.
  Lemma search_app i b (l : list (nat * nat * V * R)) c j b' r : search_row veq i b (l ++ [(c, j, b', r)]) =
    match search_row veq i b l with Some x => Some x
    | None => if (Nat.eqb j i && veq b b')%bool then Some (c, r) else None end.
  Proof. induction l as [|[[[c0 j0] b0] r0] l IH]; simpl; [done|]. destruct (Nat.eqb j0 i && veq b b0)%bool; [done|exact IH]. Qed.
  Lemma search_update i b (l : list (nat * nat * V * R)) c r :
    fst <$> search_row veq i b ((fun x => if Nat.eqb (call_id x) c then (x.1.1, x.1.2, r) else x) <$> l) =
    fst <$> search_row veq i b l.
  Proof.
    induction l as [|[[[c0 j0] b0] r0] l IH]; [done|]. rewrite fmap_cons. cbn [call_id fst snd].
    destruct (Nat.eqb c0 c); simpl; (destruct (Nat.eqb j0 i && veq b b0)%bool; [done|exact IH]).
  Qed.
  Lemma search_none i b (l : list (nat * nat * V * R)) : (forall x, x ∈ l -> call_fun x <> i) -> search_row veq i b l = None.
  Proof.
    induction l as [|[[[c j] b'] r] l IH]; intros Hall; [done|]. simpl.
    destruct (Nat.eqb_spec j i) as [->|]; simpl; [by destruct (Hall (c, i, b', r)); [left|]|].
    apply IH. intros x Hx. apply Hall. by right.
  Qed.

  (** The external sources known, through each step of recording. *)
  Lemma pinv_log lg ru q : pinv lg q -> pinv (ru :: lg) q.
  Proof.
    intros []. split; auto. intros c i b r g j m d H1 H2 H3.
    destruct (p_known c i b r g j m d H1 H2 H3) as (ru' & ? & ?). exists ru'. split; [by right|done].
  Qed.
  Lemma pinv_empty lg : pinv lg sq_empty.
  Proof.
    split; [apply (di_wf veq md5 F None lg), db_inv_empty|..].
    - intros c j H. simpl in H. by apply elem_of_empty in H.
    - intros c i b r H. simpl in H. by apply elem_of_nil in H.
    - intros c i b r g j m d H. simpl in H. by apply elem_of_nil in H.
  Qed.
  Lemma pinv_delete_file lg f q : pinv lg q -> pinv lg (snd (s_delete_file f q)).
  Proof.
    intros []. pose proof (delete_file_shrink md5 F f q) as Hsh.
    assert (forall k, k ∈ q_xs (snd (s_delete_file f q)) -> k ∈ q_xs q) as Hx.
    { unfold s_delete_file; simpl. destruct (q_files q !! f) as [[[??]?]|]; [|done]. simpl. intros k Hk. by apply elem_filter_xs in Hk as [_ ?]. }
    assert (forall g x, q_files (snd (s_delete_file f q)) !! g = Some x -> q_files q !! g = Some x) as Hf.
    { unfold s_delete_file; simpl. destruct (q_files q !! f) as [[[??]?]|]; [|done]. simpl. intros g x [_ ?]%lookup_delete_Some. done. }
    split.
    - by apply Hsh.
    - intros c j Hc%Hx. rewrite (sh_ncall _ _ _ _ Hsh). pose proof (sh_nfile _ _ _ _ Hsh). apply p_xlt in Hc. lia.
    - intros c i b r. rewrite (sh_calls _ _ _ _ Hsh), (sh_funs _ _ _ _ Hsh). apply p_fun.
    - intros c i b r g j m d. rewrite (sh_calls _ _ _ _ Hsh), (sh_funs _ _ _ _ Hsh). intros H1 H2%Hf H3%Hx. eauto.
  Qed.

  (** Every file is found, with its id and digest. *)
  Lemma check_all_found e c fs q l q' :
    fs_faithful F e -> wf q -> NoDup fs -> check_all veq md5 e c fs q = (inr l, q') ->
    (forall b j d, (b, j, d) ∈ l -> exists f, f ∈ fs /\ owns q' j f /\ digest_at e f = Some d) /\
    (forall f, f ∈ fs -> exists b j m d, (b, j, d) ∈ l /\ q_files q' !! f = Some (j, m, d) /\ digest_at e f = Some d /\
       (b = false -> q_cf q' !! (c, j) = Some d)).
  Proof.
    intros Hfs. revert q l q'. induction fs as [|f fs IH]; intros q l q' Hw Hnd H; simpl in H.
    - injection H as <- <-. split; [by intros ? ? ? ?%elem_of_nil|by intros ? ?%elem_of_nil].
    - apply NoDup_cons in Hnd as [Hnin Hnd]. unfold bind in H.
      destruct (check_call_file md5 core0 e (Some c) f q) as [[x|[[b j] d]] q1] eqn:E1; [done|].
      apply (check_call_file_spec veq md5 F) in E1 as [Hsh1 (Hd & (m & Hm) & _ & Hcf)]; [|done|done].
      pose proof (sh_wf _ _ _ _ Hsh1 Hw) as Hw1.
      destruct (check_all veq md5 e c fs q1) as [[x|l2] q2] eqn:E2; [done|].
      pose proof E2 as E2s. apply (check_all_spec veq md5 F) in E2s as [Hsh2 _]; [|done|done].
      pose proof (IH _ _ _ Hw1 Hnd E2) as [H2 H3]. injection H as <- <-.
      assert (b = false -> q_cf q1 !! (c, j) = Some d) as Hcf1.
      { intros Hb. specialize (Hcf c eq_refl Hb). unfold cfn in Hcf. by rewrite Hm in Hcf. }
      assert (q_files q2 !! f = Some (j, m, d) /\ q_cf q2 !! (c, j) = q_cf q1 !! (c, j)) as [Hm2 Hc2].
      { assert (keeps (fun q => wf q /\ q_files q !! f = Some (j, m, d) /\ q_cf q !! (c, j) = q_cf q1 !! (c, j)) (check_all veq md5 e c fs)) as Hk.
        - apply check_all_keeps. intros g Hg qa ra qb (Ha1 & Ha2 & Ha3) Ha.
          assert (g <> f) as Hgf by (intros ->; done).
          pose proof (add_file_spec veq md5 F _ _ _ _ _ Hfs Ha1 Ha) as [Hsh _].
          split; [by apply Hsh|].
          apply (add_file_cases veq md5 F) in Ha as [->|[(i & m1 & m2 & d1 & _ & _ & ->)|(m1 & d1 & _ & _ & ->)]]; [done| | |done|done].
          + simpl. by rewrite lookup_insert_ne.
          + rewrite renewed_lookup, decide_False by done. split; [done|].
            destruct (renewed_parts g m1 d1 qa) as (_ & _ & _ & _ & _ & _ & _ & E8 & E9). cbv zeta in *.
            destruct (q_files qa !! g) as [[[i mi] di]|] eqn:Eg.
            * destruct (E8 _ _ _ eq_refl (c, j)) as [_ ->]; [|done]. simpl. intros ->. apply Hgf. by eapply (wf_finj _ _ _ Ha1).
            * destruct (E9 eq_refl) as [_ ->]. done.
        - by apply (Hk q1 (inr l2) q2). }
      split.
      + intros b' j' d' [[= -> -> ->]|Hin]%elem_of_cons.
        * exists f. split; [by left|]. split; [|done]. eapply owns_shrink; [done|]. by eapply row_owns.
        * destruct (H2 _ _ _ Hin) as (f' & ? & ?). exists f'. split; [by right|done].
      + intros g [->|Hg]%elem_of_cons.
        * exists b, j, m, d. split; [by left|]. split_and!; try done. rewrite Hc2. done.
        * destruct (H3 g Hg) as (b' & j' & m' & d' & ? & ?). exists b', j', m', d'. split; [by right|done].
  Qed.

  (** Rows of table CallFile do not matter for [pinv]. *)
  Lemma pinv_same lg q q' : wf q' -> q_calls q' = q_calls q -> q_funs q' = q_funs q -> q_files q' = q_files q ->
    (forall k, k ∈ q_xs q' -> k ∈ q_xs q) -> q_ncall q' = q_ncall q -> q_nfile q' = q_nfile q -> pinv lg q -> pinv lg q'.
  Proof.
    intros Hw E1 E2 E3 E4 E5 E6 []. split; [done|..]; unfold xlt, calls_fun, known; rewrite ?E1, ?E2, ?E3, ?E5, ?E6; eauto.
  Qed.
  Lemma save_call_file_parts c j d q u q' : s_save_call_file (V := V) (R := R) c j d q = (inr u, q') ->
    has_call q c = true /\ has_file q j = true /\
    q' = Sq (q_funs q) (q_calls q) (q_files q) (<[(c, j) := d]> (q_cf q)) (q_xs q) (q_xd q) (q_nfun q) (q_ncall q) (q_nfile q).
  Proof.
    unfold s_save_call_file. destruct (has_call q c && has_file q j)%bool eqn:E; intros [= <- <-].
    apply andb_prop in E as []. done.
  Qed.
  Lemma save_call_file_pinv lg c j d q u q' : pinv lg q -> s_save_call_file (V := V) (R := R) c j d q = (inr u, q') -> pinv lg q'.
  Proof.
    intros Hp H. apply save_call_file_parts in H as (Hc & Hf & ->).
    apply (pinv_same lg q); [|done..|exact Hp]. destruct (p_wf _ _ _ _ Hp). split; simpl; auto.
    intros c' j' d' H. apply has_call_spec in Hc as (x & Hx & <-). apply has_file_spec in Hf as (g & m & dg & Hg).
    destruct (decide ((call_id x, j) = (c', j'))) as [[= <- <-]|Hn].
    - split; eauto.
    - rewrite lookup_insert_ne in H by done. eauto.
  Qed.
  Lemma save_call_files_pinv lg c ds q u q' : pinv lg q -> save_call_files core0 c ds q = (inr u, q') -> pinv lg q'.
  Proof.
    revert q. induction ds as [|[[j f] d] ds IH]; intros q Hp H; simpl in H; [by injection H as _ <-|].
    unfold bind in H. cbn [save_call_file sql_core0] in H.
    destruct (s_save_call_file c j d q) as [[x|u1] q1] eqn:E1; [done|].
    apply (IH q1); [|done]. by eapply save_call_file_pinv.
  Qed.
  Lemma insert_files_pinv lg c l q u q' : pinv lg q -> insert_files (V := V) (R := R) c l q = (inr u, q') -> pinv lg q'.
  Proof.
    revert q. induction l as [|[[b j] d] l IH]; intros q Hp H; simpl in H; [by injection H as _ <-|].
    unfold bind in H. destruct ((if b then s_save_call_file c j d else ret tt) q) as [[x|u1] q1] eqn:E1; [done|].
    apply (IH q1); [|done]. destruct b; [by eapply save_call_file_pinv|by injection E1 as _ <-].
  Qed.
  Lemma insert_ext_dst_pinv lg c l q u q' : pinv lg q -> insert_ext (V := V) (R := R) false c l q = (inr u, q') -> pinv lg q'.
  Proof.
    revert q. induction l as [|j l IH]; intros q Hp H; simpl in H; [by injection H as _ <-|].
    unfold bind in H. destruct (has_call q c && has_file q j)%bool; [|done].
    eapply IH; [|exact H]. apply (pinv_same lg q); [|done..|exact Hp]. destruct (p_wf _ _ _ _ Hp). by split.
  Qed.
  Lemma insert_ext_src_pinv lg ru c l q u q' : ru ∈ lg ->
    (forall i b r, (c, i, b, r) ∈ q_calls q -> exists dg s, q_funs q !! rq_fun (ru_req ru) = Some (i, dg, s)) ->
    (forall j, j ∈ l -> exists h, h ∈ ru_xsrcs ru /\ owns q j h) ->
    pinv lg q -> insert_ext (V := V) (R := R) true c l q = (inr u, q') -> pinv lg q'.
  Proof.
    intros Hru. revert q. induction l as [|j l IH]; intros q Hc Hl Hp H; simpl in H; [by injection H as _ <-|].
    unfold bind in H. destruct (has_call q c && has_file q j)%bool eqn:E; [|done].
    apply andb_prop in E as [(x & Hx & Hxc)%has_call_spec (g & m & dg & Hg)%has_file_spec].
    eapply IH; [..|exact H].
    - done.
    - intros j' Hj'. apply Hl. by right.
    - pose proof Hp as [Hw Hxl Hf Hk]. split; [destruct Hw; by split|..].
      + intros c' j'. simpl. intros [[= -> ->]%elem_of_singleton|Hin]%elem_of_union; [|by apply Hxl].
        destruct Hw. split; [rewrite <- Hxc; eauto|eauto].
      + done.
      + intros c' i b r h j' m' d' H1 H2. simpl in H1, H2 |- *.
        intros [[= -> ->]%elem_of_singleton|Hin]%elem_of_union; [|by eapply Hk].
        exists ru. split; [done|]. split; [|by eapply Hc].
        destruct (Hl j) as (h' & Hh & Ho); [by left|]. by rewrite (proj2 Ho _ _ _ H2).
  Qed.

  (** The parts of saving external dependencies. *)
  Lemma save_external_split e c xs xd q u q' : s_save_external veq md5 e c xs xd q = (inr u, q') ->
    let q1 := Sq (q_funs q) (q_calls q) (q_files q) (q_cf q) (filter (fun x : nat * nat => x.1 <> c) (q_xs q))
                 (filter (fun x : nat * nat => x.1 <> c) (q_xd q)) (q_nfun q) (q_ncall q) (q_nfile q) in
    exists ss q2 u3 q3 u4 q4 ds q5 l,
      check_all veq md5 e c (remove_dups xs) q1 = (inr ss, q2) /\
      insert_ext true c (map (fun x : bool * nat * digest => x.1.2) ss) q2 = (inr u3, q3) /\
      insert_files c ss q3 = (inr u4, q4) /\
      check_all veq md5 e c (remove_dups xd) q4 = (inr ds, q5) /\
      insert_ext false c l q5 = (inr u, q').
  Proof.
    intros H q1. unfold s_save_external, modify in H. unfold bind at 1 in H. fold q1 in H.
    unfold bind at 1 in H. destruct (check_all veq md5 e c (remove_dups xs) q1) as [[x|ss] q2] eqn:E2; [done|].
    unfold bind at 1 in H. destruct (insert_ext true c _ q2) as [[x|u3] q3] eqn:E3; [done|].
    unfold bind at 1 in H. destruct (insert_files c ss q3) as [[x|u4] q4] eqn:E4; [done|].
    unfold bind at 1 in H. destruct (check_all veq md5 e c (remove_dups xd) q4) as [[x|ds] q5] eqn:E5; [done|].
    exists ss, q2, u3, q3, u4, q4, ds, q5. eexists. split_and!; [done|exact E3|exact E4|exact E5|exact H].
  Qed.

  Lemma insert_ext_parts src c l q u q' : insert_ext (V := V) (R := R) src c l q = (inr u, q') ->
    q_funs q' = q_funs q /\ q_calls q' = q_calls q /\ q_files q' = q_files q /\ q_cf q' = q_cf q /\
    (forall k, k ∈ q_xs q' <-> k ∈ q_xs q \/ (src = true /\ exists j, k = (c, j) /\ j ∈ l)).
  Proof.
    revert q. induction l as [|j l IH]; intros q H; simpl in H.
    - injection H as _ <-. split_and!; try done. intros k. split; [by left|]. intros [?|(_ & ? & _ & ?%elem_of_nil)]; done.
    - unfold bind in H. destruct (has_call q c && has_file q j)%bool; [|done].
      apply IH in H as (E1 & E2 & E3 & E4 & E5). simpl in *. split_and!; try done. intros k. rewrite E5.
      destruct src.
      + rewrite elem_of_union, elem_of_singleton. split.
        * intros [[->|?]|(_ & j' & -> & ?)]; [right|by left|right].
          -- split; [done|]. exists j. split; [done|by left].
          -- split; [done|]. exists j'. split; [done|by right].
        * intros [?|(_ & j' & -> & [->|?]%elem_of_cons)]; [left; by right|left; by left|right; eauto].
      + split; [intros [?|[? _]]; [by left|done]|intros [?|[? _]]; [by left|done]].
  Qed.
  Lemma insert_files_parts c l q u q' : insert_files (V := V) (R := R) c l q = (inr u, q') ->
    q_funs q' = q_funs q /\ q_calls q' = q_calls q /\ q_files q' = q_files q /\ q_xs q' = q_xs q /\
    (forall k, k.1 <> c -> q_cf q' !! k = q_cf q !! k) /\
    (forall j d, (forall b d', (b, j, d') ∈ l -> d' = d) ->
       (exists b, (b, j, d) ∈ l /\ (b = false -> q_cf q !! (c, j) = Some d)) \/ q_cf q !! (c, j) = Some d -> q_cf q' !! (c, j) = Some d).
  Proof.
    revert q. induction l as [|[[b j] d] l IH]; intros q H; simpl in H.
    - injection H as _ <-. split_and!; try done. intros j d _ [(? & ?%elem_of_nil & _)|?]; done.
    - unfold bind in H. destruct ((if b then s_save_call_file c j d else ret tt) q) as [[x|u1] q1] eqn:E1; [done|].
      apply IH in H as (A1 & A2 & A3 & A4 & A5 & A6). rewrite A1, A2, A3, A4.
      assert (q_funs q1 = q_funs q /\ q_calls q1 = q_calls q /\ q_files q1 = q_files q /\ q_xs q1 = q_xs q /\
              (q_cf q1 = <[(c, j) := d]> (q_cf q) \/ (b = false /\ q_cf q1 = q_cf q))) as (-> & -> & -> & -> & Hcf).
      { destruct b; [apply save_call_file_parts in E1 as (_ & _ & ->)|injection E1 as _ <-]; split_and!; auto. }
      split_and!; try done.
      + intros k Hk. rewrite A5 by done. destruct Hcf as [->|[_ ->]]; [|done]. rewrite lookup_insert_ne; [done|]. intros <-. done.
      + intros j' d' Hu Hor.
        assert ((j = j' -> d = d')) as Hd by (intros <-; apply (Hu b); by left).
        apply A6; [intros b' d2 Hin; apply (Hu b'); by right|].
        destruct Hor as [(b' & [[= -> -> ->]|Hin]%elem_of_cons & Hb)|Hcf'].
        * right. destruct Hcf as [->|[-> ->]]; [by rewrite lookup_insert|by apply Hb].
        * left. exists b'. split; [done|]. intros Hf. specialize (Hb Hf).
          destruct Hcf as [->|[_ ->]]; [|done]. destruct (decide (j = j')) as [<-|Hn]; [rewrite lookup_insert; by rewrite Hd|].
          rewrite lookup_insert_ne by congruence. done.
        * right. destruct Hcf as [->|[_ ->]]; [|done]. destruct (decide (j = j')) as [<-|Hn]; [rewrite lookup_insert; by rewrite Hd|].
          rewrite lookup_insert_ne by congruence. done.
  Qed.

  Lemma save_external_pinv lg ru e c q u q' : fs_faithful F e -> ru ∈ lg ->
    (forall i b r, (c, i, b, r) ∈ q_calls q -> exists dg s, q_funs q !! rq_fun (ru_req ru) = Some (i, dg, s)) ->
    pinv lg q -> s_save_external veq md5 e c (ru_xsrcs ru) (ru_xdsts ru) q = (inr u, q') -> pinv lg q'.
  Proof.
    intros Hfs Hru Hc Hp H. apply save_external_split in H as (ss & q2 & u3 & q3 & u4 & q4 & ds & q5 & l & E2 & E3 & E4 & E5 & E6).
    set (q1 := Sq _ _ _ _ _ _ _ _ _) in E2.
    assert (pinv lg q1) as Hp1.
    { apply (pinv_same lg q); [| | | | | | |exact Hp]; try done.
      - destruct (p_wf _ _ _ _ Hp). by split.
      - unfold q1; simpl. intros k Hk. by apply elem_filter_xs in Hk as [_ ?]. }
    pose proof (check_all_found _ _ _ _ _ _ Hfs (p_wf _ _ _ _ Hp1) (NoDup_remove_dups _) E2) as [Hss _].
    pose proof E2 as E2s. apply (check_all_spec veq md5 F) in E2s as [Hsh2 _]; [|done|apply Hp1].
    apply (check_all_keeps veq md5 (pinv lg)) in E2; [|intros h Hh; exact (add_file_pinv veq md5 F lg e h Hfs)|done].
    apply (insert_ext_src_pinv lg ru) in E3; [| | | |done]; [|done| |].
    2:{ intros i b r. rewrite (sh_calls _ _ _ _ Hsh2), (sh_funs _ _ _ _ Hsh2). apply Hc. }
    2:{ intros j Hj. apply elem_of_list_In, in_map_iff in Hj as ([[b j'] d] & <- & Hin). apply elem_of_list_In in Hin.
        destruct (Hss _ _ _ Hin) as (h & Hh & Ho & _). exists h. split; [|done]. by rewrite elem_of_remove_dups in Hh. }
    apply (insert_files_pinv lg) in E4; [|done].
    apply (check_all_keeps veq md5 (pinv lg)) in E5; [|intros h Hh; exact (add_file_pinv veq md5 F lg e h Hfs)|done].
    by apply (insert_ext_dst_pinv lg) in E6.
  Qed.

  Lemma delete_function_pinv lg fn q : pinv lg q -> pinv lg (snd (s_delete_function fn q)).
  Proof.
    intros [Hw Hx Hf Hk].
    assert (wf (snd (s_delete_function fn q))) as Hw'.
    { unfold s_delete_function; simpl. destruct (q_funs q !! fn) as [[[i d] s]|] eqn:Ef; [|done].
      destruct Hw. split; simpl; auto.
      - intros c j d' H%filter_cf. eauto.
      - intros g j d' s' [_ H]%lookup_delete_Some. eauto.
      - intros g g' j d' s' d2 s2 [_ H]%lookup_delete_Some [_ H']%lookup_delete_Some. eauto.
      - intros x [_ H]%elem_of_list_filter. auto.
      - intros x y [_ H]%elem_of_list_filter [_ H']%elem_of_list_filter. auto. }
    revert Hw'. unfold s_delete_function; simpl. destruct (q_funs q !! fn) as [[[i d] s]|] eqn:Ef; [|by split].
    set (q' := Sq _ _ _ _ _ _ _ _ _). intros Hw'.
    assert (forall x, x ∈ q_calls q' -> x ∈ q_calls q /\ call_fun x <> i) as Hcalls.
    { intros x. unfold q'; simpl. intros [Hx' Hin]%elem_of_list_filter. split; [done|]. intros Hi.
      apply not_true_iff_false in Hx'. apply Hx'. apply existsb_exists. exists x. split; [by apply elem_of_list_In|].
      by rewrite Hi, !Nat.eqb_refl. }
    assert (forall g j dg dp, q_funs q !! g = Some (j, dg, dp) -> j <> i -> q_funs q' !! g = Some (j, dg, dp)) as Hfun.
    { intros g j dg dp Hg Hj. unfold q'; simpl. rewrite lookup_delete_ne; [done|]. intros <-. rewrite Ef in Hg. by injection Hg as <- <- <-. }
    split; [done|..].
    - intros c j Hc. unfold q' in Hc |- *; simpl in *. apply elem_filter_xs in Hc as [_ Hc]. by apply Hx.
    - intros c j b r [Hin Hj]%Hcalls. cbn in Hj. destruct (Hf _ _ _ _ Hin) as (g & dg & dp & Hg). eauto.
    - intros c j b r g j' m d' [Hin Hj]%Hcalls H2 H3. cbn in Hj. unfold q' in H2, H3; simpl in H2, H3.
      apply elem_filter_xs in H3 as [_ H3]. destruct (Hk _ _ _ _ _ _ _ _ Hin H2 H3) as (ru & ? & ? & dg & dp & Hg). eauto 10.
  Qed.
  Lemma save_function_pinv lg fn fd deps q i q' : pinv lg q ->
    s_save_function (V := V) (R := R) None fn fd deps q = (inr i, q') -> pinv lg q'.
  Proof.
    intros [Hw Hx Hf Hk]. unfold s_save_function. destruct (q_funs q !! fn) eqn:Ef; intros [= <- <-].
    assert (forall g x, q_funs q !! g = Some x -> <[fn := (q_nfun q, fd, join0 deps)]> (q_funs q) !! g = Some x) as Hfun.
    { intros g x Hg. rewrite lookup_insert_ne; [done|]. intros <-. congruence. }
    split.
    - destruct Hw. split; simpl; auto.
      + intros g j d s. destruct (decide (fn = g)) as [<-|Hn]; [rewrite lookup_insert; intros [= <- _ _]; lia|].
        rewrite lookup_insert_ne by done. intros H%wf_glt. lia.
      + intros g g' j d s d' s'. destruct (decide (fn = g)) as [<-|Hn], (decide (fn = g')) as [<-|Hn'];
          rewrite ?lookup_insert, ?lookup_insert_ne by done; try done.
        * intros [= <- _ _] H%wf_glt. lia.
        * intros H%wf_glt [= <- _ _]. lia.
        * eauto.
    - done.
    - intros c i b r Hin. destruct (Hf _ _ _ _ Hin) as (g & d & s & Hg). simpl. eauto.
    - intros c i b r g j m d H1 H2 H3. destruct (Hk _ _ _ _ _ _ _ _ H1 H2 H3) as (ru & ? & ? & dg & dp & Hg). simpl. eauto 10.
  Qed.
  Lemma save_call_pinv lg cid i b r q c q' : pinv lg q ->
    s_save_call (V := V) cid i b r q = (inr c, q') -> pinv lg q'.
  Proof.
    intros [Hw Hx Hf Hk]. unfold s_save_call. destruct cid as [c0|].
    - intros [= <- <-]. set (upd := fun x : nat * nat * V * R => if Nat.eqb (call_id x) c0 then (x.1.1, x.1.2, r) else x).
      assert (forall x, call_id (upd x) = call_id x) as Hup by (intros x; unfold upd; by destruct (Nat.eqb _ _)).
      assert (forall y j b' r', (y, j, b', r') ∈ upd <$> q_calls q -> exists r0, (y, j, b', r0) ∈ q_calls q) as Hin.
      { intros y j b' r' ([[[y0 j0] b0] r0] & He & Hxin)%elem_of_list_fmap. unfold upd in He.
        destruct (Nat.eqb _ c0); injection He as -> -> -> ->; eauto. }
      split.
      + destruct Hw. split; simpl; auto.
        * intros x (x0 & -> & Hx0)%elem_of_list_fmap. fold (upd x0). rewrite Hup. auto.
        * intros x y (x0 & -> & Hx0)%elem_of_list_fmap (y0 & -> & Hy0)%elem_of_list_fmap.
          fold (upd x0) (upd y0). rewrite !Hup. intros H. by rewrite (wf_cuniq _ _ Hx0 Hy0 H).
      + done.
      + intros y j b' r' (r0 & H)%Hin. simpl. eauto.
      + intros y j b' r' g j' m d (r0 & H)%Hin. simpl. eauto.
    - destruct (has_fun q i) eqn:Eh; intros [= <- <-]. apply has_fun_spec in Eh as (g & d & s & Hg). split.
      + destruct Hw. split; simpl; auto.
        * intros y j d' H. destruct (wf_cf _ _ _ H). split; [lia|done].
        * intros x [H|H]%elem_of_app; [apply wf_clt in H; lia|]. apply elem_of_list_singleton in H as ->. unfold call_id. simpl. lia.
        * intros x y [H|H]%elem_of_app [H'|H']%elem_of_app; try apply elem_of_list_singleton in H as ->;
            try apply elem_of_list_singleton in H' as ->; try done; [by apply wf_cuniq|..].
          -- apply wf_clt in H. unfold call_id in *. simpl. lia.
          -- apply wf_clt in H'. unfold call_id in *. simpl. lia.
      + intros c' j Hc. simpl in *. apply Hx in Hc. lia.
      + intros c' j b' r' [H|H]%elem_of_app; [eauto|]. apply elem_of_list_singleton in H as [= -> -> -> ->]. simpl. eauto.
      + intros c' j b' r' h j' m' d' [H|H]%elem_of_app H2 H3; [simpl in *; eauto|]. simpl in H3.
        apply elem_of_list_singleton in H as [= -> -> -> ->]. apply Hx in H3. lia.
  Qed.

  (** The parts of recording. *)
  Notation cached e fr deps r := (cache0 veq md5 e (pr_fun_dirty (fr_prep fr)) (pr_fun_id (fr_prep fr)) (rq_fun (fr_req fr))
      (fr_digest fr) deps (pr_call_id (fr_prep fr)) (rq_bound (fr_req fr)) r
      (pr_files (fr_prep fr)) (fr_xsrcs fr) (fr_xdsts fr)).
  Record recording (lg : list run) (e : env) (fr : frame) (deps : list name) (r : R) q q' (i c : nat) (qd q1 q2 q3 : sq) : Prop := Recording {
    rc_fun : (pr_fun_dirty (fr_prep fr) = true /\
                ((pr_fun_id (fr_prep fr) = None /\ qd = q) \/ qd = snd (s_delete_function (rq_fun (fr_req fr)) q)) /\
                s_save_function None (rq_fun (fr_req fr)) (fr_digest fr) deps qd = (inr i, q1)) \/
             (pr_fun_dirty (fr_prep fr) = false /\ pr_fun_id (fr_prep fr) = Some i /\ qd = q /\ q1 = q);
    rc_call : s_save_call (pr_call_id (fr_prep fr)) i (rq_bound (fr_req fr)) r q1 = (inr c, q2);
    rc_files : exists u, save_call_files core0 c (pr_files (fr_prep fr)) q2 = (inr u, q3);
    rc_ext : exists u, s_save_external veq md5 e c (fr_xsrcs fr) (fr_xdsts fr) q3 = (inr u, q');
    rc_wf : wf q1 /\ wf q2 /\ wf q3;
    rc_frame : frame_inv e q1 fr;
    rc_mine : forall g d s, q_funs q1 !! g = Some (i, d, s) -> g = rq_fun (fr_req fr);
    rc_row : forall j b r', (c, j, b, r') ∈ q_calls q2 -> exists deps, q_funs q2 !! rq_fun (fr_req fr) = Some (j, fr_digest fr, deps);
    rc_puts : puts md5 F e c q2 q3 /\ puts md5 F e c q3 q'
  }.
  Lemma cache0_recording lg e fr deps r q u q' :
    fs_faithful F e -> db_inv lg q -> frame_inv e q fr -> cached e fr deps r q = (inr u, q') ->
    exists i c qd q1 q2 q3, recording lg e fr deps r q q' i c qd q1 q2 q3.
  Proof.
    intros Hfs Hdb Hfr. unfold cache0. unfold bind at 1.
    set (fn := rq_fun (fr_req fr)).
    match goal with |- match ?m q with _ => _ end = _ -> _ => set (stage1 := m) end.
    destruct (stage1 q) as [[x|fid] q1] eqn:Es1; [done|].
    assert (forall i, fid = Some i -> exists qd, db_inv lg q1 /\ agrees md5 e q q1 /\ i < q_nfun q1 /\
              (forall g d s, q_funs q1 !! g = Some (i, d, s) -> g = fn /\ d = fr_digest fr) /\
              (forall c, pr_call_id (fr_prep fr) = Some c -> pr_fun_id (fr_prep fr) = Some i) /\
              ((pr_fun_dirty (fr_prep fr) = true /\
                ((pr_fun_id (fr_prep fr) = None /\ qd = q) \/ qd = snd (s_delete_function fn q)) /\
                s_save_function None fn (fr_digest fr) deps qd = (inr i, q1)) \/
              (pr_fun_dirty (fr_prep fr) = false /\ pr_fun_id (fr_prep fr) = Some i /\ qd = q /\ q1 = q))) as Hs1.
    { intros i ->. unfold stage1 in Es1. destruct (pr_fun_dirty (fr_prep fr)) eqn:Efd.
      - unfold bind in Es1.
        set (del := match pr_fun_id (fr_prep fr) with Some _ => delete_function core0 fn | None => ret true end) in Es1.
        destruct (del q) as [[?|b] qd] eqn:Ed; [done|].
        assert (db_inv lg qd /\ agrees md5 e q qd /\
                ((pr_fun_id (fr_prep fr) = None /\ qd = q) \/ qd = snd (s_delete_function fn q))) as (Hdbd & Hagd & Hqd).
        { unfold del in Ed. destruct (pr_fun_id (fr_prep fr)) as [x|] eqn:Eid.
          - cbn in Ed. pose proof (delete_function_inv veq md5 F lg e fn q Hdb) as (H1 & H2 & H3).
            injection Ed as _ <-. split_and!; [done|done|]. by right.
          - injection Ed as _ <-. split_and!; [done|apply agrees_refl|]. by left. }
        cbn [save_function sql_core0] in Es1.
        destruct (s_save_function None fn (fr_digest fr) deps qd) as [[?|i1] q2] eqn:Es2; [done|].
        injection Es1 as -> <-. exists qd.
        pose proof Es2 as Es2'.
        apply (save_function_inv veq md5 F lg e) in Es2 as (H1 & H2 & H3 & H4); [|done].
        split_and!; [done|by eapply agrees_trans|done| | |left; by split_and!].
        + intros g d s Hg. assert (g = fn) as -> by (eapply wf_ginj; [apply H1|exact Hg|exact H3]).
          split; [done|]. rewrite H3 in Hg. by injection Hg.
        + intros c Hc. destruct (fi_cid _ _ _ _ _ Hfr _ Hc). congruence.
      - injection Es1 as Hid <-. destruct (fi_clean _ _ _ _ _ Hfr Efd) as (i' & Hi' & Hlt & Hu).
        rewrite Hi' in Hid. injection Hid as ->. exists q. split_and!; [done|apply agrees_refl|done|done|done|]. right. by split_and!. }
    destruct fid as [i|]; [|done]. destruct (Hs1 i eq_refl) as (qd & Hdb1 & Hag1 & Hlt & Hu & Hfid & Hst). clear Hs1 Es1 stage1.
    pose proof (frame_inv_agrees _ _ _ _ _ _ Hag1 Hfr) as Hfr1.
    unfold bind at 1. cbn [save_call sql_core0].
    destruct (s_save_call (pr_call_id (fr_prep fr)) i (rq_bound (fr_req fr)) r q1) as [[x|c] q2] eqn:Es2; [done|].
    pose proof Es2 as Es2'.
    apply (save_call_inv veq md5 F Hveq lg e fr) in Es2 as (Hag2 & Hdb2 & Hrow & Hleft); [|done|done|done|done].
    unfold bind at 1.
    destruct (save_call_files core0 c (pr_files (fr_prep fr)) q2) as [[x|u3] q3] eqn:Es3; [done|].
    pose proof Es3 as Es3'.
    pose proof (frame_inv_agrees _ _ _ _ _ _ Hag2 Hfr1) as Hfr2.
    apply (save_call_files_puts veq md5 F e) in Es3 as (Hp3 & Hds).
    2:{ apply Hdb2. }
    2:{ intros j f d Hin. destruct (fi_files _ _ _ _ _ Hfr2 _ _ _ Hin) as (Hf & Hd & Hown). split; [done|].
        by rewrite <- (fi_stable _ _ _ _ _ Hfr). }
    pose proof (pu_wf _ _ _ _ _ _ Hp3 (di_wf _ _ _ _ _ _ Hdb2)) as Hw3.
    intros Hx. pose proof Hx as Hx'. apply (save_external_puts veq md5 F) in Hx' as Hp4; [|done|done].
    exists i, c, qd, q1, q2, q3. split.
    - exact Hst.
    - exact Es2'.
    - by exists u3.
    - by exists u.
    - split_and!; [apply Hdb1|apply Hdb2|exact Hw3].
    - exact Hfr1.
    - intros g d s Hg. by destruct (Hu _ _ _ Hg).
    - intros j b r' Hin. destruct (Hrow _ _ _ Hin) as (_ & _ & dp & Hdp). eauto.
    - done.
  Qed.

  Lemma cache0_pinv lg e fr deps r ok q u q' :
    fs_faithful F e -> db_inv lg q -> frame_inv e q fr -> pinv lg q -> cached e fr deps r q = (inr u, q') ->
    pinv (Run (fr_req fr) (fr_digest fr) r (fr_begin fr) e (fr_xsrcs fr) (fr_xdsts fr) ok :: lg) q'.
  Proof.
    intros Hfs Hdb Hfr Hp H. set (ru := Run _ _ _ _ _ _ _ _).
    apply (cache0_recording lg) in H as (i & c & qd & q1 & q2 & q3 & []); [|done|done|done].
    apply (pinv_log lg ru) in Hp.
    assert (pinv (ru :: lg) q1) as Hp1.
    { destruct rc_fun0 as [(_ & Hqd & Hs)|(_ & _ & _ & ->)]; [|done].
      eapply save_function_pinv; [|exact Hs]. destruct Hqd as [[_ ->]| ->]; [done|]. by apply delete_function_pinv. }
    apply (save_call_pinv (ru :: lg)) in rc_call0 as Hp2; [|done].
    destruct rc_files0 as [u3 E3]. apply (save_call_files_pinv (ru :: lg)) in E3; [|done].
    destruct rc_ext0 as [u4 E4]. apply (save_external_pinv (ru :: lg) ru) in E4; [done|done|by left| |done].
    destruct rc_puts0 as [Hpu _]. intros j b r'. rewrite (pu_calls _ _ _ _ _ _ Hpu), (pu_funs _ _ _ _ _ _ Hpu).
    intros Hin. destruct (rc_row0 _ _ _ Hin) as [dp Hdp]. eauto.
  Qed.

  (** The call of [fn], while another function is recorded. *)
  Context (fn : name) (bd : V) (f : name) (d0 : digest).
  Notation dep := (dep (V := V) (R := R) veq fn bd f d0).
  Notation tied := (tied (V := V) (R := R) f d0).
  Notation unchanged := (unchanged md5 f d0).
  Record calmly (T : Prop) q q' : Prop := Calmly {
    cl_fun : q_funs q' !! fn = q_funs q !! fn;
    cl_search : forall i d s, q_funs q !! fn = Some (i, d, s) ->
      fst <$> search_row veq i bd (q_calls q') = fst <$> search_row veq i bd (q_calls q);
    cl_tied : T -> forall i d s c r, q_funs q !! fn = Some (i, d, s) -> search_row veq i bd (q_calls q) = Some (c, r) -> tied c q -> tied c q'
  }.
  Lemma calmly_refl T q : calmly T q q.
  Proof. by split. Qed.
  Lemma calmly_trans T q1 q2 q3 : calmly T q1 q2 -> calmly T q2 q3 -> calmly T q1 q3.
  Proof.
    intros [A1 A2 A3] [B1 B2 B3]. split.
    - congruence.
    - intros i d s H. rewrite (B2 i d s), (A2 i d s); [done..|]. by rewrite A1.
    - intros HT i d s c r H1 H2 H3. pose proof (A2 _ _ _ H1) as Hs. rewrite H2 in Hs.
      destruct (search_row veq i bd (q_calls q2)) as [[c2 r2]|] eqn:E2; [|done]. injection Hs as ->.
      apply (B3 HT i d s c r2); [by rewrite A1|done|]. by eapply A3.
  Qed.
  Lemma calmly_dep (T : Prop) q q' : T -> calmly T q q' -> dep q -> dep q'.
  Proof.
    intros HT [A1 A2 A3] Hd i d s c r H1 H2. rewrite A1 in H1. pose proof (A2 _ _ _ H1) as Hs. rewrite H2 in Hs.
    destruct (search_row veq i bd (q_calls q)) as [[c2 r2]|] eqn:E2; [|done]. injection Hs as <-. eauto.
  Qed.
  (** Only the tables of files change. *)
  Lemma calmly_files (T : Prop) q q' : q_funs q' = q_funs q -> q_calls q' = q_calls q ->
    (T -> forall i d s c r, q_funs q !! fn = Some (i, d, s) -> search_row veq i bd (q_calls q) = Some (c, r) -> tied c q -> tied c q') ->
    calmly T q q'.
  Proof. intros E1 E2 H. split; [by rewrite E1|by intros; rewrite E2|done]. Qed.

  Lemma delete_function_calmly T g q : wf q -> g <> fn -> calmly T q (snd (s_delete_function g q)).
  Proof.
    intros Hw Hn. unfold s_delete_function; simpl. destruct (q_funs q !! g) as [[[i d] s]|] eqn:Eg; [|apply calmly_refl].
    assert (forall i' d' s', q_funs q !! fn = Some (i', d', s') -> i' <> i) as Hi.
    { intros i' d' s' H ->. apply Hn. by eapply (wf_ginj _ _ _ Hw). }
    assert (forall x, x ∈ q_calls q -> call_fun x <> i ->
      existsb (fun y => Nat.eqb (call_id y) (call_id x) && Nat.eqb (call_fun y) i) (q_calls q) = false) as Hlive.
    { intros x Hx Hxi. apply not_true_iff_false. intros (y & Hy & [H1%Nat.eqb_eq H2%Nat.eqb_eq]%andb_prop)%existsb_exists.
      apply elem_of_list_In in Hy. by rewrite (wf_cuniq _ _ _ Hw _ _ Hy Hx H1) in H2. }
    split; simpl.
    - by rewrite lookup_delete_ne.
    - intros i' d' s' H. rewrite search_filter; [done|]. intros x Hx Hxi. apply Hlive; [done|]. rewrite Hxi. eauto.
    - intros _ i' d' s' c r H1 H2 (j & m & H3 & H4 & H5).
      apply search_row_spec in H2 as (b' & Hin & _).
      pose proof (Hlive _ Hin (Hi _ _ _ H1)) as Hl. exists j, m. simpl. split; [done|]. split.
      + by apply elem_filter_xs.
      + by apply map_filter_lookup_Some.
  Qed.
  Lemma save_function_calmly T g fd deps q i q' : g <> fn ->
    s_save_function (V := V) (R := R) None g fd deps q = (inr i, q') -> calmly T q q'.
  Proof.
    intros Hn. unfold s_save_function. destruct (q_funs q !! g) eqn:Eg; intros [= <- <-].
    split; simpl; [by rewrite lookup_insert_ne|done|done].
  Qed.
  Lemma save_call_calmly T cid i b r q c q' : (forall d s, q_funs q !! fn <> Some (i, d, s)) ->
    s_save_call (V := V) cid i b r q = (inr c, q') -> calmly T q q'.
  Proof.
    intros Hi. unfold s_save_call. destruct cid as [c0|].
    - intros [= <- <-]. split; simpl; [done| |done]. intros. apply search_update.
    - destruct (has_fun q i); intros [= <- <-]. split; simpl; [done| |done].
      intros i' d s H. rewrite search_app. destruct (search_row veq i' bd (q_calls q)); [done|].
      destruct (Nat.eqb_spec i i') as [<-|]; [|done]. by destruct (Hi d s).
  Qed.
  Definition notmine (c : nat) q : Prop :=
    forall i d s c' r, q_funs q !! fn = Some (i, d, s) -> search_row veq i bd (q_calls q) = Some (c', r) -> c' <> c.
  Lemma notmine_calmly T c q q' : calmly T q q' -> notmine c q -> notmine c q'.
  Proof.
    intros [A1 A2 _] Hn i d s c' r H1 H2. rewrite A1 in H1. pose proof (A2 _ _ _ H1) as Hs. rewrite H2 in Hs.
    destruct (search_row veq i bd (q_calls q)) as [[c2 r2]|] eqn:E2; [|done]. injection Hs as <-. eauto.
  Qed.
  Lemma save_call_files_calmly T c ds q u q' : notmine c q ->
    save_call_files core0 c ds q = (inr u, q') -> calmly T q q'.
  Proof.
    revert q. induction ds as [|[[j g] d] ds IH]; intros q Hn H; simpl in H; [injection H as _ <-; apply calmly_refl|].
    unfold bind in H. cbn [save_call_file sql_core0] in H.
    destruct (s_save_call_file c j d q) as [[x|u1] q1] eqn:E1; [done|].
    assert (calmly T q q1) as Hc.
    { apply save_call_file_parts in E1 as (_ & _ & ->). apply calmly_files; [done|done|].
      intros _ i d' s c' r H1 H2 (j' & m & H3 & H4 & H5). exists j', m. simpl. rewrite lookup_insert_ne; [done|].
      intros [= <- <-]. by apply (Hn _ _ _ _ _ H1 H2). }
    eapply calmly_trans; [exact Hc|]. apply (IH q1); [|done]. by eapply notmine_calmly.
  Qed.
  Lemma check_all_calmly (T : Prop) e c fs q l q' : fs_faithful F e -> wf q -> (T -> f ∈ fs -> unchanged e) ->
    check_all veq md5 e c fs q = (inr l, q') -> calmly T q q'.
  Proof.
    intros Hfs Hw Hu H. pose proof H as Hs. apply (check_all_spec veq md5 F) in Hs as [Hsh _]; [|done|done].
    apply calmly_files; [apply Hsh|apply Hsh|]. intros HT i d s c' r _ _ Ht.
    assert (keeps (fun q => wf q /\ tied c' q) (check_all veq md5 e c fs)) as Hk.
    { apply check_all_keeps. intros g Hg qa ra qb [Ha1 Ha2] Ha. split.
      - by apply (add_file_spec veq md5 F) in Ha as [Hsha _]; [apply Hsha| |].
      - eapply (add_file_tied veq md5 F); [done|exact Ha1| |exact Ha2|exact Ha]. intros ->. auto. }
    by apply (Hk q (inr l) q').
  Qed.
  Lemma save_external_calmly (T : Prop) e c xs xd q u q' : fs_faithful F e -> wf q -> notmine c q ->
    (T -> f ∈ xs \/ f ∈ xd -> unchanged e) ->
    s_save_external veq md5 e c xs xd q = (inr u, q') -> calmly T q q'.
  Proof.
    intros Hfs Hw Hn Hu H. apply save_external_split in H as (ss & q2 & u3 & q3 & u4 & q4 & ds & q5 & l & E2 & E3 & E4 & E5 & E6).
    set (q1 := Sq _ _ _ _ _ _ _ _ _) in E2.
    assert (wf q1) as Hw1 by (destruct Hw; by split).
    assert (calmly T q q1) as C1.
    { apply calmly_files; [done|done|]. intros _ i d s c' r H1 H2 (j & m & H3 & H4 & H5). exists j, m. simpl.
      split; [done|]. split; [|done]. apply elem_filter_xs. split; [|done]. simpl. by apply (Hn _ _ _ _ _ H1 H2). }
    pose proof E2 as E2s. apply (check_all_spec veq md5 F) in E2s as [Hsh2 Hss]; [|done|done].
    pose proof (sh_wf _ _ _ _ Hsh2 Hw1) as Hw2.
    apply (check_all_calmly T) in E2 as C2; [|done|done|].
    2:{ intros HT Hin. rewrite elem_of_remove_dups in Hin. auto. }
    pose proof (insert_ext_parts _ _ _ _ _ _ E3) as (A1 & A2 & A3 & A4 & A5).
    assert (calmly T q2 q3) as C3.
    { apply calmly_files; [done|done|]. intros _ i d s c' r _ _ (j & m & H3 & H4 & H5). exists j, m.
      rewrite A3, A4, A5. auto. }
    pose proof (insert_ext_puts md5 F e _ _ _ _ _ _ E3) as P3. pose proof (pu_wf _ _ _ _ _ _ P3 Hw2) as Hw3.
    pose proof (insert_files_parts _ _ _ _ _ E4) as (B1 & B2 & B3 & B4 & B5 & _).
    pose proof (notmine_calmly _ _ _ _ (calmly_trans _ _ _ _ C1 (calmly_trans _ _ _ _ C2 C3)) Hn) as Hn3.
    assert (calmly T q3 q4) as C4.
    { apply calmly_files; [done|done|]. intros _ i d s c' r H1 H2 (j & m & H3 & H4 & H5). exists j, m.
      rewrite B3, B4, B5; [done|]. simpl. by apply (Hn3 _ _ _ _ _ H1 H2). }
    assert (wf q4) as Hw4.
    { apply (insert_files_puts md5 F e) in E4 as P4; [by apply P4|done|]. intros b j d Hin.
      destruct (Hss _ _ _ Hin) as (h & ? & ?). exists h. split; [|done]. by eapply owns_puts. }
    apply (check_all_calmly T) in E5 as C5; [|done|done|].
    2:{ intros HT Hin. rewrite elem_of_remove_dups in Hin. auto. }
    pose proof (insert_ext_parts _ _ _ _ _ _ E6) as (D1 & D2 & D3 & D4 & D5).
    assert (calmly T q5 q') as C6.
    { apply calmly_files; [done|done|]. intros _ i d s c' r _ _ (j & m & H3 & H4 & H5). exists j, m.
      rewrite D3, D4, D5. auto. }
    eapply calmly_trans; [exact C1|]. eapply calmly_trans; [exact C2|]. eapply calmly_trans; [exact C3|].
    eapply calmly_trans; [exact C4|]. by eapply calmly_trans.
  Qed.
  Lemma cache0_calmly (T : Prop) lg e fr deps r q u q' :
    fs_faithful F e -> db_inv lg q -> frame_inv e q fr -> pinv lg q -> rq_fun (fr_req fr) <> fn ->
    (T -> unchanged e \/ (f ∉ fr_xsrcs fr /\ f ∉ fr_xdsts fr)) -> cached e fr deps r q = (inr u, q') ->
    calmly T q q'.
  Proof.
    intros Hfs Hdb Hfr Hp Hn Hu H.
    apply (cache0_recording lg) in H as (i & c & qd & q1 & q2 & q3 & []); [|done|done|done].
    assert (calmly T q q1) as C1.
    { destruct rc_fun0 as [(_ & Hqd & Hs)|(_ & _ & _ & ->)]; [|apply calmly_refl].
      eapply calmly_trans; [|by eapply save_function_calmly].
      destruct Hqd as [[_ ->]| ->]; [apply calmly_refl|]. apply delete_function_calmly; [apply Hdb|done]. }
    assert (calmly T q1 q2) as C2.
    { eapply save_call_calmly; [|exact rc_call0]. intros d s Hf. by apply rc_mine0 in Hf. }
    assert (notmine c q2) as Hnm.
    { intros j d s c' r' H1 H2 ->. apply search_row_spec in H2 as (b' & Hin & _).
      destruct (rc_row0 _ _ _ Hin) as [dp Hdp]. apply Hn. by eapply (wf_ginj _ _ _ (proj1 (proj2 rc_wf0))). }
    destruct rc_files0 as [u3 E3]. apply (save_call_files_calmly T) in E3 as C3; [|done].
    destruct rc_ext0 as [u4 E4]. apply (save_external_calmly T) in E4 as C4; [|done|apply rc_wf0|by eapply notmine_calmly|].
    2:{ intros HT Hor. destruct (Hu HT) as [?|[? ?]]; [done|]. by destruct Hor. }
    eapply calmly_trans; [exact C1|]. eapply calmly_trans; [exact C2|]. by eapply calmly_trans.
  Qed.

  (** Recording the call of [fn] itself. *)
  Lemma cache0_mine lg e fr deps r q u q' :
    fs_faithful F e -> db_inv lg q -> frame_inv e q fr -> pinv lg q ->
    rq_fun (fr_req fr) = fn -> rq_bound (fr_req fr) = bd ->
    (pr_fun_dirty (fr_prep fr) = false -> forall i, pr_fun_id (fr_prep fr) = Some i -> (exists d s, q_funs q !! fn = Some (i, d, s)) /\
       pr_call_id (fr_prep fr) = fst <$> search_row veq i bd (q_calls q)) ->
    f ∈ fr_xsrcs fr -> digest_at e f = Some d0 ->
    cached e fr deps r q = (inr u, q') -> dep q'.
  Proof.
    intros Hfs Hdb Hfr Hp Hfn Hbd Hprep Hf Hd H.
    apply (cache0_recording lg) in H as (i & c & qd & q1 & q2 & q3 & []); [|done|done|done].
    destruct Hveq as (Vr & _ & _). rewrite Hfn, Hbd in *.
    assert ((exists d s, q_funs q2 !! fn = Some (i, d, s)) /\ fst <$> search_row veq i bd (q_calls q2) = Some c) as [(dg & s & Hrow) Hsearch].
    { destruct rc_fun0 as [(Hdirty & Hqd & Hs)|(Hcl & Hid & _ & ->)].
      - assert (pr_call_id (fr_prep fr) = None) as Hcid.
        { destruct (pr_call_id (fr_prep fr)) as [c0|] eqn:E; [|done]. destruct (fi_cid _ _ _ _ _ Hfr _ E). congruence. }
        rewrite Hcid in rc_call0.
        assert (pinv lg qd) as Hpd. { destruct Hqd as [[_ ->]| ->]; [done|]. by apply delete_function_pinv. }
        unfold s_save_function in Hs. destruct (q_funs qd !! fn) eqn:Eqd; [done|]. injection Hs as <- <-.
        unfold s_save_call in rc_call0. destruct (has_fun _ _); [|done]. injection rc_call0 as <- <-. simpl. split; [rewrite lookup_insert; eauto|].
        rewrite search_app, search_none.
        + by rewrite Nat.eqb_refl, Vr.
        + intros [[[c1 i1] b1] r1] Hin Hi. cbn in Hi. subst i1. destruct (p_fun _ _ _ _ Hpd _ _ _ _ Hin) as (g & dg & s & Hg).
          apply (wf_glt _ _ _ (p_wf _ _ _ _ Hpd)) in Hg. lia.
      - destruct (Hprep Hcl i Hid) as [(dg & s & Hrow) Hcid].
        unfold s_save_call in rc_call0. destruct (pr_call_id (fr_prep fr)) as [c0|] eqn:Ecid.
        + injection rc_call0 as <- <-. cbn [q_funs q_calls]. split; [eauto|]. by rewrite search_update, <- Hcid.
        + destruct (has_fun _ _); [|done]. injection rc_call0 as <- <-. simpl. split; [eauto|].
          rewrite search_app. destruct (search_row veq i bd (q_calls q)); [done|]. by rewrite Nat.eqb_refl, Vr. }
    destruct rc_ext0 as [u4 E4]. destruct rc_puts0 as [P3 P4]. destruct rc_wf0 as (_ & Hw2 & Hw3).
    assert (tied c q') as Ht.
    { apply save_external_split in E4 as (ss & qa & ua & qb & ub & qc & ds & qe & l & E2 & E3 & E4 & E5 & E6).
      set (q0 := Sq _ _ _ _ _ _ _ _ _) in E2.
      assert (wf q0) as Hw0 by (destruct Hw3; by split).
      pose proof (check_all_found _ _ _ _ _ _ Hfs Hw0 (NoDup_remove_dups _) E2) as [Hss Hfound].
      destruct (Hfound f) as (b & j & m & d & Hin & Hrowf & Hdf & Hcf); [by apply elem_of_remove_dups|].
      rewrite Hd in Hdf. injection Hdf as <-.
      apply (check_all_spec veq md5 F) in E2 as [Hsh2 Hss2]; [|done|done].
      pose proof (sh_wf _ _ _ _ Hsh2 Hw0) as Hwa.
      pose proof (insert_ext_parts _ _ _ _ _ _ E3) as (A1 & A2 & A3 & A4 & A5).
      pose proof (insert_ext_puts md5 F e _ _ _ _ _ _ E3) as Pa. pose proof (pu_wf _ _ _ _ _ _ Pa Hwa) as Hwb.
      pose proof (insert_files_parts _ _ _ _ _ E4) as (B1 & B2 & B3 & B4 & B5 & B6).
      assert (wf qc) as Hwc.
      { apply (insert_files_puts md5 F e) in E4 as P; [by apply P|done|]. intros b' j' d' Hin'.
        destruct (Hss2 _ _ _ Hin') as (h & ? & ?). exists h. split; [|done]. by eapply owns_puts. }
      assert (tied c qc) as Htc.
      { exists j, m. rewrite B3, A3, B4. split; [done|]. split.
        - apply A5. right. split; [done|]. exists j. split; [done|]. apply elem_of_list_In, in_map_iff. exists (b, j, d0).
          split; [done|]. by apply elem_of_list_In.
        - apply B6.
          + intros b' d' Hin'. destruct (Hss _ _ _ Hin') as (h & _ & Ho & Hh). rewrite (proj2 Ho _ _ _ Hrowf) in Hd. congruence.
          + left. exists b. split; [done|]. by rewrite A4. }
      assert (tied c qe) as Hte.
      { assert (keeps (fun q => wf q /\ tied c q) (check_all veq md5 e c (remove_dups (fr_xdsts fr)))) as Hk.
        - apply check_all_keeps. intros g Hg qx rx qy [Ha1 Ha2] Ha. split.
          + by apply (add_file_spec veq md5 F) in Ha as [Hsha _]; [apply Hsha| |].
          + eapply (add_file_tied veq md5 F); [done|exact Ha1| |exact Ha2|exact Ha].
            intros _ d2 Hd2. congruence.
        - by apply (Hk qc (inr ds) qe). }
      pose proof (insert_ext_parts _ _ _ _ _ _ E6) as (D1 & D2 & D3 & D4 & D5).
      destruct Hte as (j2 & m2 & H1 & H2 & H3). exists j2, m2. rewrite D3, D4, D5. auto. }
    intros i' d' s' c' r'. rewrite (pu_funs _ _ _ _ _ _ P4), (pu_funs _ _ _ _ _ _ P3), (pu_calls _ _ _ _ _ _ P4), (pu_calls _ _ _ _ _ _ P3).
    rewrite Hrow. intros [= <- <- <-] Hs. rewrite Hs in Hsearch. injection Hsearch as ->. done.
  Qed.

  (** Preparing a call, again. *)
  Lemma prepare_cid e g b srcs q p q' : prepare md5 core0 e g b srcs q = (inr p, q') ->
    pr_fun_dirty p = false -> forall i, pr_fun_id p = Some i -> (exists d s, q_funs q !! g = Some (i, d, s)) /\
      pr_call_id p = fst <$> search_row veq i b (q_calls q).
  Proof.
    intros H. unfold prepare, bind in H.
    destruct (check_function core0 (e_limit e) e g q) as [r1 q1] eqn:E1.
    pose proof (check_function_pure veq _ _ _ _ _ _ E1) as ->.
    destruct r1 as [x|[fd fid]]; [done|].
    pose proof (check_function_spec veq _ _ _ _ _ _ _ E1) as (d & Hd & Hclean).
    destruct fd.
    { intros Hfd. exfalso. cbn in H. destruct (check_call_files md5 core0 e None srcs q) as [[x|files] q2]; [done|].
      injection H as <- <-. done. }
    destruct (Hclean eq_refl) as (i0 & deps & -> & Hrow). cbn in H.
    intros _ i. destruct (search_row veq i0 b (q_calls q)) as [[c r0]|] eqn:Es.
    - destruct (check_call_files md5 core0 e (Some c) srcs q) as [[x|files] q2]; [done|].
      unfold check_external_files, bind in H. cbn in H.
      destruct (check_external_loop md5 core0 e c _ q2) as [[x|xf] q3]; [done|]. cbn in H. injection H as <- <-.
      cbn. intros [= <-]. split; [eauto|]. by rewrite Es.
    - destruct (check_call_files md5 core0 e None srcs q) as [[x|files] q2]; [done|]. cbn in H. injection H as <- <-.
      cbn. intros [= <-]. split; [eauto|]. by rewrite Es.
  Qed.
  (** A changed file on which the call depends is noticed. *)
  Lemma check_call_file_changed e c q d r q' : fs_faithful F e -> wf q -> tied c q ->
    digest_at e f = Some d -> d <> d0 -> check_call_file md5 core0 e (Some c) f q = (r, q') ->
    exists j d', r = inr (true, j, d').
  Proof.
    intros Hfs Hw (j & m & H1 & _ & _) Hd Hn H. unfold check_call_file, bind in H.
    destruct (add_file md5 core0 e f q) as [ra qa] eqn:Ea.
    assert (exists i, ra = inr (true, i, d)) as [i ->].
    { unfold add_file, bind, ret, raise in Ea. cbn [find_file sql_core0 s_find_file] in Ea. unfold s_find_file in Ea.
      unfold DbSpec.digest_at in Hd. destruct (e_fs e !! f) as [[m' ct]|] eqn:Ef; [|done]. injection Hd as Hd. simpl in Hd.
      rewrite H1 in Ea. cbn in Ea. pose proof (Hfs _ _ _ Ef) as ->.
      destruct (Z.eqb m' m && Z.ltb one_second (e_now e - m'))%bool eqn:Esh; cbn in Ea.
      - apply andb_prop in Esh as [->%Z.eqb_eq _]. pose proof (wf_files _ _ _ Hw _ _ _ _ H1). congruence.
      - rewrite Hd in Ea. destruct (String.eqb_spec d d0) as [|_]; [done|]. cbn in Ea. rewrite H1 in Ea. simpl in Ea.
        unfold s_save_file in Ea. simpl in Ea. rewrite lookup_delete in Ea. injection Ea as Ea _. rewrite <- Ea. eauto. }
    cbn in H. destruct (q_cf qa !! (c, i)) as [o|]; [destruct (String.eqb d o)|]; injection H as <- <-; eauto.
  Qed.
  Lemma check_call_files_changed e c fs q d r q' : fs_faithful F e -> wf q -> tied c q ->
    digest_at e f = Some d -> d <> d0 -> check_call_files md5 core0 e (Some c) fs q = (inr r, q') ->
    if decide (f ∈ fs) then r <> [] else tied c q'.
  Proof.
    intros Hfs Hw Ht Hd Hn. revert q r q' Hw Ht. induction fs as [|g fs IH]; intros q r q' Hw Ht H.
    - injection H as <- <-. destruct (decide _) as [?%elem_of_nil|]; done.
    - simpl in H. unfold bind in H.
      destruct (check_call_file md5 core0 e (Some c) g q) as [[x|[[b j] dg]] q1] eqn:E1; [done|].
      destruct (check_call_files md5 core0 e (Some c) fs q1) as [[x|rest] q2] eqn:E2; [done|]. injection H as <- <-.
      pose proof E1 as E1s. apply (check_call_file_spec veq md5 F) in E1s as [Hsh _]; [|done|done].
      destruct (decide (g = f)) as [->|Hgf].
      + rewrite decide_True by by left. destruct (check_call_file_changed _ _ _ _ _ _ Hfs Hw Ht Hd Hn E1) as (j' & d' & [= -> -> ->]). done.
      + assert (tied c q1) as Ht1.
        { unfold check_call_file, bind in E1. destruct (add_file md5 core0 e g q) as [[x|[[b1 i1] d1]] qa] eqn:Ea; [done|].
          eapply (add_file_tied veq md5 F) in Ea; [|done|done| |exact Ht]; [|by intros ->].
          cbn in E1. destruct (q_cf qa !! (c, i1)) as [o|]; [destruct (String.eqb d1 o)|]; by injection E1 as <- <- <- <-. }
        specialize (IH _ _ _ (sh_wf _ _ _ _ Hsh Hw) Ht1 E2).
        destruct (decide (f ∈ g :: fs)) as [Hin|Hin]; destruct (decide (f ∈ fs)) as [Hin'|Hin']; try done.
        * destruct b; [done|exact IH].
        * apply elem_of_cons in Hin as [->|?]; done.
        * exfalso. apply Hin. by right.
  Qed.
  Lemma check_external_loop_changed e c fs q d r q' : fs_faithful F e -> wf q -> tied c q ->
    digest_at e f = Some d -> d <> d0 -> f ∈ fs -> check_external_loop md5 core0 e c fs q = (inr r, q') -> r <> [].
  Proof.
    intros Hfs Hw Ht Hd Hn. revert q r q' Hw Ht. induction fs as [|g fs IH]; intros q r q' Hw Ht Hin H; [by apply elem_of_nil in Hin|].
    simpl in H. unfold bind, try_os in H.
    destruct (check_call_file md5 core0 e (Some c) g q) as [r1 q1] eqn:E1.
    pose proof E1 as E1s. apply (check_call_file_spec veq md5 F) in E1s as [Hsh Hr1]; [|done|done].
    destruct (decide (g = f)) as [->|Hgf].
    - destruct (check_call_file_changed _ _ _ _ _ _ Hfs Hw Ht Hd Hn E1) as (j' & d' & ->).
      destruct (check_external_loop md5 core0 e c fs q1) as [[x|rest] q2]; [done|]. by injection H as <- <-.
    - assert (tied c q1) as Ht1.
      { unfold check_call_file, bind in E1. destruct (add_file md5 core0 e g q) as [ra qa] eqn:Ea.
        eapply (add_file_tied veq md5 F) in Ea; [|done|done| |exact Ht]; [|by intros ->].
        destruct ra as [x|[[b1 i1] d1]]; [by injection E1 as <- <-|].
        cbn in E1. destruct (q_cf qa !! (c, i1)) as [o|]; [destruct (String.eqb d1 o)|]; by injection E1 as <- <-. }
      assert (f ∈ fs) as Hin' by (apply elem_of_cons in Hin as [->|?]; done).
      pose proof (sh_wf _ _ _ _ Hsh Hw) as Hw1.
      destruct (check_external_loop md5 core0 e c fs q1) as [r2 q2] eqn:E2.
      destruct r1 as [x|[[b j] dg]].
      + destruct Hr1 as [-> _]. cbn in H. rewrite E2 in H. destruct r2 as [x|rest]; [done|].
        injection H as <- <-. by eapply IH.
      + cbn in H. rewrite E2 in H. destruct r2 as [x|rest]; [done|].
        injection H as <- <-. destruct b; [done|by eapply IH].
  Qed.
  Lemma prepare_changed e srcs q d p q' : fs_faithful F e -> wf q -> dep q ->
    digest_at e f = Some d -> d <> d0 -> prepare md5 core0 e fn bd srcs q = (inr p, q') ->
    pr_fun_dirty p = false -> pr_call_dirty p = false -> pr_files p <> [] \/ pr_xfiles p <> [].
  Proof.
    intros Hfs Hw Hdep Hd Hn H. unfold prepare, bind in H.
    destruct (check_function core0 (e_limit e) e fn q) as [r1 q1] eqn:E1.
    pose proof (check_function_pure veq _ _ _ _ _ _ E1) as ->.
    destruct r1 as [x|[fd fid]]; [done|].
    pose proof (check_function_spec veq _ _ _ _ _ _ _ E1) as (dg & Hdg & Hclean).
    destruct fd.
    { intros Hfd. exfalso. cbn in H. destruct (check_call_files md5 core0 e None srcs q) as [[x|files] q2]; [done|].
      injection H as <- <-. done. }
    destruct (Hclean eq_refl) as (i0 & deps & -> & Hrow). cbn in H. intros _.
    destruct (search_row veq i0 bd (q_calls q)) as [[c r0]|] eqn:Es.
    - pose proof (Hdep _ _ _ _ _ Hrow Es) as Ht.
      destruct (check_call_files md5 core0 e (Some c) srcs q) as [[x|files] q2] eqn:E2; [done|].
      pose proof (check_call_files_changed _ _ _ _ _ _ _ Hfs Hw Ht Hd Hn E2) as Hch.
      pose proof (check_call_files_spec veq md5 F _ _ _ _ _ _ Hfs Hw E2) as [Hsh2 _].
      unfold check_external_files, bind in H. cbn in H.
      destruct (check_external_loop md5 core0 e c _ q2) as [[x|xf] q3] eqn:E3; [done|]. cbn in H. injection H as <- <-.
      cbn. intros _. destruct (decide (f ∈ srcs)); [by left|right].
      eapply check_external_loop_changed; [done|by apply Hsh2|exact Hch|done|done| |exact E3].
      destruct Hch as (j & m & H1 & H2 & _). apply names_of_spec. eauto 10.
    - destruct (check_call_files md5 core0 e None srcs q) as [[x|files] q2]; [done|]. cbn in H. injection H as <- <-. done.
  Qed.
End Kept.
