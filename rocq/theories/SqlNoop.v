(** A completed call whose inputs and outputs did not change is a hit, with the SQLite backend. *)
From stdpp Require Import base list strings gmap.
From Coq Require Import ZArith Lia.
From Verif Require Import PyMonad DbModel DbSpec DbHistory SqlBackend SqlSpec SqlLift SqlFacts SqlInv SqlExt SqlKept SqlChange SqlRecords.

Section Noop.
  Context {V R : Type} (veq : V -> V -> bool) (md5 : content -> digest).
  Context (F : name -> Z -> content).
  Notation core0 := (sql_core0 (R := R) veq).
  Notation BK := (sql_backend (V := V) (R := R) veq md5).
  Notation sq := (sq V R).
  Notation frame := (frame V R nat nat nat).
  Notation sys := (sys V R (conn V R) nat nat nat).
  Notation op := (op V R).
  Notation step := (step md5 BK).
  Notation runs := (runs md5 BK).
  Notation digest_at := (digest_at md5).
  Notation wf := (wf (V := V) (R := R) md5 F).
  Notation cur s := (k_cur (s_db s)).
  Notation base s := (k_base (s_db s)).
  Implicit Types q : sq.

  (** The parts of preparing a call. *)
  Lemma prepare_split e fn b srcs q p q1 : prepare md5 core0 e fn b srcs q = (inr p, q1) ->
    check_function core0 (e_limit e) e fn q = (inr (pr_fun_dirty p, pr_fun_id p), q) /\
    (pr_fun_dirty p = true -> pr_call_id p = None) /\
    (pr_fun_dirty p = false -> exists i, pr_fun_id p = Some i /\
       match search_row veq i b (q_calls q) with
       | Some (c, r) => pr_call_id p = Some c /\ pr_call_dirty p = false /\ pr_old_result p = Some r
       | None => pr_call_id p = None
       end) /\
    exists q2, check_call_files md5 core0 e (pr_call_id p) srcs q = (inr (pr_files p), q2) /\
      match pr_call_id p with
      | None => q1 = q2
      | Some c => pr_xsrcs p = names_of q2 (q_xs q2) c /\ pr_xdsts p = names_of q2 (q_xd q2) c /\
                  check_external_loop md5 core0 e c (pr_xsrcs p) q2 = (inr (pr_xfiles p), q1)
      end.
  Proof.
    intros H. unfold prepare, bind in H.
    destruct (check_function core0 (e_limit e) e fn q) as [[x|[fd fid]] q0] eqn:E1; [done|].
    pose proof (check_function_pure veq _ _ _ _ _ _ E1) as ->.
    pose proof (check_function_spec veq _ _ _ _ _ _ _ E1) as (d & Hd & Hclean).
    set (fc := match fd, fid with
               | false, Some fid0 => find_call core0 fid0 b
               | _, _ => ret (true, None, None)
               end) in H.
    assert (exists cd cid old, fc q = (inr (cd, cid, old), q) /\ (fd = true -> cid = None) /\
      (fd = false -> exists i, fid = Some i /\ match search_row veq i b (q_calls q) with
       | Some (c, r) => cid = Some c /\ cd = false /\ old = Some r
       | None => cid = None
       end)) as (cd & cid & old & Hfc & Hdirty & Hcl).
    { unfold fc. destruct fd; [by exists true, None, None|].
      destruct (Hclean eq_refl) as (i & deps & -> & Hrow). cbn. unfold s_find_call.
      destruct (search_row veq i b (q_calls q)) as [[c r0]|] eqn:Es.
      - exists false, (Some c), (Some r0). split; [done|]. split; [done|]. intros _. exists i. by rewrite Es.
      - exists true, None, None. split; [done|]. split; [done|]. intros _. exists i. by rewrite Es. }
    rewrite Hfc in H.
    destruct (check_call_files md5 core0 e cid srcs q) as [[x|files] q2] eqn:E2; [done|].
    destruct cid as [c|].
    - unfold check_external_files, bind in H. cbn in H.
      destruct (check_external_loop md5 core0 e c _ q2) as [[x|xf] q3] eqn:E3; [done|]. cbn in H. injection H as <- <-. simpl.
      split_and!; try done. exists q2. by split_and!.
    - cbn in H. injection H as <- <-. simpl. split_and!; try done. exists q2. by split_and!.
  Qed.

  (** The parts of recording a call. *)
  Lemma cache0_split e fd fid fn dg deps cid bd r files xs xd q u q' :
    cache0 veq md5 e fd fid fn dg deps cid bd r files xs xd q = (inr u, q') ->
    exists q0 q1 i c q2 u3 q3,
      (if fd : bool then q0 = (if fid then snd (s_delete_function fn q) else q) /\ s_save_function None fn dg deps q0 = (inr i, q1)
       else q1 = q /\ fid = Some i) /\
      s_save_call cid i bd r q1 = (inr c, q2) /\ save_call_files core0 c files q2 = (inr u3, q3) /\
      s_save_external veq md5 e c xs xd q3 = (inr u, q').
  Proof.
    intros H. unfold cache0, bind in H.
    match type of H with match ?m q with _ => _ end = _ => destruct (m q) as [[x|f0] q1] eqn:E1 end; [done|].
    destruct f0 as [i|]; [|done].
    simpl save_call in H. destruct (s_save_call cid i bd r q1) as [[x|c] q2] eqn:E2; [done|].
    destruct (save_call_files core0 c files q2) as [[x|u3] q3] eqn:E3; [done|].
    destruct fd.
    - match type of E1 with match ?m q with _ => _ end = _ => destruct (m q) as [[x|bb] q0] eqn:E0 end; [done|].
      simpl save_function in E1. destruct (s_save_function None fn dg deps q0) as [[x|j] q4] eqn:E4; [done|].
      injection E1 as <- <-. exists q0, q4, j, c, q2, u3, q3. split_and!; try done.
      destruct fid; [|by injection E0 as <- <-]. simpl in E0. by injection E0 as <- <-.
    - injection E1 as -> <-. exists q, q, i, c, q2, u3, q3. by split_and!.
  Qed.

  (** Well-formed tables, in all histories. *)
  Record fwf q : Prop := Fwf {
    fw_files : forall f i m d, q_files q !! f = Some (i, m, d) -> d = md5 (F f m);
    fw_flt : forall f i m d, q_files q !! f = Some (i, m, d) -> i < q_nfile q;
    fw_finj : forall f g i m d m' d', q_files q !! f = Some (i, m, d) -> q_files q !! g = Some (i, m', d') -> f = g;
    fw_cf : forall c j d, q_cf q !! (c, j) = Some d -> c < q_ncall q /\ j < q_nfile q
  }.
  Lemma wf_fwf q : wf q -> fwf q.
  Proof. intros []. by split. Qed.
  Lemma fwf_wf q : fwf q -> idw q -> wf q.
  Proof. intros [] []. split; auto. intros x Hx. by apply iw_clt. Qed.
  Lemma fwf_same q q' : q_files q' = q_files q -> q_nfile q' = q_nfile q -> q_ncall q <= q_ncall q' ->
    (forall k d, q_cf q' !! k = Some d -> q_cf q !! k = Some d) -> fwf q -> fwf q'.
  Proof.
    intros E1 E2 E3 E4 []. split; rewrite ?E1, ?E2; auto. intros c j d H%E4. destruct (fw_cf0 _ _ _ H). split; [lia|done].
  Qed.
  Lemma fwf_delete_function fn q : fwf q -> fwf (snd (s_delete_function fn q)).
  Proof.
    unfold s_delete_function; simpl. destruct (q_funs q !! fn) as [[[i d] s]|]; [|done].
    apply fwf_same; simpl; try done. intros k d'. apply filter_cf.
  Qed.
  Lemma fwf_save_function fn dg deps q i q' : s_save_function (V := V) (R := R) None fn dg deps q = (inr i, q') -> fwf q -> fwf q'.
  Proof. unfold s_save_function. destruct (q_funs q !! fn); intros [= <- <-]. by apply fwf_same. Qed.
  Lemma save_call_parts cid i bd r q c q' : s_save_call (V := V) cid i bd r q = (inr c, q') ->
    q_funs q' = q_funs q /\ q_files q' = q_files q /\ q_nfile q' = q_nfile q /\ q_ncall q <= q_ncall q' /\ q_cf q' = q_cf q /\
    (forall c0, cid = Some c0 -> c = c0).
  Proof.
    unfold s_save_call. destruct cid as [c0|]; [intros [= <- <-]|destruct (has_fun q i); intros [= <- <-]]; simpl; split_and!; try done; try lia.
    by intros c1 [= <-].
  Qed.
  Lemma wf_save_call_file c j d q u q' : wf q -> s_save_call_file (V := V) (R := R) c j d q = (inr u, q') -> wf q'.
  Proof.
    intros Hw H. apply save_call_file_parts in H as (Hc & Hf & ->). destruct Hw. split; simpl; auto.
    intros c' j' d' H. apply has_call_spec in Hc as (x & Hx & <-). apply has_file_spec in Hf as (g & m & dg & Hg).
    destruct (decide ((call_id x, j) = (c', j'))) as [[= <- <-]|Hn].
    - split; eauto.
    - rewrite lookup_insert_ne in H by done. eauto.
  Qed.
  Lemma wf_save_call_files c ds q u q' : wf q -> save_call_files core0 c ds q = (inr u, q') -> wf q'.
  Proof.
    revert q. induction ds as [|[[j f] d] ds IH]; intros q Hp H; simpl in H; [by injection H as _ <-|].
    unfold bind in H. cbn [save_call_file sql_core0] in H.
    destruct (s_save_call_file c j d q) as [[x|u1] q1] eqn:E1; [done|].
    apply (IH q1); [|done]. by eapply wf_save_call_file.
  Qed.
  (** Through recording, given the ids stay unique. *)
  Lemma wf_cache0 e fd fid fn dg deps cid bd r files xs xd q u q' : fs_faithful F e -> fwf q ->
    cache0 veq md5 e fd fid fn dg deps cid bd r files xs xd q = (inr u, q') -> idw q' -> wf q'.
  Proof.
    intros Hfs Hw H Hid. apply cache0_split in H as (q0 & q1 & i & c & q2 & u3 & q3 & H1 & H2 & H3 & H4).
    assert (fwf q1) as Hw1.
    { destruct fd; [|by destruct H1 as [-> _]]. destruct H1 as [-> H1]. eapply fwf_save_function; [exact H1|].
      destruct fid; [by apply fwf_delete_function|done]. }
    apply save_call_parts in H2 as (_ & A & B & C & D & _).
    assert (fwf q2) as Hw2 by (eapply fwf_same; [exact A|exact B|exact C|by rewrite D|done]).
    pose proof (save_call_files_tables veq (tables q2) _ _ _ _ _ eq_refl H3) as T3.
    pose proof (save_external_tables veq md5 (tables q3) _ _ _ _ _ _ _ eq_refl H4) as T4.
    assert (wf q2) as Hw2'. { apply fwf_wf; [done|]. eapply idw_tables; [|exact Hid]. congruence. }
    eapply (pu_wf _ _ _ _ _ _ (save_external_puts veq md5 F _ _ _ _ _ _ _ Hfs (wf_save_call_files _ _ _ _ _ Hw2' H3) H4)).
    by eapply wf_save_call_files.
  Qed.

  Record winv (s : sys) : Prop := Winv {
    wi_fs : fs_faithful F (s_env s);
    wi_cur : fwf (cur s);
    wi_base : fwf (base s)
  }.
  Lemma winv_wf s : rinv veq s -> winv s -> wf (cur s).
  Proof. intros [Hi Hs _ _] []. apply fwf_wf; [done|]. by eapply sub_idw. Qed.
  Lemma winv_fresh s : fresh conn_empty s -> fs_faithful F (s_env s) -> winv s.
  Proof.
    intros (Hdb & _) Hfs. split; [done|..]; rewrite Hdb; (split; simpl; intros *; rewrite ?lookup_empty; done).
  Qed.
  Lemma winv_step s o : equivalence_test veq -> rinv veq s -> winv s -> op_faithful F o -> winv (fst (step s o)).
  Proof.
    intros Hv Hr Hw Ho. pose proof Hw as [Hfs Hc Hb]. pose proof (rinv_step veq md5 s o Hv Hr) as Hr'.
    destruct o as [t rq|t xs xd g|t r|t|f ct m|f|dt| |funs|f|f].
    - destruct (begin_tables veq md5 s t rq) as (H1 & H2 & H3).
      assert (s_env (fst (step s (OBegin t rq))) = s_env s) as He.
      { simpl. unfold begin_call. destruct (e_fun (s_env s) !! rq_fun rq) as [d|]; [|done].
        destruct (prepare md5 (b_core BK) _ _ _ _ _) as [[x|p] db]; [reflexivity|].
        destruct (pr_fun_dirty p), (pr_call_dirty p), (pr_files p), (pr_xfiles p), (pr_old_result p); try reflexivity.
        by destruct (forallb _ _). }
      split; rewrite ?He, ?H1; try done. destruct H3 as [-> |(x & Hp)]; [done|].
      apply (prepare_spec veq md5 F) in Hp as [Hsh _]; [|done|by apply winv_wf]. apply wf_fwf, Hsh. by apply winv_wf.
    - by split.
    - pose proof (end_env veq md5 s t r) as He.
      destruct (end_tables veq md5 s t r) as [(Hdb & _)|(fr & frs & deps & ok & Et & _ & [(_ & Hbc & _ & Hca)|(_ & Hbb & Hcb & _)])].
      + split; rewrite ?He, ?Hdb; done.
      + assert (wf (cur (fst (step s (OEnd t r))))) as Hwc.
        { eapply wf_cache0; [exact Hfs|exact Hc|exact Hca|]. rewrite <- Hbc. apply Hr'. }
        split; rewrite ?He; [done| |rewrite Hbc]; by apply wf_fwf.
      + split; rewrite ?He, ?Hbb, ?Hcb; done.
    - simpl. unfold raise_call. by destruct (thread s t).
    - simpl in *. split; simpl; try done. intros g m' c'; simpl; rewrite lookup_insert_Some. intros [[-> [= <- <-]]|[_ H]]; [done|]. by apply Hfs.
    - split; simpl; try done. intros g m' c'; simpl; rewrite lookup_delete_Some. intros [_ H]. by apply Hfs.
    - by split.
    - by split.
    - simpl. destruct (k_version (s_db s)); [by split|]. split; simpl; [done|..]; (split; simpl; intros *; rewrite ?lookup_empty; done).
    - split; simpl; try done. by apply fwf_delete_function.
    - split; simpl; try done. pose proof (delete_file_shrink md5 F f (cur s)) as Hsh. apply wf_fwf, Hsh. by apply winv_wf.
  Qed.
  Lemma winv_runs s os : equivalence_test veq -> rinv veq s -> winv s -> history_ok md5 BK F s os -> winv (runs s os).
  Proof.
    intros Hv. revert s. induction os as [|o os IH]; intros s Hr Hw H; [done|]. destruct H as (Ho & _ & H).
    apply IH; [by apply rinv_step|by apply winv_step|done].
  Qed.

  (** File [f] has id [j] and digest [d], recorded for call [o]. *)
  Definition rowed (o : option nat) (f : name) (j : nat) (d : digest) q : Prop :=
    (exists m, q_files q !! f = Some (j, m, d)) /\ forall c, o = Some c -> q_cf q !! (c, j) = Some d.
  Lemma add_file_rowed e g o f j d : fs_faithful F e -> digest_at e f = Some d ->
    keeps (fun q => wf q /\ rowed o f j d q) (add_file md5 core0 e g).
  Proof.
    intros Hfs Hd q r q' [Hw [(m & Hf) Hc]] Ha.
    pose proof (add_file_spec veq md5 F _ _ _ _ _ Hfs Hw Ha) as [Hsh _]. split; [by apply Hsh|].
    apply (add_file_cases veq md5 F) in Ha as [-> |[(i & m1 & m2 & d1 & H1 & _ & ->)|(m1 & d1 & H1 & H2 & ->)]]; [by split; eauto| | |done|done].
    - split; [|done]. simpl. destruct (decide (g = f)) as [-> |Hn].
      + rewrite Hf in H1. injection H1 as <- <- <-. rewrite lookup_insert. eauto.
      + rewrite lookup_insert_ne by done. eauto.
    - assert (g <> f) as Hn. { intros ->. rewrite Hd in H1. injection H1 as <-. by apply (H2 _ _ _ Hf). }
      split; [rewrite renewed_lookup, decide_False by done; eauto|]. intros c Hoc.
      destruct (renewed_parts g m1 d1 q) as (_ & _ & _ & _ & _ & _ & _ & E8 & E9). cbv zeta in *.
      destruct (q_files q !! g) as [[[i mi] di]|] eqn:Eg.
      + destruct (E8 _ _ _ eq_refl (c, j)) as [_ ->]; [|by apply Hc]. simpl. intros ->. apply Hn. by eapply (wf_finj _ _ _ Hw).
      + destruct (E9 eq_refl) as [_ ->]. by apply Hc.
  Qed.
  Lemma check_call_files_rowed e cid fs q ds q' : fs_faithful F e -> wf q ->
    check_call_files md5 core0 e cid fs q = (inr ds, q') ->
    forall f, f ∈ fs -> exists j d, digest_at e f = Some d /\
      ((rowed None f j d q' /\ (j, f, d) ∈ ds) \/ (exists c, cid = Some c) /\ rowed cid f j d q').
  Proof.
    intros Hfs. revert q ds. induction fs as [|g fs IH]; intros q ds Hw H f Hf; [by apply elem_of_nil in Hf|].
    simpl in H. unfold bind in H.
    destruct (check_call_file md5 core0 e cid g q) as [[x|[[b j] d]] q1] eqn:E1; [done|].
    apply (check_call_file_spec veq md5 F) in E1 as [Hsh1 (Hd & (m & Hm) & Hn & Hcf)]; [|done|done].
    pose proof (sh_wf _ _ _ _ Hsh1 Hw) as Hw1.
    destruct (check_call_files md5 core0 e cid fs q1) as [[x|rest] q2] eqn:E2; [done|]. injection H as <- <-.
    apply elem_of_cons in Hf as [-> |Hf].
    - exists j, d. split; [done|].
      assert (forall o, rowed o g j d q1 -> rowed o g j d q2) as Hk.
      { intros o Ho. eapply (check_call_files_keeps veq md5 (fun q => wf q /\ rowed o g j d q)); [| |exact E2]; [|by split].
        intros h _. by apply add_file_rowed. }
      destruct b; [left|right].
      + split; [apply Hk; split; [eauto|done]|by left].
      + destruct cid as [c|]; [|by specialize (Hn eq_refl)]. split; [eauto|]. apply Hk. split; [eauto|].
        intros ? [= <-]. specialize (Hcf c eq_refl eq_refl). unfold cfn in Hcf. by rewrite Hm in Hcf.
    - destruct (IH _ _ Hw1 E2 f Hf) as (j' & d' & Hd' & [[H1 H2]|H1]); exists j', d'; (split; [done|]); [left|by right].
      split; [done|]. destruct b; [by right|done].
  Qed.

  (** What prepare knows about the declared sources. *)
  Lemma prepare_rowed e fn b srcs q p q' : fs_faithful F e -> wf q ->
    prepare md5 core0 e fn b srcs q = (inr p, q') ->
    forall f, f ∈ srcs -> exists j d, digest_at e f = Some d /\
      ((rowed None f j d q' /\ (j, f, d) ∈ pr_files p) \/ (exists c, pr_call_id p = Some c) /\ rowed (pr_call_id p) f j d q').
  Proof.
    intros Hfs Hw H f Hf. apply prepare_split in H as (_ & _ & _ & q2 & H1 & H2).
    pose proof (check_call_files_spec veq md5 F _ _ _ _ _ _ Hfs Hw H1) as [Hsh _].
    pose proof (sh_wf _ _ _ _ Hsh Hw) as Hw2.
    destruct (check_call_files_rowed _ _ _ _ _ _ Hfs Hw H1 f Hf) as (j & d & Hd & Hor).
    assert (forall o, rowed o f j d q2 -> rowed o f j d q') as Hk.
    { intros o Ho. destruct (pr_call_id p) as [c|]; [|by subst]. destruct H2 as (_ & _ & H2).
      eapply (check_external_loop_keeps veq md5 (fun q => wf q /\ rowed o f j d q)); [| |exact H2]; [|by split].
      intros h _. by apply add_file_rowed. }
    exists j, d. split; [done|]. destruct Hor as [[? ?]|[? ?]]; [left|right]; auto.
  Qed.

  Lemma save_call_files_parts c ds q u q' : save_call_files core0 c ds q = (inr u, q') ->
    q_files q' = q_files q /\
    forall j d, (forall f d', (j, f, d') ∈ ds -> d' = d) ->
      (exists f, (j, f, d) ∈ ds) \/ q_cf q !! (c, j) = Some d -> q_cf q' !! (c, j) = Some d.
  Proof.
    revert q. induction ds as [|[[j f] d] ds IH]; intros q H; simpl in H.
    - injection H as _ <-. split; [done|]. intros j d _ [(? & ?%elem_of_nil)|?]; done.
    - unfold bind in H. cbn [save_call_file sql_core0] in H.
      destruct (s_save_call_file c j d q) as [[x|u1] q1] eqn:E1; [done|].
      apply save_call_file_parts in E1 as (_ & _ & ->). apply IH in H as [A B]. split; [done|].
      intros j' d' Hu Hor. apply B; [intros f' d2 Hin; apply (Hu f'); by right|]. simpl.
      destruct (decide (j = j')) as [<-|Hn].
      + right. rewrite lookup_insert. f_equal. apply (Hu f). by left.
      + destruct Hor as [(f' & [[= -> -> ->]|Hin]%elem_of_cons)|Hcf]; [done|left; eauto|right].
        by rewrite lookup_insert_ne by congruence.
  Qed.

  Lemma search_update_found i b (l : list (nat * nat * V * R)) c r r0 :
    search_row veq i b l = Some (c, r0) ->
    search_row veq i b ((fun x => if Nat.eqb (call_id x) c then (x.1.1, x.1.2, r) else x) <$> l) = Some (c, r).
  Proof.
    induction l as [|[[[c0 j0] b0] r1] l IH]; [done|]. rewrite fmap_cons. cbn [call_id fst snd]. simpl search_row at 1.
    destruct (Nat.eqb j0 i && veq b b0)%bool eqn:E.
    - intros [= -> ->]. rewrite Nat.eqb_refl. simpl. by rewrite E.
    - intros H. destruct (Nat.eqb c0 c); simpl; rewrite E; by apply IH.
  Qed.
  Lemma check_function_ext n e e' q q' fn r :
    e_fun e' = e_fun e -> q_funs q' = q_funs q ->
    check_function core0 n e fn q = (r, q) -> check_function core0 n e' fn q' = (r, q').
  Proof.
    intros He Hc. revert fn r. induction n as [|n IH]; intros fn r H; simpl in *.
    - unfold raise in *. congruence.
    - rewrite He. destruct (e_fun e !! fn) as [d|]; [|unfold raise in *; congruence].
      unfold bind in *. cbn in *. rewrite Hc.
      destruct (q_funs q !! fn) as [[[i od] deps]|]; cbn in *; [|unfold ret in *; congruence].
      destruct (String.eqb d od); cbn in *; [|unfold ret in *; congruence].
      revert H.
      set (chk := (fix check_deps (ds : list name) : M _ bool := _)).
      set (chk' := (fix check_deps (ds : list name) : M _ bool := _)).
      assert (forall ds, exists r, chk ds q = (r, q) /\ chk' ds q' = (r, q')) as Hl.
      { induction ds as [|dep ds IHd].
        - exists (inr false). done.
        - simpl. unfold bind. destruct (check_function core0 n e dep q) as [r1 c1] eqn:E1.
          pose proof (check_function_pure veq _ _ _ _ _ _ E1) as ->.
          rewrite (IH _ _ E1). destruct r1 as [x|[[] fid]]; simpl; eauto. }
      match goal with |- context [chk ?l q] => destruct (Hl l) as (r1 & -> & ->) end.
      destruct r1; unfold ret; congruence.
  Qed.

  (** Everything known about a completed call in the tables. *)
  Record complete (e : env) (fn : name) (bd : V) (r : R) (srcs xs xd : list name) q : Prop := Complete {
    co_call : exists i c, check_function core0 (e_limit e) e fn q = (inr (false, Some i), q) /\
      search_row veq i bd (q_calls q) = Some (c, r) /\
      (forall f, f ∈ srcs -> exists j d, digest_at e f = Some d /\ rowed (Some c) f j d q) /\
      (forall f, f ∈ xs -> exists j d, digest_at e f = Some d /\ rowed (Some c) f j d q /\ (c, j) ∈ q_xs q) /\
      (forall f j m d, q_files q !! f = Some (j, m, d) -> (c, j) ∈ q_xs q -> f ∈ xs) /\
      (forall f j m d, q_files q !! f = Some (j, m, d) -> (c, j) ∈ q_xd q -> f ∈ xd)
  }.

  (** Saving external dependencies, with what becomes of each table. *)
  Lemma save_external_split_dsts e c xs xd q u q' : s_save_external veq md5 e c xs xd q = (inr u, q') ->
    let q1 := Sq (q_funs q) (q_calls q) (q_files q) (q_cf q) (filter (fun x : nat * nat => x.1 <> c) (q_xs q))
                 (filter (fun x : nat * nat => x.1 <> c) (q_xd q)) (q_nfun q) (q_ncall q) (q_nfile q) in
    exists ss q2 u3 q3 u4 q4 ds q5,
      check_all veq md5 e c (remove_dups xs) q1 = (inr ss, q2) /\
      insert_ext true c (map (fun x : bool * nat * digest => x.1.2) ss) q2 = (inr u3, q3) /\
      insert_files c ss q3 = (inr u4, q4) /\
      check_all veq md5 e c (remove_dups xd) q4 = (inr ds, q5) /\
      insert_ext false c (map (fun x : bool * nat * digest => x.1.2) (filter (fun x : bool * nat * digest => x.1.1 = true) ds)) q5 = (inr u, q').
  Proof.
    intros H q1. unfold s_save_external, modify in H. unfold bind at 1 in H. fold q1 in H.
    unfold bind at 1 in H. destruct (check_all veq md5 e c (remove_dups xs) q1) as [[x|ss] q2] eqn:E2; [done|].
    unfold bind at 1 in H. destruct (insert_ext true c _ q2) as [[x|u3] q3] eqn:E3; [done|].
    unfold bind at 1 in H. destruct (insert_files c ss q3) as [[x|u4] q4] eqn:E4; [done|].
    unfold bind at 1 in H. destruct (check_all veq md5 e c (remove_dups xd) q4) as [[x|ds] q5] eqn:E5; [done|].
    exists ss, q2, u3, q3, u4, q4, ds, q5. split_and!; [done|exact E3|exact E4|exact E5|exact H].
  Qed.
  Lemma insert_ext_dsts src c l q u q' : insert_ext (V := V) (R := R) src c l q = (inr u, q') ->
    forall k, k ∈ q_xd q' -> k ∈ q_xd q \/ (src = false /\ exists j, k = (c, j) /\ j ∈ l).
  Proof.
    revert q. induction l as [|j l IH]; intros q H k Hk; simpl in H; [injection H as _ <-; by left|].
    unfold bind in H. destruct (has_call q c && has_file q j)%bool; [|done].
    destruct (IH _ H k Hk) as [Hx|(-> & j' & -> & ?)].
    - simpl in Hx. destruct src; [by left|]. apply elem_of_union in Hx as [->%elem_of_singleton|?]; [right|by left].
      split; [done|]. exists j. split; [done|by left].
    - right. split; [done|]. exists j'. split; [done|by right].
  Qed.
  Lemma insert_files_dsts c l q u q' : insert_files (V := V) (R := R) c l q = (inr u, q') -> q_xd q' = q_xd q.
  Proof.
    revert q. induction l as [|[[b j] d] l IH]; intros q H; simpl in H; [by injection H as _ <-|].
    unfold bind in H. destruct ((if b then s_save_call_file c j d else ret tt) q) as [[x|u1] q1] eqn:E1; [done|].
    rewrite (IH _ H). destruct b; [by apply save_call_file_parts in E1 as (_ & _ & ->)|by injection E1 as _ <-].
  Qed.
  Lemma add_file_sets (e : env) (g : name) (X Y : gset (nat * nat)) : fs_faithful F e ->
    keeps (fun q => wf q /\ (forall k, k ∈ q_xs q -> k ∈ X) /\ (forall k, k ∈ q_xd q -> k ∈ Y)) (add_file md5 core0 e g).
  Proof.
    intros Hfs q r q' (Hw & Hx & Hy) Ha.
    pose proof (add_file_spec veq md5 F _ _ _ _ _ Hfs Hw Ha) as [Hsh _]. split; [by apply Hsh|].
    apply (add_file_cases veq md5 F) in Ha as [-> |[(i & m1 & m2 & d1 & H1 & _ & ->)|(m1 & d1 & H1 & H2 & ->)]]; [done|done| |done|done].
    destruct (renewed_parts g m1 d1 q) as (_ & _ & _ & _ & _ & E6 & _). split; [intros k Hk; by apply Hx, E6|].
    intros k. unfold renewed, s_delete_file; simpl. destruct (q_files q !! g) as [[[i m0] dg]|]; simpl; [|apply Hy].
    intros [_ ?]%elem_filter_xs. by apply Hy.
  Qed.

  Lemma save_external_complete e c (srcs xs xd : list name) q u q' : fs_faithful F e -> wf q ->
    s_save_external veq md5 e c xs xd q = (inr u, q') ->
    (forall f, f ∈ srcs -> exists j d, digest_at e f = Some d /\ rowed (Some c) f j d q) ->
    (forall f, f ∈ srcs -> exists j d, digest_at e f = Some d /\ rowed (Some c) f j d q') /\
    (forall f, f ∈ xs -> exists j d, digest_at e f = Some d /\ rowed (Some c) f j d q' /\ (c, j) ∈ q_xs q') /\
    (forall f j m d, q_files q' !! f = Some (j, m, d) -> (c, j) ∈ q_xs q' -> f ∈ xs) /\
    (forall f j m d, q_files q' !! f = Some (j, m, d) -> (c, j) ∈ q_xd q' -> f ∈ xd).
  Proof.
    intros Hfs Hw H Hsrc. apply save_external_split_dsts in H as (ss & q2 & u3 & q3 & u4 & q4 & ds & q5 & E2 & E3 & E4 & E5 & E6).
    set (q1 := Sq _ _ _ _ _ _ _ _ _) in E2.
    assert (wf q1) as Hw1 by (destruct Hw; by split).
    pose proof (check_all_found veq md5 F _ _ _ _ _ _ Hfs Hw1 (NoDup_remove_dups _) E2) as [Hss Hall].
    pose proof E2 as E2s. apply (check_all_spec veq md5 F) in E2s as [Hsh2 Hss']; [|done|done].
    pose proof (sh_wf _ _ _ _ Hsh2 Hw1) as Hw2.
    pose proof (insert_ext_puts md5 F e _ _ _ _ _ _ E3) as P3. pose proof (pu_wf _ _ _ _ _ _ P3 Hw2) as Hw3.
    pose proof (insert_files_puts md5 F e _ _ _ _ _ Hw3 ltac:(intros b j d Hin; destruct (Hss' _ _ _ Hin) as (f & Ho & ?); exists f; split; [by eapply owns_puts|done]) E4) as P4.
    pose proof (pu_wf _ _ _ _ _ _ P4 Hw3) as Hw4.
    pose proof (check_all_found veq md5 F _ _ _ _ _ _ Hfs Hw4 (NoDup_remove_dups _) E5) as [Hdd _].
    pose proof E5 as E5s. apply (check_all_spec veq md5 F) in E5s as [Hsh5 _]; [|done|done].
    pose proof (sh_wf _ _ _ _ Hsh5 Hw4) as Hw5.
    pose proof (insert_ext_puts md5 F e _ _ _ _ _ _ E6) as P6.
    pose proof (insert_ext_parts _ _ _ _ _ _ E3) as (_ & _ & A3 & A4 & A5).
    pose proof (insert_files_parts _ _ _ _ _ E4) as (_ & _ & B3 & B4 & _ & B6).
    pose proof (insert_ext_parts _ _ _ _ _ _ E6) as (_ & _ & C3 & C4 & C5).
    (* digests in [ss] belong to the files with these ids *)
    assert (forall f j m d, q_files q2 !! f = Some (j, m, d) -> digest_at e f = Some d -> forall b d', (b, j, d') ∈ ss -> d' = d) as Hone.
    { intros f j m d Hrow Hd b d' Hin. destruct (Hss _ _ _ Hin) as (f' & _ & Ho & Hd').
      assert (f = f') as <- by (by eapply (proj2 Ho)). congruence. }
    assert (forall f j d, digest_at e f = Some d -> rowed (Some c) f j d q4 -> rowed (Some c) f j d q') as Hlast.
    { intros f j d Hd H4.
      assert (rowed (Some c) f j d q5) as [H5 H5'].
      { eapply (check_all_keeps veq md5 (fun q => wf q /\ rowed (Some c) f j d q)); [| |exact E5]; [|by split].
        intros h _. by apply add_file_rowed. }
      split; [by rewrite C3|by rewrite C4]. }
    split_and!.
    - intros f Hf. destruct (Hsrc f Hf) as (j & d & Hd & Hrow). exists j, d. split; [done|]. apply Hlast; [done|].
      assert (rowed (Some c) f j d q2) as [(m & Hm) Hcf].
      { eapply (check_all_keeps veq md5 (fun q => wf q /\ rowed (Some c) f j d q)); [| |exact E2]; [|by split].
        intros h _. by apply add_file_rowed. }
      split; [rewrite B3, A3; eauto|]. intros ? [= <-]. apply B6; [by eapply Hone|]. right. rewrite A4. by apply Hcf.
    - intros f Hf. destruct (Hall f) as (b & j & m & d & Hin & Hm & Hd & Hcf); [by rewrite elem_of_remove_dups|].
      assert (tied f d c q4) as Ht.
      { exists j, m. rewrite B3, A3, B4. split; [done|]. split.
        - apply A5. right. split; [done|]. exists j. split; [done|]. apply elem_of_list_In, in_map_iff.
          exists (b, j, d). split; [done|]. by apply elem_of_list_In.
        - apply B6; [by eapply Hone|]. left. exists b. split; [done|]. rewrite A4. done. }
      assert (tied f d c q5) as (j5 & m5 & T1 & T2 & T3).
      { eapply (check_all_keeps veq md5 (fun q => wf q /\ tied f d c q)); [| |exact E5]; [|by split].
        intros h _ qa ra qb [Ha1 Ha2] Ha. pose proof (add_file_spec veq md5 F _ _ _ _ _ Hfs Ha1 Ha) as [Hsh _].
        split; [by apply Hsh|]. eapply (add_file_tied veq md5 F); [done|done| |done|done].
        intros -> d'. rewrite Hd. by intros [= <-]. }
      exists j5, d. split; [done|]. split.
      + split; [rewrite C3; eauto|]. intros ? [= <-]. by rewrite C4.
      + apply C5. by left.
    - intros f j m d Hrow Hin. apply C5 in Hin as [Hin|[? _]]; [|done].
      assert ((c, j) ∈ q_xs q4) as Hin4.
      { eapply (check_all_keeps veq md5 (fun q => wf q /\ (forall k, k ∈ q_xs q -> k ∈ q_xs q4) /\ (forall k, k ∈ q_xd q -> k ∈ q_xd q4))); [| |exact E5|exact Hin]; [|by split_and!].
        intros h _. by apply add_file_sets. }
      rewrite B4 in Hin4. apply A5 in Hin4 as [Hin2|(_ & j' & [= <-] & Hj)].
      + exfalso. assert ((c, j) ∈ q_xs q1) as Hin1.
        { eapply (check_all_keeps veq md5 (fun q => wf q /\ (forall k, k ∈ q_xs q -> k ∈ q_xs q1) /\ (forall k, k ∈ q_xd q -> k ∈ q_xd q1))); [| |exact E2|exact Hin2]; [|by split_and!].
          intros h _. by apply add_file_sets. }
        unfold q1 in Hin1; simpl in Hin1. apply elem_filter_xs in Hin1 as [? _]. done.
      + apply elem_of_list_In, in_map_iff in Hj as ([[b j'] d'] & <- & Hj). apply elem_of_list_In in Hj.
        destruct (Hss _ _ _ Hj) as (f' & Hf' & Ho & _).
        assert (owns q' j' f') as Ho'.
        { apply (owns_puts md5 F e c q5); [done|]. eapply (owns_shrink md5 F); [exact Hsh5|].
          apply (owns_puts md5 F e c q3); [done|]. by apply (owns_puts md5 F e c q2). }
        rewrite (proj2 Ho' _ _ _ Hrow). by rewrite elem_of_remove_dups in Hf'.
    - intros f j m d Hrow Hin. apply (insert_ext_dsts _ _ _ _ _ _ E6) in Hin as [Hin|(_ & j' & [= <-] & Hj)].
      + exfalso.
        assert ((c, j) ∈ q_xd q4) as Hin4.
        { eapply (check_all_keeps veq md5 (fun q => wf q /\ (forall k, k ∈ q_xs q -> k ∈ q_xs q4) /\ (forall k, k ∈ q_xd q -> k ∈ q_xd q4))); [| |exact E5|exact Hin]; [|by split_and!].
          intros h _. by apply add_file_sets. }
        rewrite (insert_files_dsts _ _ _ _ _ E4) in Hin4.
        apply (insert_ext_dsts _ _ _ _ _ _ E3) in Hin4 as [Hin2|[? _]]; [|done].
        assert ((c, j) ∈ q_xd q1) as Hin1.
        { eapply (check_all_keeps veq md5 (fun q => wf q /\ (forall k, k ∈ q_xs q -> k ∈ q_xs q1) /\ (forall k, k ∈ q_xd q -> k ∈ q_xd q1))); [| |exact E2|exact Hin2]; [|by split_and!].
          intros h _. by apply add_file_sets. }
        unfold q1 in Hin1; simpl in Hin1. apply elem_filter_xs in Hin1 as [? _]. done.
      + apply elem_of_list_In, in_map_iff in Hj as ([[b j'] d'] & <- & Hj). apply elem_of_list_In, elem_of_list_filter in Hj as [_ Hj].
        destruct (Hdd _ _ _ Hj) as (f' & Hf' & Ho & _).
        rewrite (proj2 (owns_puts md5 F e c q5 _ _ _ P6 Ho) _ _ _ Hrow). by rewrite elem_of_remove_dups in Hf'.
  Qed.

  Lemma cache0_complete e fn dg bd r (srcs : list name) (p : prepared R nat nat nat) xs xd q u q' :
    fs_faithful F e -> wf q -> idw q -> idw q' -> veq bd bd = true -> 0 < e_limit e -> e_fun e !! fn = Some dg ->
    (pr_fun_dirty p = false -> exists i, pr_fun_id p = Some i /\
       check_function core0 (e_limit e) e fn q = (inr (false, Some i), q) /\
       match pr_call_id p with
       | Some c => exists r0, search_row veq i bd (q_calls q) = Some (c, r0)
       | None => search_row veq i bd (q_calls q) = None
       end) ->
    (pr_fun_dirty p = true -> pr_call_id p = None) ->
    (forall f, f ∈ srcs -> exists j d, digest_at e f = Some d /\
      ((rowed None f j d q /\ (j, f, d) ∈ pr_files p) \/ (exists c, pr_call_id p = Some c) /\ rowed (pr_call_id p) f j d q)) ->
    (forall j f d, (j, f, d) ∈ pr_files p -> owns q j f /\ digest_at e f = Some d) ->
    cache0 veq md5 e (pr_fun_dirty p) (pr_fun_id p) fn dg [] (pr_call_id p) bd r (pr_files p) xs xd q = (inr u, q') ->
    complete e fn bd r srcs xs xd q'.
  Proof.
    intros Hfs Hw Hid Hid' Hbd Hlim Hdg Hclean Hdirty Hrows Hown H.
    apply cache0_split in H as (q0 & q1 & i & c & q2 & u3 & q3 & H1 & H2 & H3 & H4).
    assert (fwf q1 /\ q_files q1 = q_files q /\ (pr_fun_dirty p = false -> q1 = q)) as (Hw1 & Hf1 & Hcf1).
    { destruct (pr_fun_dirty p); [|destruct H1 as [-> _]; split_and!; try done; by apply wf_fwf].
      destruct H1 as [-> H1]. split_and!; [| |done].
      - eapply fwf_save_function; [exact H1|]. destruct (pr_fun_id p); [by apply fwf_delete_function, wf_fwf|by apply wf_fwf].
      - revert H1. unfold s_save_function. set (qd := if pr_fun_id p then _ else _).
        assert (q_files qd = q_files q) as <-.
        { unfold qd, s_delete_function. destruct (pr_fun_id p); [|done]. simpl. by destruct (q_funs q !! fn) as [[[? ?] ?]|]. }
        destruct (q_funs qd !! fn); by intros [= <- <-]. }
    pose proof (save_call_parts _ _ _ _ _ _ _ H2) as (Hfn2 & Hf2 & Hn2 & Hnc2 & Hcf2 & Hc2).
    assert (fwf q2) as Hw2 by (eapply fwf_same; [exact Hf2|exact Hn2|exact Hnc2|by rewrite Hcf2|done]).
    pose proof (save_call_files_tables veq (tables q2) _ _ _ _ _ eq_refl H3) as T3.
    pose proof (save_external_tables veq md5 (tables q3) _ _ _ _ _ _ _ eq_refl H4) as T4.
    rewrite T3 in T4. destruct (tables_parts _ _ T4) as (Tf & Tc & _ & _).
    assert (wf q2) as Hw2'. { apply fwf_wf; [done|]. by eapply idw_tables. }
    pose proof (wf_save_call_files _ _ _ _ _ Hw2' H3) as Hw3.
    pose proof (save_call_files_parts _ _ _ _ _ H3) as [Hf3 Hcf3].
    destruct (save_external_complete e c srcs xs xd q3 u q') as (X1 & X2 & X3 & X4); [done|done|done| |].
    { intros f Hf. destruct (Hrows f Hf) as (j & d & Hd & Hor). exists j, d. split; [done|].
      assert (exists m, q_files q !! f = Some (j, m, d)) as [m Hm] by (destruct Hor as [[[? _] _]|[_ [? _]]]; done).
      split; [rewrite Hf3, Hf2, Hf1; eauto|]. intros ? [= <-]. apply Hcf3.
      - intros f' d' Hin. destruct (Hown _ _ _ Hin) as [Ho Hd']. assert (f = f') as <- by (by eapply (proj2 Ho)). congruence.
      - destruct Hor as [[_ Hin]|[[c0 Hc0] [_ Hcf]]]; [left; eauto|right].
        assert (pr_fun_dirty p = false) as Hpd. { destruct (pr_fun_dirty p); [|done]. rewrite Hdirty in Hc0; done. }
        rewrite Hcf2, (Hcf1 Hpd), (Hc2 _ Hc0). by apply Hcf. }
    split. exists i, c. split_and!; try done.
    - destruct (pr_fun_dirty p) eqn:Epd.
      + destruct H1 as [_ H1]. assert (q_funs q1 !! fn = Some (i, dg, ""%string)) as Hrow.
        { revert H1. unfold s_save_function. destruct (q_funs q0 !! fn); intros [= <- <-]. simpl. by rewrite lookup_insert. }
        destruct (e_limit e) as [|n]; [lia|]. cbn [check_function].
        destruct (e_fun e !! fn) as [d0|]; [injection Hdg as ->|done]. unfold bind. cbn.
        rewrite Tf, Hfn2, Hrow. cbn. by rewrite String.eqb_refl.
      + destruct (Hclean eq_refl) as (i0 & Hi0 & Hcheck & _). destruct H1 as [-> Hi]. rewrite Hi in Hi0. injection Hi0 as <-.
        eapply check_function_ext; [reflexivity| |exact Hcheck]. by rewrite Tf, Hfn2.
    - rewrite Tc. unfold s_save_call in H2. destruct (pr_call_id p) as [c0|] eqn:Ec.
      + assert (pr_fun_dirty p = false) as Hpd by (destruct (pr_fun_dirty p); [by specialize (Hdirty eq_refl)|done]).
        rewrite Hpd in *. destruct H1 as [-> Hi]. destruct (Hclean eq_refl) as (i0 & Hi0 & _ & r0 & Hs).
        rewrite Hi in Hi0. injection Hi0 as <-. injection H2 as <- <-. simpl. by eapply search_update_found.
      + destruct (has_fun q1 i); [|done]. injection H2 as <- <-. simpl. rewrite search_app.
        assert (search_row veq i bd (q_calls q1) = None) as ->; [|by rewrite Nat.eqb_refl, Hbd].
        destruct (pr_fun_dirty p) eqn:Epd.
        * destruct H1 as [-> H1]. apply search_none. revert H1. unfold s_save_function. set (qd := if pr_fun_id p then _ else _).
          assert (forall x, x ∈ q_calls qd -> call_fun x < q_nfun qd) as Hlt.
          { assert (sub q qd) as Hsub by (unfold qd; destruct (pr_fun_id p); [apply delete_function_sub|apply sub_refl]).
            intros x Hx. by apply (sub_idw _ _ Hsub Hid). }
          destruct (q_funs qd !! fn); intros [= <- <-]. simpl. intros x Hx. specialize (Hlt x Hx). lia.
        * destruct H1 as [-> Hi]. destruct (Hclean eq_refl) as (i0 & Hi0 & _ & Hs). rewrite Hi in Hi0. by injection Hi0 as <-.
  Qed.

  (** Only modification times of rows of File differ. *)
  Definition restamped q q' : Prop :=
    q_funs q' = q_funs q /\ q_calls q' = q_calls q /\ q_cf q' = q_cf q /\ q_xs q' = q_xs q /\ q_xd q' = q_xd q /\
    forall f, (fun x : nat * Z * digest => (x.1.1, x.2)) <$> q_files q' !! f = (fun x : nat * Z * digest => (x.1.1, x.2)) <$> q_files q !! f.
  Lemma restamped_refl q : restamped q q.
  Proof. by split_and!. Qed.
  Lemma restamped_trans a b c : restamped a b -> restamped b c -> restamped a c.
  Proof. intros (?&?&?&?&?&H) (?&?&?&?&?&H'). split_and!; congruence. Qed.
  Lemma restamped_row q q' f j d : restamped q q' -> (exists m, q_files q' !! f = Some (j, m, d)) <-> (exists m, q_files q !! f = Some (j, m, d)).
  Proof.
    intros (_&_&_&_&_&H). specialize (H f). split; intros [m Hm]; rewrite Hm in H; simpl in H.
    - destruct (q_files q !! f) as [[[j' m'] d']|]; [|done]. injection H as <- <-. eauto.
    - destruct (q_files q' !! f) as [[[j' m'] d']|]; [|done]. injection H as <- <-. eauto.
  Qed.
  Lemma restamped_rowed q q' o f j d : restamped q q' -> rowed o f j d q -> rowed o f j d q'.
  Proof.
    intros H [H1 H2]. split; [by apply (restamped_row q q')|]. destruct H as (_&_&->&_). done.
  Qed.
  Lemma check_call_file_clean e c f j d q : digest_at e f = Some d -> rowed (Some c) f j d q ->
    exists q', check_call_file md5 core0 e (Some c) f q = (inr (false, j, d), q') /\ restamped q q'.
  Proof.
    intros Hd [[m Hm] Hcf]. specialize (Hcf c eq_refl).
    unfold check_call_file, add_file, bind, ret. cbn [find_file sql_core0 s_find_file]. unfold s_find_file. rewrite Hm.
    unfold DbSpec.digest_at in Hd. destruct (e_fs e !! f) as [[mt ct]|]; [|done]. cbn in Hd. injection Hd as Hd.
    destruct (Z.eqb mt m && Z.ltb one_second (e_now e - mt))%bool; cbn.
    - rewrite Hcf, String.eqb_refl. exists q. split; [done|]. apply restamped_refl.
    - rewrite Hd, String.eqb_refl. cbn. rewrite Hm, Nat.eqb_refl. cbn. rewrite Hcf, String.eqb_refl. eexists. split; [done|].
      split_and!; try done. intros g. simpl. destruct (decide (f = g)) as [<-|Hn].
      + by rewrite lookup_insert, Hm.
      + by rewrite lookup_insert_ne.
  Qed.
  Lemma check_call_files_clean e c (fs : list name) q : (forall f, f ∈ fs -> exists j d, digest_at e f = Some d /\ rowed (Some c) f j d q) ->
    exists q', check_call_files md5 core0 e (Some c) fs q = (inr [], q') /\ restamped q q'.
  Proof.
    revert q. induction fs as [|f fs IH]; intros q H; [exists q; split; [done|apply restamped_refl]|].
    destruct (H f) as (j & d & Hd & Hrow); [by left|].
    destruct (check_call_file_clean e c f j d q Hd Hrow) as (q1 & E1 & R1).
    destruct (IH q1) as (q2 & E2 & R2).
    { intros g Hg. destruct (H g) as (j' & d' & ? & ?); [by right|]. exists j', d'. split; [done|]. by eapply restamped_rowed. }
    exists q2. split; [|by eapply restamped_trans]. cbn [check_call_files]. unfold bind. by rewrite E1, E2.
  Qed.
  Lemma check_external_loop_clean e c (fs : list name) q : (forall f, f ∈ fs -> exists j d, digest_at e f = Some d /\ rowed (Some c) f j d q) ->
    exists q', check_external_loop md5 core0 e c fs q = (inr [], q') /\ restamped q q'.
  Proof.
    revert q. induction fs as [|f fs IH]; intros q H; [exists q; split; [done|apply restamped_refl]|].
    destruct (H f) as (j & d & Hd & Hrow); [by left|].
    destruct (check_call_file_clean e c f j d q Hd Hrow) as (q1 & E1 & R1).
    destruct (IH q1) as (q2 & E2 & R2).
    { intros g Hg. destruct (H g) as (j' & d' & ? & ?); [by right|]. exists j', d'. split; [done|]. by eapply restamped_rowed. }
    exists q2. split; [|by eapply restamped_trans]. cbn [check_external_loop]. unfold bind, try_os. rewrite E1. by rewrite E2.
  Qed.
  Lemma names_of_in q x c g : g ∈ names_of q x c <-> exists j m d, q_files q !! g = Some (j, m, d) /\ (c, j) ∈ x.
  Proof.
    unfold names_of. rewrite elem_of_list_fmap. split.
    - intros ([g' [[j m] d]] & -> & [H1 H2]%elem_of_list_filter). apply elem_of_map_to_list in H2. eauto.
    - intros (j & m & d & H1 & H2). exists (g, (j, m, d)). split; [done|]. apply elem_of_list_filter. split; [done|]. by apply elem_of_map_to_list.
  Qed.

  (** A completed call is found clean. *)
  Lemma complete_clean e fn bd r srcs xs xd q : complete e fn bd r srcs xs xd q ->
    exists p q', prepare md5 core0 e fn bd srcs q = (inr p, q') /\ q_funs q' = q_funs q /\ q_calls q' = q_calls q /\
      pr_fun_dirty p = false /\ pr_call_dirty p = false /\ pr_files p = [] /\ pr_xfiles p = [] /\ pr_old_result p = Some r /\
      (forall f, f ∈ pr_xsrcs p <-> f ∈ xs) /\ (forall f, f ∈ pr_xdsts p -> f ∈ xd).
  Proof.
    intros [(i & c & Hfun & Hs & Hsrc & Hxs & Hxs' & Hxd)].
    destruct (check_call_files_clean e c srcs q Hsrc) as (q1 & E1 & R1).
    assert (forall f, f ∈ names_of q1 (q_xs q1) c <-> f ∈ xs) as Hnames.
    { intros f. rewrite names_of_in. pose proof R1 as (_&_&_&->&_&_). split.
      - intros (j & m & d & Hm & Hin). destruct (proj1 (restamped_row q q1 f j d R1)) as [m' Hm']; eauto.
      - intros Hf. destruct (Hxs f Hf) as (j & d & _ & [Hm _] & Hin). apply (restamped_row q q1 f j d R1) in Hm as [m Hm]. eauto. }
    destruct (check_external_loop_clean e c (names_of q1 (q_xs q1) c) q1) as (q2 & E2 & R2).
    { intros f Hf%Hnames. destruct (Hxs f Hf) as (j & d & ? & ? & _). exists j, d. split; [done|]. by eapply restamped_rowed. }
    unfold prepare, bind. rewrite Hfun. cbn. unfold s_find_call. rewrite Hs. rewrite E1.
    unfold check_external_files, bind. cbn. rewrite E2. cbn. eexists _, q2. split; [reflexivity|]. simpl.
    pose proof (restamped_trans _ _ _ R1 R2) as (Hf & Hc & _). split_and!; try done.
    intros f. rewrite names_of_in. pose proof R1 as (_&_&_&_&->&_). intros (j & m & d & Hm & Hin).
    destruct (proj1 (restamped_row q q1 f j d R1)) as [m' Hm']; eauto.
  Qed.

  Lemma begin_run (s : sys) t (rq : request V R) :
    snd (step s (OBegin t rq)) = RRun ->
    exists d p q, e_fun (s_env s) !! rq_fun rq = Some d /\
      prepare md5 core0 (s_env s) (rq_fun rq) (rq_bound rq) (rq_srcs rq) (cur s) = (inr p, q) /\
      fst (step s (OBegin t rq)) =
        Sys (s_env s) (Conn q (base s) (k_version (s_db s))) ([] :: note_callee (rq_fun rq) (s_callstack s))
            (<[t := Frame rq d p [] [] (s_env s) :: thread s t]> (s_threads s)) (s_log s).
  Proof.
    simpl. unfold begin_call.
    destruct (e_fun (s_env s) !! rq_fun rq) as [d|] eqn:Ed; [|done].
    destruct (prepare md5 (b_core BK) _ _ _ _ _) as [res db] eqn:Ep. simpl in Ep.
    rewrite (lifts_prepare veq md5 _ _ _ _ (s_db s)) in Ep. unfold on_cur in Ep.
    destruct (prepare md5 core0 _ _ _ _ _) as [x q] eqn:E. injection Ep as <- <-.
    destruct x as [x|p]; [done|]. intros H. exists d, p, q. split_and!; [done|done|].
    destruct (pr_fun_dirty p), (pr_call_dirty p), (pr_files p), (pr_xfiles p), (pr_old_result p);
      try reflexivity. by destruct (forallb _ _).
  Qed.
  (** What happens while a function that calls no cached function runs. *)
  Lemma runs_body t (body : list op) (s : sys) (fr : frame) frs :
    Forall (body_op t) body -> history_ok md5 BK F s body -> thread s t = fr :: frs ->
    exists fr' frs', thread (runs s body) t = fr' :: frs' /\
      fr_req fr' = fr_req fr /\ fr_digest fr' = fr_digest fr /\ fr_prep fr' = fr_prep fr /\
      s_db (runs s body) = s_db s /\ s_callstack (runs s body) = s_callstack s /\
      e_fun (s_env (runs s body)) = e_fun (s_env s) /\ e_limit (s_env (runs s body)) = e_limit (s_env s) /\
      forall f, f ∈ rq_srcs (fr_req fr) -> digest_at (s_env (runs s body)) f = digest_at (s_env s) f.
  Proof.
    intros Hb. revert s fr frs. induction Hb as [|o body Ho Hb IH]; intros s fr frs Hok Ht.
    - exists fr, frs. done.
    - destruct Hok as (_ & Hwb & Hok). simpl runs.
      assert (exists fr1 frs1, thread (fst (step s o)) t = fr1 :: frs1 /\
        fr_req fr1 = fr_req fr /\ fr_digest fr1 = fr_digest fr /\ fr_prep fr1 = fr_prep fr /\
        s_db (fst (step s o)) = s_db s /\ s_callstack (fst (step s o)) = s_callstack s /\
        e_fun (s_env (fst (step s o))) = e_fun (s_env s) /\ e_limit (s_env (fst (step s o))) = e_limit (s_env s) /\
        forall f, f ∈ rq_srcs (fr_req fr) -> digest_at (s_env (fst (step s o))) f = digest_at (s_env s) f)
        as (fr1 & frs1 & H1 & H2 & H3 & H4 & H5 & H6 & H7 & H8 & H9).
      { assert (forall f, f ∈ rq_srcs (fr_req fr) -> in_use s f) as Huse.
        { intros f Hf. exists t, fr. split; [rewrite Ht; by left|done]. }
        destruct o as [ |t' xs xd g| | |g ct m|g|dt| | | | ]; simpl in Ho; try done.
        - subst t'. simpl. unfold add_ext. rewrite Ht, thread_insert, decide_True by done.
          eexists _, _. split; [reflexivity|]. done.
        - exists fr, frs. split_and!; try done. intros f Hf. unfold DbSpec.digest_at. simpl.
          rewrite lookup_insert_ne; [done|]. intros ->. by apply Hwb, Huse.
        - exists fr, frs. split_and!; try done. intros f Hf. unfold DbSpec.digest_at. simpl.
          rewrite lookup_delete_ne; [done|]. intros ->. by apply Hwb, Huse.
        - exists fr, frs. by split_and!. }
      destruct (IH _ _ _ Hok H1) as (fr' & frs' & G1 & G2 & G3 & G4 & G5 & G6 & G7 & G8 & G9).
      exists fr', frs'. split_and!; try congruence. intros f Hf. rewrite G9; [by apply H9|]. by rewrite H2.
  Qed.
  Lemma runs_quiet funs (after : list op) (s : sys) saved :
    base s = cur s -> (saved = true -> k_version (s_db s) = true) -> e_fun (s_env s) = funs ->
    quiet funs saved after ->
    cur (runs s after) = cur s /\ e_fun (s_env (runs s after)) = e_fun (s_env s) /\
    e_limit (s_env (runs s after)) = e_limit (s_env s).
  Proof.
    revert s saved. induction after as [|o after IH]; intros s saved Hbc Hsv Hf Hq; [done|].
    destruct o as [ | | | |f ct m|f|dt| |fs| | ]; simpl in Hq; try done; simpl.
    - destruct (IH (fst (step s (OWrite f ct m))) saved) as (H1 & H2 & H3); try done.
    - destruct (IH (fst (step s (ORemove f))) saved) as (H1 & H2 & H3); try done.
    - destruct (IH (fst (step s (OTick dt))) saved) as (H1 & H2 & H3); try done.
    - destruct (IH (fst (step s OSave)) true) as (H1 & H2 & H3); try done.
    - destruct Hq as (-> & -> & Hq). rewrite (Hsv eq_refl).
      destruct (IH (Sys (Env (e_fs (s_env s)) (e_now (s_env s)) funs (e_limit (s_env s)))
         (Conn (base s) (base s) true) [] ∅ (s_log s)) true) as (H1 & H2 & H3); try done.
      split_and!; [|by rewrite H2|by rewrite H3]. rewrite H1. done.
  Qed.
  Lemma complete_env e e' fn bd r srcs xs xd q : e_fun e' = e_fun e -> e_limit e' = e_limit e ->
    (forall f, f ∈ srcs \/ f ∈ xs -> digest_at e' f = digest_at e f) ->
    complete e fn bd r srcs xs xd q -> complete e' fn bd r srcs xs xd q.
  Proof.
    intros Hf Hl Hd [(i & c & H1 & H2 & H3 & H4 & H5 & H6)]. split. exists i, c. split_and!; try done.
    - rewrite Hl. by eapply check_function_ext.
    - intros f Hin. rewrite Hd by auto. auto.
    - intros f Hin. rewrite Hd by auto. auto.
  Qed.

  Theorem noop (s0 : sys) os t (rq : request V R) body r after t' srcs dsts :
    equivalence_test veq -> fresh conn_empty s0 -> fs_faithful F (s_env s0) ->
    history_ok md5 BK F s0 (os ++ OBegin t rq :: body ++ OEnd t r :: after) ->
    let s := runs s0 os in
    let s1 := runs s0 (os ++ OBegin t rq :: body) in
    let s2 := runs s0 (os ++ OBegin t rq :: body ++ OEnd t r :: after) in
    snd (step s (OBegin t rq)) = RRun ->
    Forall (body_op t) body ->
    snd (step s1 (OEnd t r)) = RDone r srcs dsts ->
    quiet (e_fun (s_env s1)) false after ->
    (forall f, f ∈ srcs -> digest_at (s_env s2) f = digest_at (s_env s1) f) ->
    (forall f, f ∈ dsts -> is_Some (e_fs (s_env s2) !! f)) ->
    exists srcs' dsts', snd (step s2 (OBegin t' rq)) = RHit r srcs' dsts' /\
      (forall f, f ∈ srcs' <-> f ∈ srcs) /\ (forall f, f ∈ dsts' -> f ∈ dsts) /\
      forall gn, stored (cur (fst (step s2 (OBegin t' rq)))) gn = stored (cur s2) gn.
  Proof.
    intros Hv Hfresh Hfs0 Hhist s s1 s2 Hrun Hbody Hdone Hquiet Hsrcs Hdsts.
    destruct (history_ok_app veq md5 F s0 os _ Hhist) as [Hok Hrest]. fold s in Hrest.
    destruct Hrest as (_ & _ & Hrest).
    destruct (history_ok_app veq md5 F _ body _ Hrest) as [Hokb _].
    assert (rinv veq s) as Hr by (apply rinv_runs; [done|by apply rinv_fresh]).
    assert (winv s) as Hw by (apply winv_runs; [done|by apply rinv_fresh|by apply winv_fresh|done]).
    pose proof (winv_wf _ Hr Hw) as Hwf.
    assert (s1 = runs (fst (step s (OBegin t rq))) body) as Hs1.
    { unfold s1. rewrite runs_app. done. }
    assert (s2 = runs (fst (step s1 (OEnd t r))) after) as Hs2.
    { unfold s2. rewrite app_comm_cons, app_assoc, runs_app. done. }
    assert (rinv veq (fst (step s1 (OEnd t r)))) as Hr1.
    { apply rinv_step; [done|]. apply rinv_runs; [done|by apply rinv_fresh]. }
    destruct (begin_run s t rq Hrun) as (d & p & q & Hd & Hp & Hst).
    destruct (runs_body t body (fst (step s (OBegin t rq))) (Frame rq d p [] [] (s_env s)) (thread s t))
      as (fr & frs & Ht & Hrq & Hdg & Hpr & Hdb & Hcs & Hef & Hel & Hsame); [done|done| |].
    { rewrite Hst. by rewrite thread_insert, decide_True. }
    rewrite <- Hs1 in Ht, Hdb, Hcs, Hef, Hel, Hsame. rewrite Hst in Hdb, Hcs, Hef, Hel, Hsame. cbn [fr_req fr_digest fr_prep s_db s_callstack s_env] in *.
    pose proof (prepare_spec veq md5 F _ _ _ _ _ _ _ (wi_fs _ Hw) Hwf Hp) as [Hsh Hok'].
    specialize (Hok' p eq_refl). pose proof (sh_wf _ _ _ _ Hsh Hwf) as Hwq.
    pose proof (prepare_rowed _ _ _ _ _ _ _ (wi_fs _ Hw) Hwf Hp) as Hrows.
    pose proof (prepare_split _ _ _ _ _ _ _ Hp) as (Hcf & Hpd & Hpc & _).
    pose proof (prepare_tables veq md5 _ _ _ _ _ _ _ Hp) as Htab. destruct (tables_parts _ _ Htab) as (Tf & Tc & _ & _).
    assert (idw q) as Hidq. { eapply idw_tables; [exact Htab|]. eapply sub_idw; apply Hr. }
    assert (fs_faithful F (s_env s1)) as Hfs1.
    { assert (history_ok md5 BK F s0 (os ++ OBegin t rq :: body)) as Hok1.
      { replace (os ++ OBegin t rq :: body ++ OEnd t r :: after) with ((os ++ OBegin t rq :: body) ++ OEnd t r :: after) in Hhist by by rewrite <- app_assoc.
        by apply (history_ok_app veq md5 F) in Hhist as [? _]. }
      apply (winv_runs s0 (os ++ OBegin t rq :: body)); [done|by apply rinv_fresh|by apply winv_fresh|done]. }
    (* the end of the call *)
    simpl in Hdone. change (fst (step s1 (OEnd t r))) with (fst (end_call BK s1 t r)) in Hs2, Hr1.
    unfold end_call in Hdone, Hs2, Hr1. rewrite Ht, Hcs in Hdone, Hs2, Hr1.
    rewrite (cache_transaction veq md5 _ _ _ _ _ _ _ _ _ _ _ _ (s_db s1)) in Hdone, Hs2, Hr1.
    rewrite Hdb, Hrq, Hdg, Hpr in Hdone, Hs2, Hr1. cbn [k_cur] in Hdone, Hs2, Hr1.
    destruct (cache0 _ _ _ _ _ _ _ _ _ _ _ _ _ _ q) as [[x|[]] q'] eqn:Ec; [done|].
    cbn [fst snd] in Hdone, Hs2, Hr1. injection Hdone as <- <-.
    assert (complete (s_env s1) (rq_fun rq) (rq_bound rq) r (rq_srcs rq) (fr_xsrcs fr) (fr_xdsts fr) q') as Hcomp.
    { eapply (cache0_complete (s_env s1) (rq_fun rq) d (rq_bound rq) r (rq_srcs rq) p); [done|done|done|apply Hr1|apply (proj1 Hv)| |by rewrite Hef| |done| | |exact Ec].
      - rewrite Hel. destruct (e_limit (s_env s)); [done|lia].
      - intros Hcl. destruct (Hpc Hcl) as (i & Hi & Hs). exists i. split; [done|]. split.
        + rewrite Hel. eapply check_function_ext; [exact Hef|exact Tf|]. by rewrite Hcf, Hcl, Hi.
        + rewrite Tc. destruct (search_row veq i (rq_bound rq) (q_calls (cur s))) as [[c r0]|]; [|by rewrite Hs].
          destruct Hs as [-> _]. eauto.
      - intros f Hf. rewrite Hsame by done. by apply Hrows.
      - intros j f dg Hin. destruct (po_files _ _ _ _ _ _ _ _ _ Hok' _ _ _ Hin) as (H1 & H2 & H3). split; [done|]. by rewrite Hsame. }
    set (s1' := Sys _ _ _ _ _) in Hs2.
    destruct (runs_quiet (e_fun (s_env s1)) after s1' false) as (Hq1 & Hq2 & Hq3); [done|done|done|done|].
    rewrite <- Hs2 in Hq1, Hq2, Hq3. cbn [s1' s_db s_env k_cur] in Hq1, Hq2, Hq3.
    apply (complete_env _ (s_env s2)) in Hcomp; [|done|done|].
    2:{ intros f Hf. apply Hsrcs. rewrite elem_of_app. done. }
    apply complete_clean in Hcomp as (p' & q2 & Hp' & Hf2 & Hc2 & P1 & P2 & P3 & P4 & P5 & P6 & P7).
    exists (rq_srcs rq ++ pr_xsrcs p'), (rq_dsts rq ++ pr_xdsts p' ++ rq_ret rq r).
    assert (step s2 (OBegin t' rq) = (Sys (s_env s2) (Conn q2 (base s2) (k_version (s_db s2))) (note_callee (rq_fun rq) (s_callstack s2)) (s_threads s2) (s_log s2),
      RHit r (rq_srcs rq ++ pr_xsrcs p') (rq_dsts rq ++ pr_xdsts p' ++ rq_ret rq r))) as Hstep.
    { simpl. unfold begin_call. rewrite Hq2, Hef, Hd.
      change (b_core BK) with (sql_core (R := R) veq).
      rewrite (lifts_prepare veq md5 _ _ _ _ (s_db s2)). unfold on_cur. rewrite Hq1, Hp', P1, P2, P3, P4, P5.
      assert (forallb (exists_file (s_env s2)) (rq_ret rq r ++ rq_dsts rq ++ pr_xdsts p') = true) as ->; [|done].
      apply forallb_forall. intros f Hf%elem_of_list_In. unfold exists_file.
      destruct (Hdsts f) as [x Hx]; [|by rewrite Hx].
      rewrite !elem_of_app in Hf |- *. destruct Hf as [?|[?|?]]; [by auto|by auto|]. right. left. by apply P7. }
    rewrite Hstep. cbn [fst snd]. split; [done|]. split_and!.
    - intros f. by rewrite !elem_of_app, P6.
    - intros f. rewrite !elem_of_app. intros [?|[?|?]]; auto.
    - intros gn. cbn [s_db k_cur]. unfold stored. by rewrite Hq1, Hf2, Hc2.
  Qed.
End Noop.
