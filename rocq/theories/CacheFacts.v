(** What the generic functions do to the dictionaries of the cache backend. *)
From stdpp Require Import base list strings gmap.
From Coq Require Import ZArith.
From Verif Require Import PyMonad DbModel DbSpec CacheBackend CacheLift.

Section Facts.
  Context {V R : Type} (veq : V -> V -> bool) (md5 : content -> digest).
  Notation core0 := (cache_core0 (R := R) veq).
  Notation cdb := (cdb V R).

  (** A recorded digest whose modification time is the present one is right. *)
  Definition files_ok (e : env) (c : cdb) : Prop :=
    forall f m d ct, c_files c !! f = Some (m, d) -> e_fs e !! f = Some (m, ct) -> d = md5 ct.

  Notation cf c := (callfile (c_callfiles c)).

  (** [c'] is [c] with more known files and fewer per-call file digests. *)
  Record shrink (e : env) (c c' : cdb) : Prop := Shrink {
    sh_functions : c_functions c' = c_functions c;
    sh_calls : c_calls c' = c_calls c;
    sh_xsrcs : c_xsrcs c' = c_xsrcs c;
    sh_xdsts : c_xdsts c' = c_xdsts c;
    sh_callfiles : forall f fn i d, cf c' f fn i = Some d -> cf c f fn i = Some d;
    sh_files : files_ok e c -> files_ok e c'
  }.

  Lemma shrink_refl e c : shrink e c c.
  Proof. split; auto. Qed.

  Lemma shrink_trans e a b c : shrink e a b -> shrink e b c -> shrink e a c.
  Proof. intros [] []; split; try congruence; auto. Qed.

  Lemma callfile_delete (m : gmap name (gmap name (gmap nat digest))) (f g fn : name) (i : nat) :
    callfile (delete f m) g fn i = if decide (f = g) then None else callfile m g fn i.
  Proof.
    unfold callfile. destruct (decide (f = g)) as [->|H].
    - by rewrite lookup_delete.
    - by rewrite lookup_delete_ne.
  Qed.

  Lemma callfile_put (m : gmap name (gmap name (gmap nat digest))) (f fn : name) (i : nat) (d : digest) (g gn : name) (j : nat) :
    callfile (put_callfile m f fn i d) g gn j =
    if decide (f = g /\ fn = gn /\ i = j) then Some d else callfile m g gn j.
  Proof.
    unfold callfile, put_callfile.
    destruct (decide (f = g)) as [->|Hf].
    - rewrite lookup_insert.
      destruct (decide (fn = gn)) as [->|Hn].
      + rewrite lookup_insert.
        destruct (decide (i = j)) as [->|Hi].
        * rewrite lookup_insert. by rewrite decide_True.
        * rewrite lookup_insert_ne by done. rewrite decide_False by naive_solver.
          destruct (m !! g); simpl; [|by rewrite !lookup_empty].
          destruct (_ !! gn); simpl; [done|by rewrite lookup_empty].
      + rewrite lookup_insert_ne by done. rewrite decide_False by naive_solver.
        destruct (m !! g); simpl; [done|by rewrite lookup_empty].
    - rewrite lookup_insert_ne by done. by rewrite decide_False by naive_solver.
  Qed.

  Lemma callfile_purge (m : gmap name (gmap name (gmap nat digest))) (f fn gn : name) (i : nat) :
    callfile (purge_callfiles fn m) f gn i =
    if decide (fn = gn) then None else callfile m f gn i.
  Proof.
    unfold callfile, purge_callfiles. rewrite lookup_omap.
    destruct (m !! f) as [v|] eqn:E; simpl; [|by destruct (decide _)].
    destruct (decide (delete fn v = ∅)) as [H|H]; simpl.
    - destruct (decide (fn = gn)) as [->|Hn]; [done|].
      assert (delete fn v !! gn = None) as H' by (rewrite H; apply lookup_empty).
      rewrite lookup_delete_ne in H' by done. by rewrite H'.
    - destruct (decide (fn = gn)) as [->|Hn].
      + by rewrite lookup_delete.
      + by rewrite lookup_delete_ne by done.
  Qed.

  Lemma add_file_spec (e : env) (f : name) (c : cdb) :
    files_ok e c ->
    match e_fs e !! f with
    | None => add_file md5 core0 e f c = (inl OSErr, c)
    | Some (m, ct) =>
        exists b : bool, add_file md5 core0 e f c =
          (inr (b, f, md5 ct),
           Cdb (c_functions c) (c_calls c) (<[f := (m, md5 ct)]> (c_files c))
               (if b then delete f (c_callfiles c) else c_callfiles c)
               (c_xsrcs c) (c_xdsts c))
          /\ (b = false -> exists m', c_files c !! f = Some (m', md5 ct))
    end.
  Proof.
    intros Hok. unfold add_file, bind, ret, raise. cbn.
    destruct (e_fs e !! f) as [[m ct]|] eqn:Ef.
    2:{ destruct (c_files c !! f) as [[??]|]; reflexivity. }
    destruct (c_files c !! f) as [[om od]|] eqn:Ec; cbn.
    - destruct (Z.eqb m om && Z.ltb one_second (e_now e - m))%bool eqn:Esh; cbn.
      + apply andb_prop in Esh as [Hm _]. apply Z.eqb_eq in Hm as ->.
        pose proof (Hok _ _ _ _ Ec Ef) as ->.
        exists false. split; [|eauto].
        f_equal. destruct c; simpl in *. by rewrite insert_id.
      + destruct (String.eqb _ _) eqn:Ed; cbn.
        * apply String.eqb_eq in Ed. exists false.
          split; [done|]. intros _. exists om. by rewrite Ed.
        * exists true. split; [|done]. f_equal. f_equal. by rewrite insert_delete_insert.
    - exists true. split; [|done]. f_equal. f_equal. by rewrite insert_delete_insert.
  Qed.

  Lemma add_file_shrink e f c r c' :
    files_ok e c -> add_file md5 core0 e f c = (r, c') -> shrink e c c'.
  Proof.
    intros Hok H. pose proof (add_file_spec e f c Hok) as Hs.
    destruct (e_fs e !! f) as [[m ct]|] eqn:Ef.
    - destruct Hs as (b & Hs & _). rewrite Hs in H. injection H as <- <-.
      split; simpl; auto.
      + intros g gn i d. destruct b; [|done]. rewrite callfile_delete.
        by destruct (decide _).
      + intros _ g m' d ct'. simpl. destruct (decide (f = g)) as [->|Hne].
        * rewrite lookup_insert. intros [= <- <-]. rewrite Ef. by intros [= <-].
        * rewrite lookup_insert_ne by done. apply Hok.
    - rewrite Hs in H. injection H as <- <-. apply shrink_refl.
  Qed.

  Lemma check_call_file_spec e cid f c r c' :
    files_ok e c ->
    check_call_file md5 core0 e cid f c = (r, c') ->
    shrink e c c' /\
    match r with
    | inl x => x = OSErr /\ e_fs e !! f = None
    | inr (b, fid, d) =>
        fid = f /\ digest_at md5 e f = Some d /\
        (cid = None -> b = true) /\
        (forall gn i, cid = Some (gn, i) -> b = false -> cf c' f gn i = Some d)
    end.
  Proof.
    intros Hok H. unfold check_call_file, bind in H.
    pose proof (add_file_spec e f c Hok) as Hs.
    destruct (add_file md5 core0 e f c) as [ra ca] eqn:Ea.
    pose proof (add_file_shrink _ _ _ _ _ Hok Ea) as Hsh.
    unfold digest_at.
    destruct (e_fs e !! f) as [[m ct]|] eqn:Ef.
    - destruct Hs as (b & Hs & _). injection Hs as -> ->. simpl in H.
      destruct cid as [[gn i]|]; cbn in H.
      + destruct (callfile _ f gn i) as [o|] eqn:Eo.
        * destruct (String.eqb (md5 ct) o) eqn:Ed; injection H as <- <-.
          -- split; [done|]. repeat split; auto. { done. }
             intros ? ? [= <- <-] _. cbn. rewrite Eo. apply String.eqb_eq in Ed. by subst.
          -- split; [done|]. repeat split; auto. { done. }
        * injection H as <- <-. split; [done|]. repeat split; auto. { done. }
      + injection H as <- <-. split; [done|]. repeat split; auto. done.
    - injection Hs as -> ->. injection H as <- <-. auto.
  Qed.

  Lemma check_call_files_spec e cid fs c r c' :
    files_ok e c ->
    check_call_files md5 core0 e cid fs c = (r, c') ->
    shrink e c c' /\
    match r with
    | inl _ => True
    | inr ds =>
        (forall fid f d, (fid, f, d) ∈ ds -> fid = f /\ f ∈ fs /\ digest_at md5 e f = Some d) /\
        (forall f, f ∈ fs -> is_Some (digest_at md5 e f)) /\
        (cid = None -> forall f, f ∈ fs -> exists d, (f, f, d) ∈ ds) /\
        (forall gn i, cid = Some (gn, i) -> forall f, f ∈ fs ->
           (exists d, (f, f, d) ∈ ds) \/
           (exists d, digest_at md5 e f = Some d /\ cf c f gn i = Some d))
    end.
  Proof.
    revert c r c'. induction fs as [|f fs IH]; intros c r c' Hok H; simpl in H.
    - injection H as <- <-. split; [apply shrink_refl|].
      repeat split; intros; try (by set_solver).
    - unfold bind in H.
      destruct (check_call_file md5 core0 e cid f c) as [r1 c1] eqn:E1.
      pose proof (check_call_file_spec _ _ _ _ _ _ Hok E1) as [Hsh1 H1].
      destruct r1 as [x|[[b fid] d]].
      { injection H as <- <-. auto. }
      destruct H1 as (-> & Hd & Hn & Hc).
      destruct (check_call_files md5 core0 e cid fs c1) as [r2 c2] eqn:E2.
      apply IH in E2 as [Hsh2 H2]; [|by apply Hsh1].
      destruct r2 as [x|ds].
      { injection H as <- <-. split; [by eapply shrink_trans|done]. }
      injection H as <- <-.
      split; [by eapply shrink_trans|].
      destruct H2 as (A & A' & B & C).
      repeat split.
      + destruct b; [|naive_solver].
        apply elem_of_cons in H as [[= -> -> ->]|H]; [done|naive_solver].
      + destruct b; [|set_solver].
        apply elem_of_cons in H as [[= -> -> ->]|H]; [set_solver|].
        apply A in H as (_&?&_). set_solver.
      + destruct b; [|naive_solver].
        apply elem_of_cons in H as [[= -> -> ->]|H]; [done|naive_solver].
      + intros g [->|Hg]%elem_of_cons; [by eexists|auto].
      + intros -> g [->|Hg]%elem_of_cons.
        * rewrite (Hn eq_refl). exists d. set_solver.
        * destruct (B eq_refl g Hg) as [d' ?]. exists d'. destruct b; set_solver.
      + intros gn i -> g [->|Hg]%elem_of_cons.
        * destruct b; [left; exists d; set_solver|].
          right. exists d. split; [done|]. apply Hsh1. eapply Hc; eauto.
        * destruct (C gn i eq_refl g Hg) as [[d' ?]|[d' [? ?]]].
          -- left. exists d'. destruct b; set_solver.
          -- right. exists d'. split; [done|]. by apply Hsh1.
  Qed.

  Lemma check_external_loop_spec e gn i fs c r c' :
    files_ok e c ->
    check_external_loop md5 core0 e (gn, i) fs c = (r, c') ->
    shrink e c c' /\
    match r with
    | inl _ => False
    | inr ds =>
        ds = [] -> forall f d, f ∈ fs -> digest_at md5 e f = Some d -> cf c f gn i = Some d
    end.
  Proof.
    revert c r c'. induction fs as [|f fs IH]; intros c r c' Hok H; simpl in H.
    - injection H as <- <-. split; [apply shrink_refl|]. set_solver.
    - unfold bind, try_os in H.
      destruct (check_call_file md5 core0 e (Some (gn, i)) f c) as [r1 c1] eqn:E1.
      pose proof (check_call_file_spec _ _ _ _ _ _ Hok E1) as [Hsh1 H1].
      destruct r1 as [x|[[b fid] d]].
      + destruct H1 as [-> Hno].
        destruct (check_external_loop md5 core0 e (gn, i) fs c1) as [r2 c2] eqn:E2.
        apply IH in E2 as [Hsh2 H2]; [|by apply Hsh1].
        destruct r2 as [?|ds]; [done|]. injection H as <- <-.
        split; [by eapply shrink_trans|].
        intros Hds g d [->|Hg]%elem_of_cons Hdg.
        * unfold digest_at in Hdg. by rewrite Hno in Hdg.
        * apply Hsh1. by eapply H2.
      + destruct H1 as (-> & Hd & _ & Hc).
        destruct (check_external_loop md5 core0 e (gn, i) fs c1) as [r2 c2] eqn:E2.
        apply IH in E2 as [Hsh2 H2]; [|by apply Hsh1].
        destruct r2 as [?|ds]; [done|]. injection H as <- <-.
        split; [by eapply shrink_trans|].
        intros Hds g d' [->|Hg]%elem_of_cons Hdg.
        * destruct b; [done|]. rewrite Hd in Hdg. injection Hdg as <-.
          apply Hsh1. by eapply Hc.
        * apply Hsh1. eapply H2; try done. by destruct b.
  Qed.

  Lemma check_function_pure n e fn c r c' :
    check_function core0 n e fn c = (r, c') -> c' = c.
  Proof.
    revert fn c r c'. induction n as [|n IH]; intros fn c r c' H; simpl in H.
    - by injection H as <- <-.
    - destruct (e_fun e !! fn) as [d|]; [|by injection H as <- <-].
      unfold bind in H. cbn in H.
      destruct (c_functions c !! fn) as [[od deps]|]; cbn in H.
      2:{ by injection H as <- <-. }
      destruct (String.eqb d od); cbn in H; [|by injection H as <- <-].
      revert H.
      set (chk := (fix check_deps (ds : list name) : M _ bool := _)).
      assert (forall ds c r c', chk ds c = (r, c') -> c' = c) as Hl.
      { induction ds as [|dep ds IHd]; intros c0 r0 c0' H0; simpl in H0.
        - by injection H0 as <- <-.
        - unfold bind in H0.
          destruct (check_function core0 n e dep c0) as [r1 c1] eqn:E1.
          apply IH in E1 as ->.
          destruct r1 as [x|[[] fid]]; simpl in H0; try by injection H0 as <- <-.
          eauto. }
      destruct (chk _ c) as [r1 c1] eqn:E1. apply Hl in E1 as ->.
      destruct r1; intros [= <- <-]; done.
  Qed.

  Lemma check_function_spec n e fn c b fid c' :
    check_function core0 n e fn c = (inr (b, fid), c') ->
    exists d, e_fun e !! fn = Some d /\
    (fid = None -> c_functions c !! fn = None /\ b = true) /\
    (forall x, fid = Some x -> x = fn) /\
    (b = false -> exists deps, c_functions c !! fn = Some (d, deps)).
  Proof.
    destruct n as [|n]; intros H; simpl in H; [done|].
    destruct (e_fun e !! fn) as [d|]; [|done]. exists d. split; [done|].
    unfold bind in H. cbn in H.
    destruct (c_functions c !! fn) as [[od deps]|]; cbn in H.
    2:{ injection H as <- <- <-. repeat split; congruence. }
    destruct (String.eqb d od) eqn:Ed; cbn in H.
    2:{ injection H as <- <- <-. repeat split; congruence. }
    revert H. set (chk := (fix check_deps (ds : list name) : M _ bool := _)).
    destruct (chk _ c) as [[x|dd] c1]; cbn; [done|].
    intros [= <- <- <-]. apply String.eqb_eq in Ed as ->.
    repeat split; try congruence. eauto.
  Qed.

  Lemma search_call_spec (b : V) (i : nat) (ds : list (V * R)) (j : nat) (r : R) :
    search_call veq b i ds = Some (j, r) ->
    exists k b', j = i + k /\ ds !! k = Some (b', r) /\ veq b b' = true.
  Proof.
    revert i. induction ds as [|[ob r0] ds IH]; intros i H; simpl in H; [done|].
    destruct (veq b ob) eqn:E.
    - injection H as <- <-. exists 0, ob. rewrite Nat.add_0_r. auto.
    - apply IH in H as (k & b' & -> & ? & ?). exists (S k), b'.
      rewrite Nat.add_succ_r. auto.
  Qed.

  Lemma search_call_none (b : V) (i : nat) (ds : list (V * R)) b' r :
    search_call veq b i ds = None -> (b', r) ∈ ds -> veq b b' = false.
  Proof.
    revert i. induction ds as [|[ob r0] ds IH]; intros i H; simpl in H; [by intros ?%elem_of_nil|].
    destruct (veq b ob) eqn:E; [done|]. intros [[= -> ->]|Hin]%elem_of_cons; [done|by eapply IH].
  Qed.

  Record prep_ok (e : env) (fn : name) (b : V) (srcs : list name) (c : cdb)
      (p : prepared R name (name * nat) name) : Prop := PrepOk {
    po_digest : is_Some (e_fun e !! fn);
    po_fid : forall x, pr_fun_id p = Some x -> x = fn;
    po_nofid : pr_fun_id p = None -> c_functions c !! fn = None;
    po_clean : pr_fun_dirty p = false ->
      pr_fun_id p = Some fn /\
      exists d deps, e_fun e !! fn = Some d /\ c_functions c !! fn = Some (d, deps);
    po_cid : forall x, pr_call_id p = Some x ->
      exists i ds b' r, x = (fn, i) /\ pr_fun_dirty p = false /\
        c_calls c !! fn = Some ds /\ ds !! i = Some (b', r) /\ veq b b' = true /\
        pr_old_result p = Some r;
    po_none : pr_fun_dirty p = false -> pr_call_id p = None -> forall ds b' r,
      c_calls c !! fn = Some ds -> (b', r) ∈ ds -> veq b b' = false;
    po_call_dirty : pr_call_dirty p = false -> is_Some (pr_call_id p);
    po_files : forall fid f d, (fid, f, d) ∈ pr_files p ->
      fid = f /\ f ∈ srcs /\ digest_at md5 e f = Some d;
    po_exist : forall f, f ∈ srcs -> is_Some (digest_at md5 e f);
    po_all : pr_call_id p = None -> forall f, f ∈ srcs -> exists d, (f, f, d) ∈ pr_files p;
    po_same : forall gn i, pr_call_id p = Some (gn, i) -> forall f, f ∈ srcs ->
      (exists d, (f, f, d) ∈ pr_files p) \/
      (exists d, digest_at md5 e f = Some d /\ cf c f gn i = Some d);
    po_xsrcs : forall x, pr_call_id p = Some x ->
      pr_xsrcs p = xfind (c_xsrcs c) x /\ pr_xdsts p = xfind (c_xdsts c) x;
    po_x : forall gn i, pr_call_id p = Some (gn, i) -> pr_xfiles p = [] ->
      forall f d, f ∈ pr_xsrcs p -> digest_at md5 e f = Some d -> cf c f gn i = Some d
  }.

  Lemma prepare_spec e fn b srcs c r c' :
    files_ok e c ->
    prepare md5 core0 e fn b srcs c = (r, c') ->
    shrink e c c' /\ forall p, r = inr p -> prep_ok e fn b srcs c p.
  Proof.
    intros Hok H. unfold prepare, bind in H.
    destruct (check_function core0 (e_limit e) e fn c) as [r1 c1] eqn:E1.
    pose proof (check_function_pure _ _ _ _ _ _ E1) as ->.
    destruct r1 as [x|[fd fid]].
    { injection H as <- <-. split; [apply shrink_refl|done]. }
    pose proof (check_function_spec _ _ _ _ _ _ _ E1) as (d & Hd & Hnone & Hsome & Hclean).
    set (fc := match fd, fid with
               | false, Some fid0 => find_call core0 fid0 b
               | _, _ => ret (true, None, None)
               end) in H.
    assert (exists cd cid old, fc c = (inr (cd, cid, old), c) /\
      (forall x, cid = Some x -> exists i ds b' r, x = (fn, i) /\ fd = false /\
        c_calls c !! fn = Some ds /\ ds !! i = Some (b', r) /\ veq b b' = true /\ old = Some r)
      /\ (cd = false -> is_Some cid)
      /\ (fd = false -> cid = None -> forall ds b' r, c_calls c !! fn = Some ds -> (b', r) ∈ ds -> veq b b' = false))
      as (cd & cid & old & Hfc & Hcid & Hcd & Hnof).
    { unfold fc. destruct fd.
      - exists true, None, None. split_and!; done.
      - destruct fid as [fid|].
        + rewrite (Hsome _ eq_refl). cbn. unfold c_find_call.
          destruct (c_calls c !! fn) as [ds|] eqn:Ec.
          * destruct (search_call veq b 0 ds) as [[j r0]|] eqn:Es.
            -- apply search_call_spec in Es as (k & b' & -> & Hk & Hv).
               exists false, (Some (fn, k)), (Some r0). split; [done|]. split; [|split; [eauto|done]].
               intros ? [= <-]. exists k, ds, b', r0. by split_and!.
            -- exists true, None, None. split_and!; try done. intros _ _ ds' b' r' [= <-].
               by eapply search_call_none.
          * exists true, None, None. split_and!; done.
        + exists true, None, None. split_and!; try done. intros _. by destruct (Hnone eq_refl). }
    rewrite Hfc in H.
    destruct (check_call_files md5 core0 e cid srcs c) as [r2 c2] eqn:E2.
    pose proof (check_call_files_spec _ _ _ _ _ _ Hok E2) as [Hsh2 H2].
    destruct r2 as [x|files].
    { injection H as <- <-. split; [done|done]. }
    destruct H2 as (A & A' & B & C).
    destruct cid as [[gn i]|].
    - unfold check_external_files, bind in H. cbn in H.
      set (xs := xfind (c_xsrcs c2) (gn, i)) in H.
      set (xd := xfind (c_xdsts c2) (gn, i)) in H.
      destruct (check_external_loop md5 core0 e (gn, i) xs c2) as [r3 c3] eqn:E3.
      pose proof (check_external_loop_spec _ _ _ _ _ _ _ (sh_files _ _ _ Hsh2 Hok) E3) as [Hsh3 H3].
      destruct r3 as [?|xf]; [done|]. cbn in H. injection H as <- <-.
      split; [by eapply shrink_trans|].
      intros p [= <-]. split; simpl; auto.
      + intros ?. by apply Hnone.
      + intros ->. destruct fid as [fid|]; [rewrite (Hsome _ eq_refl)|by destruct (Hnone eq_refl)].
        split; [done|]. destruct (Hclean eq_refl) as [deps ?]. eauto.
      + intros x [= <-]. unfold xs, xd. by rewrite (sh_xsrcs _ _ _ Hsh2), (sh_xdsts _ _ _ Hsh2).
      + intros ? ? [= <- <-] -> f dg Hf Hdg. apply Hsh2. by eapply H3.
    - cbn in H. injection H as <- <-.
      split; [done|]. intros p [= <-]. split; simpl; auto; try done.
      + intros ?. by apply Hnone.
      + intros ->. destruct fid as [fid|]; [rewrite (Hsome _ eq_refl)|by destruct (Hnone eq_refl)].
        split; [done|]. destruct (Hclean eq_refl) as [deps ?]. eauto.
  Qed.
End Facts.
