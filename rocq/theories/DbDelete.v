(** Operations on one function leave the records of the others alone, and what
    deleting a function or a file does (pickle engine). *)
From stdpp Require Import base list strings gmap.
From Coq Require Import ZArith Lia.
From Verif Require Import PyMonad DbModel DbSpec CacheBackend CacheLift CacheFacts DbHistory CacheProv.

Section Delete.
  Context {V R : Type} (veq : V -> V -> bool) (md5 : content -> digest).
  Notation BK := (cache_backend (V := V) (R := R) veq md5).
  Notation core0 := (cache_core0 (R := R) veq).
  Notation cdb := (cdb V R).
  Notation sys := (sys V R (pdb V R) name (name * nat) name).
  Notation op := (op V R).
  Notation mem s := (p_mem (s_db s)).
  Notation step := (step md5 BK).
  Notation runs := (runs md5 BK).

  Definition same_records (gn : name) (c c' : cdb) : Prop :=
    c_calls c' !! gn = c_calls c !! gn /\ c_functions c' !! gn = c_functions c !! gn /\
    c_xsrcs c' !! gn = c_xsrcs c !! gn /\ c_xdsts c' !! gn = c_xdsts c !! gn.

  (** The cached function an operation deals with: the callee of a call, the
      innermost running function of the thread, or the function deleted. *)
  Definition subject (s : sys) (o : op) : option name :=
    match o with
    | OBegin _ rq => Some (rq_fun rq)
    | OEnd t _ | ORaise t | OAddExt t _ _ _ =>
        match thread s t with [] => None | fr :: _ => Some (rq_fun (fr_req fr)) end
    | ODelFun f => Some f
    | _ => None
    end.

  Lemma frame_step (s : sys) (o : op) gn :
    pinv s -> (forall funs, o <> ORestart funs) -> subject s o <> Some gn ->
    same_records gn (mem s) (mem (fst (step s o))).
  Proof.
    intros Hinv Hr Hs. unfold same_records.
    destruct o as [t rq|t xs xd g|t r|t|f ct m|f|dt| |funs|f|f]; simpl in *; try done.
    - unfold begin_call. destruct (e_fun (s_env s) !! rq_fun rq) as [d|] eqn:Ed; [|done].
      destruct (prepare md5 _ _ _ _ _ _) as [res db] eqn:Ep.
      pose proof (begin_basic veq md5 _ _ _ _ Ep) as (_ & [] & _).
      destruct res as [x|p]; simpl; [by split_and!; f_equal|].
      destruct (pr_fun_dirty p), (pr_call_dirty p), (pr_files p), (pr_xfiles p), (pr_old_result p);
        try destruct (forallb _ _); simpl; by split_and!; f_equal.
    - unfold end_call. destruct (thread s t) as [|fr frs] eqn:Et; [done|].
      destruct (s_callstack s) as [|deps cs]; [done|].
      rewrite (lifts_cache veq md5 _ _ _ _ _ _ _ _ _ _ _ _ (s_db s)). unfold on_mem.
      destruct (cache0 _ _ _ _ _ _ _ _ _ _ _ _ _ _ (mem s)) as [res c'] eqn:Ec.
      apply cache0_calls in Ec as [Hoth _].
      + destruct res; apply Hoth; congruence.
      + intros x. apply (pv_frames _ Hinv t). rewrite Et. by left.
    - unfold raise_call. by destruct (thread s t).
    - by destruct (Hr funs).
    - rewrite !lookup_delete_ne by congruence. done.
  Qed.

  Lemma frame_reachable (s0 : sys) os o gn :
    fresh pdb_empty s0 -> (forall funs, o <> ORestart funs) ->
    let s := runs s0 os in subject s o <> Some gn ->
    same_records gn (mem s) (mem (fst (step s o))).
  Proof. intros Hf Hr s Hs. apply frame_step; [|done|done]. by apply pinv_runs, pinv_fresh. Qed.

  (** ** delete_function *)

  (** The six tables mention function [fn]. *)
  Definition mentions (c : cdb) (fn : name) : Prop :=
    is_Some (c_functions c !! fn) \/ is_Some (c_calls c !! fn) \/
    is_Some (c_xsrcs c !! fn) \/ is_Some (c_xdsts c !! fn) \/
    exists f m, c_callfiles c !! f = Some m /\ is_Some (m !! fn).

  Definition cf_full (c : cdb) : Prop := forall f, c_callfiles c !! f <> Some ∅.

  Lemma cf_full_put m f fn i d :
    (forall g, m !! g <> Some ∅) -> forall g, put_callfile m f fn i d !! g <> Some ∅.
  Proof.
    intros H g. unfold put_callfile. destruct (decide (f = g)) as [->|Hn].
    - rewrite lookup_insert. intros [= E].
      assert (is_Some ((∅ : gmap name (gmap nat digest)) !! fn)) as [? Hx].
      { rewrite <- E, lookup_insert. eauto. }
      by rewrite lookup_empty in Hx.
    - rewrite lookup_insert_ne by done. apply H.
  Qed.

  Definition pres (P : cdb -> Prop) {A} (m : M cdb A) : Prop := forall c, P c -> P (snd (m c)).

  Lemma pres_ret P {A} (a : A) : pres P (ret a).
  Proof. by intros c. Qed.
  Lemma pres_raise P {A} x : pres P (A := A) (raise x).
  Proof. by intros c. Qed.
  Lemma pres_bind P {A B} (m : M cdb A) (k : A -> M cdb B) :
    pres P m -> (forall a, pres P (k a)) -> pres P (bind m k).
  Proof.
    intros Hm Hk c Hc. unfold bind. specialize (Hm c Hc). destruct (m c) as [[x|a] c1]; simpl in *; [done|].
    by apply Hk.
  Qed.
  Lemma pres_try P {A} (m : M cdb A) : pres P m -> pres P (try_os m).
  Proof. intros Hm c Hc. unfold try_os. specialize (Hm c Hc). by destruct (m c) as [[[]|a] c1]. Qed.

  (** A property of the table _call_files that survives removing files. *)
  Section Stable.
    Context (Q : gmap name (gmap name (gmap nat digest)) -> Prop).
    Context (Qdel : forall m f, Q m -> Q (delete f m)).
    Let P (c : cdb) := Q (c_callfiles c).

    Lemma pres_add_file e f : pres P (add_file md5 core0 e f).
    Proof.
      unfold add_file. apply pres_bind; [by intros c|]. intros [[fid om] od].
      destruct (e_fs e !! f) as [[mt ct]|]; [|apply pres_raise].
      assert (forall b : bool, pres P
        (if b then
          let* fid' := save_file core0 fid f mt (md5 ct) in
          ret (false, match fid with Some i => i | None => fid' end, md5 ct)
        else
          let* _ := match fid with Some _ => delete_file core0 f | None => ret true end in
          let* fid' := save_file core0 None f mt (md5 ct) in
          ret (true, fid', md5 ct))) as Hslow.
      { intros [].
        - apply pres_bind; [by intros c|]. intros ?. apply pres_ret.
        - apply pres_bind.
          + destruct fid; [|apply pres_ret]. intros c Hc. by apply Qdel.
          + intros _. apply pres_bind; [by intros c|]. intros ?. apply pres_ret. }
      destruct om as [om|], od as [od|], fid as [i|]; first [exact (Hslow false) | exact (Hslow _) | idtac].
      destruct (Z.eqb mt om && Z.ltb one_second (e_now e - mt))%bool;
        [apply pres_ret|exact (Hslow _)].
    Qed.

    Lemma pres_check_call_file e cid f : pres P (check_call_file md5 core0 e cid f).
    Proof.
      unfold check_call_file. apply pres_bind; [apply pres_add_file|]. intros [[d fid] dg].
      destruct cid as [c|]; [|apply pres_ret]. apply pres_bind; [by intros ?|].
      intros [o|]; [destruct (String.eqb _ _)|]; apply pres_ret.
    Qed.
    Lemma pres_check_call_files e cid fs : pres P (check_call_files md5 core0 e cid fs).
    Proof.
      induction fs as [|f fs IH]; simpl; [apply pres_ret|].
      apply pres_bind; [apply pres_check_call_file|]. intros [[??]?].
      apply pres_bind; [exact IH|]. intros. apply pres_ret.
    Qed.
    Lemma pres_external_loop e c fs : pres P (check_external_loop md5 core0 e c fs).
    Proof.
      induction fs as [|f fs IH]; simpl; [apply pres_ret|].
      apply pres_bind; [apply pres_try, pres_check_call_file|]. intros ?.
      apply pres_bind; [exact IH|]. intros. apply pres_ret.
    Qed.
    Lemma pres_check_function n e fn : pres P (check_function core0 n e fn).
    Proof.
      intros c Hc. destruct (check_function core0 n e fn c) as [r c'] eqn:E.
      by apply check_function_pure in E as ->.
    Qed.
    Lemma pres_prepare e fn b srcs : pres P (prepare md5 core0 e fn b srcs).
    Proof.
      unfold prepare.
      apply pres_bind; [apply pres_check_function|]. intros [fd fid].
      apply pres_bind.
      { destruct fd, fid; try apply pres_ret. by intros c. }
      intros [[cd cid] old].
      apply pres_bind; [apply pres_check_call_files|]. intros files.
      apply pres_bind; [|intros [[??]?]; apply pres_ret].
      destruct cid; [|apply pres_ret].
      unfold check_external_files. apply pres_bind; [by intros ?|]. intros xs.
      apply pres_bind; [by intros ?|]. intros xd. apply pres_bind; [apply pres_external_loop|].
      intros. apply pres_ret.
    Qed.
    Lemma pres_add_files e fs : pres P (c_add_files (R:=R) veq md5 e fs).
    Proof.
      induction fs as [|f fs IH]; simpl; [apply pres_ret|].
      apply pres_bind; [apply pres_add_file|]. intros [[??]?].
      apply pres_bind; [exact IH|]. intros. apply pres_ret.
    Qed.

    Context (Qput : forall m f fn i d, Q m -> Q (put_callfile m f fn i d)).
    Context (Qpurge : forall m fn, Q m -> Q (purge_callfiles fn m)).

    Lemma pres_save_call_files c ds : pres P (save_call_files core0 c ds).
    Proof.
      induction ds as [|[[??]?] ds IH]; simpl; [apply pres_ret|].
      apply pres_bind; [|done]. intros c' Hc. by apply Qput.
    Qed.
    Lemma pres_cache0 e fd fid fn dg deps cid b r files xs xd :
      pres P (cache0 (R:=R) veq md5 e fd fid fn dg deps cid b r files xs xd).
    Proof.
      unfold cache0. apply pres_bind.
      { destruct fd; [|apply pres_ret]. apply pres_bind.
        - destruct fid; [|apply pres_ret]. intros c Hc. by apply Qpurge.
        - intros _. apply pres_bind; [by intros c|]. intros; apply pres_ret. }
      intros [i|]; [|apply pres_raise]. apply pres_bind.
      { intros c Hc. simpl. unfold c_save_call.
        destruct (c_calls c !! i) as [ds|]; [|done].
        destruct cid as [[? j]|]; [|done]. by destruct (decide _). }
      intros c. apply pres_bind; [apply pres_save_call_files|]. intros _.
      apply pres_bind; [by intros ?|]. intros _.
      apply pres_bind; [apply pres_add_files|]. intros ds. apply pres_save_call_files.
    Qed.

    Lemma pres_step (s : sys) o :
      P (mem s) -> P (p_disk (s_db s)) ->
      P (mem (fst (step s o))) /\ P (p_disk (s_db (fst (step s o)))).
    Proof.
      intros Hm Hd. destruct o as [t rq|t xs xd g|t r|t|f ct m|f|dt| |funs|f|f]; simpl; try done.
      - unfold begin_call. destruct (e_fun (s_env s) !! rq_fun rq) as [d|] eqn:Ed; [|done].
        rewrite (lifts_prepare veq md5 _ _ _ _ (s_db s)). unfold on_mem.
        pose proof (pres_prepare (s_env s) (rq_fun rq) (rq_bound rq) (rq_srcs rq) _ Hm) as Hp.
        destruct (prepare md5 core0 _ _ _ _ _) as [res c]. simpl in *.
        destruct res as [x|p]; [done|].
        destruct (pr_fun_dirty p), (pr_call_dirty p), (pr_files p), (pr_xfiles p), (pr_old_result p);
          try destruct (forallb _ _); done.
      - unfold end_call. destruct (thread s t) as [|fr frs] eqn:Et; [done|].
        destruct (s_callstack s) as [|deps cs]; [done|].
        rewrite (lifts_cache veq md5 _ _ _ _ _ _ _ _ _ _ _ _ (s_db s)). unfold on_mem.
        match goal with |- context [cache0 ?a ?b ?c ?d ?e ?f ?g ?h ?i ?j ?k ?l ?m ?n ?o] =>
          pose proof (pres_cache0 c d e f g h i j k l m n _ Hm) as Hp;
          destruct (cache0 a b c d e f g h i j k l m n o) as [[x|[]] c'] end; done.
      - unfold raise_call. by destruct (thread s t).
      - split; [|done]. by apply Qpurge.
      - split; [|done]. by apply Qdel.
    Qed.

    Lemma pres_runs (s : sys) os :
      P (mem s) -> P (p_disk (s_db s)) ->
      P (mem (runs s os)) /\ P (p_disk (s_db (runs s os))).
    Proof.
      revert s. induction os as [|o os IH]; intros s Hm Hd; [done|].
      destruct (pres_step s o Hm Hd). by apply IH.
    Qed.
  End Stable.

  Lemma cf_full_runs (s0 : sys) os : fresh pdb_empty s0 -> cf_full (mem (runs s0 os)).
  Proof.
    intros (Hdb & _). unfold cf_full.
    apply (pres_runs (fun m => forall f, m !! f <> Some ∅)).
    - intros m f H g. destruct (decide (f = g)) as [->|Hn].
      + by rewrite lookup_delete.
      + rewrite lookup_delete_ne by done. apply H.
    - intros. by apply cf_full_put.
    - intros m fn H g. unfold purge_callfiles. rewrite lookup_omap.
      destruct (m !! g) as [v|] eqn:E; simpl; [|done].
      destruct (decide (delete fn v = ∅)); [done|congruence].
    - rewrite Hdb. intros f. simpl. by rewrite lookup_empty.
    - rewrite Hdb. intros f. simpl. by rewrite lookup_empty.
  Qed.

  Lemma in_callfiles_spec (c : cdb) fn :
    cf_full c ->
    in_callfiles fn (c_callfiles c) = true <->
    exists f m, c_callfiles c !! f = Some m /\ is_Some (m !! fn).
  Proof.
    intros Hf. unfold in_callfiles. rewrite existsb_exists. split.
    - intros ([f m] & Hin & H). rewrite <- elem_of_list_In, elem_of_map_to_list in Hin.
      simpl in H. exists f, m. split; [done|].
      destruct (m !! fn); [eauto|]. apply bool_decide_eq_true in H as ->. by destruct (Hf f).
    - intros (f & m & H & [x Hx]). exists (f, m). split.
      + rewrite <- elem_of_list_In. by apply elem_of_map_to_list.
      + simpl. by rewrite Hx.
  Qed.

  Lemma isS_true {A} (o : option A) : isS o = true <-> is_Some o.
  Proof. destruct o; simpl; split; try done; eauto. by intros [? [=]]. Qed.

  Lemma delete_function_mentions (c : cdb) fn gn :
    mentions (snd (c_delete_function fn c)) gn <-> gn <> fn /\ mentions c gn.
  Proof.
    unfold mentions. simpl. destruct (decide (gn = fn)) as [->|Hn].
    - rewrite !lookup_delete. split; [|tauto].
      intros [[? H]|[[? H]|[[? H]|[[? H]|(f & m & H & Hm)]]]]; try done.
      unfold purge_callfiles in H. rewrite lookup_omap in H.
      destruct (c_callfiles c !! f) as [v|]; simpl in H; [|done].
      destruct (decide _); [done|]. injection H as <-. rewrite lookup_delete in Hm. by destruct Hm.
    - rewrite !lookup_delete_ne by done.
      assert ((exists f m, purge_callfiles fn (c_callfiles c) !! f = Some m /\ is_Some (m !! gn)) <->
              (exists f m, c_callfiles c !! f = Some m /\ is_Some (m !! gn))) as ->; [|tauto].
      unfold purge_callfiles. split.
      + intros (f & m & H & Hm). rewrite lookup_omap in H.
        destruct (c_callfiles c !! f) as [v|] eqn:E; simpl in H; [|done].
        destruct (decide _); [done|]. injection H as <-. rewrite lookup_delete_ne in Hm by done. eauto.
      + intros (f & m & H & Hm). exists f, (delete fn m). rewrite lookup_omap, H. simpl.
        rewrite lookup_delete_ne by done. split; [|done].
        destruct (decide _) as [E|]; [|done].
        rewrite <- (lookup_delete_ne m fn gn), E, lookup_empty in Hm by done. by destruct Hm.
  Qed.

  (** A function the database does not know runs. *)
  Lemma unknown_runs (s : sys) t (rq : request V R) r srcs dsts :
    c_calls (mem s) !! rq_fun rq = None ->
    snd (step s (OBegin t rq)) <> RHit r srcs dsts.
  Proof.
    intros Hc Hhit. revert Hhit. simpl. unfold begin_call.
    destruct (e_fun (s_env s) !! rq_fun rq) as [d|] eqn:Ed; [|done].
    destruct (prepare md5 _ _ _ _ _ _) as [res db] eqn:Ep.
    pose proof (begin_basic veq md5 _ _ _ _ Ep) as (Hdk & Hsh & Hok).
    destruct res as [x|p]; [done|]. specialize (Hok p eq_refl) as [_ Hres].
    destruct (pr_fun_dirty p) eqn:E1; [done|].
    destruct (pr_call_dirty p) eqn:E2; [done|].
    destruct (pr_files p) as [|] eqn:E3; [|done].
    destruct (pr_xfiles p) as [|] eqn:E4; [|done].
    destruct (pr_old_result p) as [r0|] eqn:E5; [|done].
    destruct (Hres eq_refl _ eq_refl) as (ds & i & b' & H1 & _). by rewrite Hc in H1.
  Qed.

  Lemma deleted_function (s0 : sys) os fn :
    fresh pdb_empty s0 ->
    let s := runs s0 os in
    let s' := fst (step s (ODelFun fn)) in
    (exists b, snd (step s (ODelFun fn)) = RBool b /\ (b = true <-> mentions (mem s) fn)) /\
    (forall gn, mentions (mem s') gn <-> gn <> fn /\ mentions (mem s) gn) /\
    (forall gn, gn <> fn -> same_records gn (mem s) (mem s')) /\
    (forall t rq r srcs dsts, rq_fun rq = fn -> snd (step s' (OBegin t rq)) <> RHit r srcs dsts).
  Proof.
    intros Hf s s'. split_and!.
    - eexists. split; [reflexivity|].
      rewrite !orb_true_iff, !isS_true, in_callfiles_spec by by apply cf_full_runs.
      unfold mentions. tauto.
    - intros gn. apply (delete_function_mentions (mem s) fn gn).
    - intros gn Hn. apply frame_step; [by apply pinv_runs, pinv_fresh|done|]. simpl. congruence.
    - intros t rq r srcs dsts <-. apply unknown_runs. simpl. by rewrite lookup_delete.
  Qed.

  (** ** delete_file *)

  Lemma check_call_files_forgotten e cid fs c r c' f :
    c_callfiles c !! f = None -> f ∈ fs ->
    check_call_files md5 core0 e cid fs c = (r, c') -> r <> inr [].
  Proof.
    revert c r c'. induction fs as [|g fs IH]; intros c r c' Hc Hf; [by apply elem_of_nil in Hf|].
    simpl. unfold bind.
    pose proof (pres_check_call_file (fun m => m !! f = None)
      ltac:(intros m h Hm; destruct (decide (h = f)) as [->|];
            [apply lookup_delete|by rewrite lookup_delete_ne]) e cid g c Hc) as Hp.
    destruct (check_call_file md5 core0 e cid g c) as [[x|[[d fid] dg]] c1] eqn:E1.
    { by intros [= <- _]. }
    simpl in Hp.
    destruct (check_call_files md5 core0 e cid fs c1) as [[x|ds] c2] eqn:E2.
    { by intros [= <- _]. }
    intros [= <- _]. destruct d; [done|].
    apply elem_of_cons in Hf as [<-|Hf]; [|by apply (IH _ _ _ Hp Hf E2)].
    (* the file itself is reported dirty *)
    exfalso. revert E1. unfold check_call_file, bind.
    pose proof (pres_add_file (fun m => m !! f = None)
      ltac:(intros m h Hm; destruct (decide (h = f)) as [->|];
            [apply lookup_delete|by rewrite lookup_delete_ne]) e f c Hc) as Ha.
    assert (forall r0 c0, add_file md5 core0 e f c = (r0, c0) ->
      match r0 with inr (_, i, _) => i = f | _ => True end) as Hid.
    { intros r0 c0. unfold add_file, bind, ret, raise. cbn. unfold c_find_file.
      destruct (c_files c !! f) as [[om od]|];
        (destruct (e_fs e !! f) as [[mt ct]|]; [|by intros [= <- <-]]).
      - destruct (_ && _)%bool; [by intros [= <- <-]|].
        destruct (String.eqb _ _); by intros [= <- <-].
      - by intros [= <- <-]. }
    destruct (add_file md5 core0 e f c) as [[x|[[d0 i0] g0]] c0]; [done|].
    specialize (Hid _ _ eq_refl) as ->. simpl in Ha.
    destruct cid as [[fn i]|]; [|done]. simpl. unfold callfile. rewrite Ha. done.
  Qed.

  Lemma deleted_file (s : sys) f :
    let s' := fst (step s (ODelFile f)) in
    (exists b, snd (step s (ODelFile f)) = RBool b /\
       (b = true <-> is_Some (c_files (mem s) !! f) \/ is_Some (c_callfiles (mem s) !! f))) /\
    c_files (mem s') = delete f (c_files (mem s)) /\
    c_callfiles (mem s') = delete f (c_callfiles (mem s)) /\
    (forall gn, same_records gn (mem s) (mem s')) /\
    (forall t rq r srcs dsts, f ∈ rq_srcs rq -> snd (step s' (OBegin t rq)) <> RHit r srcs dsts).
  Proof.
    intros s'. split_and!; try done.
    - eexists. split; [reflexivity|]. rewrite orb_true_iff, !isS_true. done.
    - intros t rq r srcs dsts Hf. simpl. unfold begin_call.
      destruct (e_fun _ !! rq_fun rq) as [d|] eqn:Ed; [|done].
      match goal with |- context [prepare md5 _ _ _ _ _ ?db] => set (db0 := db) end.
      rewrite (lifts_prepare veq md5 _ _ _ _ db0). unfold on_mem.
      destruct (prepare md5 core0 _ _ _ _ _) as [[x|p] c] eqn:Ep; [done|].
      assert (pr_files p <> []) as Hne.
      { revert Ep. unfold prepare, bind.
        destruct (check_function core0 _ _ _ _) as [[x|[fd fid]] c1] eqn:E1; [done|].
        apply check_function_pure in E1 as ->.
        assert (forall r0 c0, (match fd, fid with
            | false, Some fid0 => find_call core0 fid0 (rq_bound rq)
            | _, _ => ret (true, None, None) end) (p_mem db0) = (r0, c0) -> c0 = p_mem db0) as Hfc.
        { intros r0 c0. destruct fd, fid; by intros [= <- <-]. }
        revert Hfc. generalize (if fd then ret (true, None, None) else
         match fid with
         | Some fid0 => find_call core0 fid0 (rq_bound rq)
         | None => ret (true, None, None)
         end). intros fc Hfc.
        destruct (fc (p_mem db0)) as [r2 c2] eqn:E2. specialize (Hfc _ _ eq_refl) as ->.
        destruct r2 as [x|[[cd cid] old]]; [done|].
        destruct (check_call_files md5 core0 _ cid _ _) as [r3 c3] eqn:E3.
        eapply check_call_files_forgotten in E3; [|simpl; apply lookup_delete|exact Hf].
        destruct r3 as [x|files]; [done|].
        match goal with |- match ?m with _ => _ end = _ -> _ => destruct m as [[x|[[xs xd] xf]] c4] end; [done|].
        intros [= <- <-]. simpl. congruence. }
      destruct (pr_fun_dirty p), (pr_call_dirty p), (pr_files p), (pr_xfiles p), (pr_old_result p);
        try destruct (forallb _ _); done.
  Qed.
End Delete.
