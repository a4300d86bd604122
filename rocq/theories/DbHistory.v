(** Every entry of the ghost log describes a run that took place (any backend). *)
From stdpp Require Import base list strings gmap.
From Coq Require Import ZArith Lia.
From Verif Require Import PyMonad DbModel DbSpec.

Section History.
  Context {V R : Type} (md5 : content -> digest).
  Context {S FunId CallId FileId : Type}.
  Context (BK : backend V R S FunId CallId FileId).
  Notation sys := (sys V R S FunId CallId FileId).
  Notation frame := (frame V R FunId CallId FileId).
  Notation op := (op V R).
  Notation step := (step md5 BK).
  Notation runs := (runs md5 BK).
  Notation ran := (ran md5 BK).
  Notation registered := (registered md5 BK).
  Notation still_running := (still_running md5 BK).

  Lemma runs_app (s : sys) (a b : list op) : runs s (a ++ b) = runs (runs s a) b.
  Proof. revert s. induction a as [|o a IH]; intros s; simpl; auto. Qed.

  Lemma runs_snoc (s : sys) (a : list op) (o : op) : runs s (a ++ [o]) = fst (step (runs s a) o).
  Proof. by rewrite runs_app. Qed.

  Lemma thread_insert e (db : S) cs (ts : gmap nat (list frame)) (lg : list (run V R)) (t : nat) (l : list frame) (t' : nat) :
    thread (Sys e db cs (<[t := l]> ts) lg) t' = if decide (t = t') then l else default [] (ts !! t').
  Proof.
    unfold thread; simpl. destruct (decide (t = t')) as [->|]; [by rewrite lookup_insert|].
    by rewrite lookup_insert_ne.
  Qed.

  (** The effect of a step on the frames of a thread. *)
  Definition frames_step (s : sys) (o : op) (t : nat) (l : list frame) : Prop :=
    match o with
    | OBegin t' rq =>
        if decide (t' = t) then
          (snd (step s o) = RRun /\ exists d p, e_fun (s_env s) !! rq_fun rq = Some d /\
             l = Frame rq d p [] [] (s_env s) :: thread s t)
          \/ (snd (step s o) <> RRun /\ l = thread s t)
        else l = thread s t
    | OAddExt t' xs xd g =>
        if decide (t' = t) then
          match thread s t with
          | [] => l = []
          | fr :: frs => l = frame_add xs xd fr :: (if g then frs else frame_add xs xd <$> frs)
          end
        else l = thread s t
    | OEnd t' _ | ORaise t' => if decide (t' = t) then l = tail (thread s t) else l = thread s t
    | ORestart _ => l = []
    | _ => l = thread s t
    end.

  Lemma step_frames (s : sys) (o : op) (t : nat) : frames_step s o t (thread (fst (step s o)) t).
  Proof.
    destruct o as [t' rq|t' xs xd g|t' r|t'| | | | | | |]; simpl; try done.
    - unfold begin_call.
      destruct (e_fun (s_env s) !! rq_fun rq) as [d|] eqn:Ed.
      2:{ destruct (decide _); [right|]; done. }
      destruct (prepare _ _ _ _ _ _ _) as [[x|p] db].
      { destruct (decide _); [right|]; done. }
      assert (forall (db : S) (cs : list (list name)), 
        if decide (t' = t) then
          RRun (R:=R) = RRun /\ exists d0 p0, Some d = Some d0 /\
             thread (Sys (s_env s) db cs (<[t':=Frame rq d p [] [] (s_env s) :: thread s t']> (s_threads s)) (s_log s)) t =
               Frame rq d0 p0 [] [] (s_env s) :: thread s t
        else thread (Sys (s_env s) db cs (<[t':=Frame rq d p [] [] (s_env s) :: thread s t']> (s_threads s)) (s_log s)) t
             = thread s t) as Hrun.
      { intros. rewrite thread_insert. destruct (decide (t' = t)) as [->|]; [|done].
        split; [done|]. eauto. }
      destruct (pr_fun_dirty p), (pr_call_dirty p), (pr_files p), (pr_xfiles p), (pr_old_result p); simpl;
        try (specialize (Hrun db ([] :: note_callee (rq_fun rq) (s_callstack s)));
             destruct (decide (t' = t)); [left|]; exact Hrun).
      destruct (forallb _ _); simpl.
      + destruct (decide _); [right|]; done.
      + specialize (Hrun db ([] :: note_callee (rq_fun rq) (s_callstack s)));
             destruct (decide (t' = t)); [left|]; exact Hrun.
    - unfold add_ext. rewrite thread_insert. destruct (decide (t' = t)) as [->|]; [|done].
      by destruct (thread s t).
    - unfold end_call. destruct (thread s t') as [|fr frs] eqn:Et.
      { destruct (decide (t' = t)) as [->|]; simpl; by rewrite ?Et. }
      assert (forall (db : S) (cs : list (list name)) (lg : list (run V R)), if decide (t' = t)
        then thread (Sys (s_env s) db cs (<[t':=frs]> (s_threads s)) lg) t = tail (thread s t)
        else thread (Sys (s_env s) db cs (<[t':=frs]> (s_threads s)) lg) t = thread s t) as H.
      { intros. rewrite thread_insert. destruct (decide (t' = t)) as [->|]; [by rewrite Et|done]. }
      destruct (s_callstack s); [apply H|].
      destruct (cache _ _ _ _ _ _ _ _ _ _ _ _ _ _) as [[x|u] db]; apply H.
    - unfold raise_call. destruct (thread s t') as [|fr frs] eqn:Et.
      { destruct (decide (t' = t)) as [->|]; simpl; by rewrite ?Et. }
      simpl. rewrite thread_insert. destruct (decide (t' = t)) as [->|]; [by rewrite Et|done].
    - by destruct (delete_function _ _ _) as [[?|?] ?].
    - by destruct (delete_file _ _ _) as [[?|?] ?].
  Qed.

  (** Frame [fr], at height [n] (counted from the outermost) in thread [t]. *)
  Definition began (s0 : sys) (os : list op) (t n : nat) (fr : frame) : Prop :=
    exists a b, let rq := fr_req fr in
      os = a ++ OBegin t rq :: b /\
      still_running s0 t rq a b /\
      n = Datatypes.S (depth (runs s0 a) t) /\
      fr_begin fr = s_env (runs s0 a) /\
      e_fun (fr_begin fr) !! rq_fun rq = Some (fr_digest fr) /\
      (forall f, f ∈ fr_xsrcs fr <-> registered s0 (fun xs _ => xs) t rq a b f) /\
      (forall f, f ∈ fr_xdsts fr <-> registered s0 (fun _ xd => xd) t rq a b f).

  Lemma snoc_split {A} (b b1 b2 : list A) (x : A) :
    b ++ [x] = b1 ++ b2 -> (b2 = [] /\ b1 = b ++ [x]) \/ exists b2', b2 = b2' ++ [x] /\ b = b1 ++ b2'.
  Proof.
    intros H. destruct b2 as [|y0 b2]; [left|right].
    - by rewrite app_nil_r in H.
    - destruct (exists_last (l := y0 :: b2)) as (b2' & y & Hy); [done|]. rewrite Hy in H |- *.
      rewrite app_assoc in H. apply app_inj_tail in H as [-> ->]. eauto.
  Qed.

  Lemma registered_snoc s0 pick t rq a b o f :
    registered s0 pick t rq a (b ++ [o]) f <->
    registered s0 pick t rq a b f \/
    exists xs xd g, o = OAddExt t xs xd g /\ f ∈ pick xs xd /\
      (g = false \/ depth (runs s0 (a ++ OBegin t rq :: b)) t = Datatypes.S (depth (runs s0 a) t)).
  Proof.
    split.
    - intros (b1 & xs & xd & g & b2 & H & Hf & Hg).
      destruct (snoc_split _ _ _ _ H) as [[? ?]|(b2' & H2 & ->)]; [done|].
      destruct b2' as [|y b2'].
      + injection H2 as <- ->. right. rewrite app_nil_r. eauto 10.
      + injection H2 as <- ->. left. exists b1, xs, xd, g, b2'. done.
    - intros [(b1 & xs & xd & g & b2 & -> & Hf & Hg)|(xs & xd & g & -> & Hf & Hg)].
      + exists b1, xs, xd, g, (b2 ++ [o]). by rewrite <- app_assoc.
      + exists b, xs, xd, g, []. done.
  Qed.

  Definition ext_step (s : sys) (o : op) (t n : nat) (pick : list name -> list name -> list name)
      (l l' : list name) : Prop :=
    forall f, f ∈ l' <-> f ∈ l \/
      exists xs xd g, o = OAddExt t xs xd g /\ f ∈ pick xs xd /\ (g = false \/ depth s t = n).

  Lemma began_extend s0 os o t n fr fr' :
    began s0 os t n fr ->
    n <= depth (runs s0 (os ++ [o])) t ->
    fr_req fr' = fr_req fr -> fr_digest fr' = fr_digest fr -> fr_begin fr' = fr_begin fr ->
    ext_step (runs s0 os) o t n (fun xs _ => xs) (fr_xsrcs fr) (fr_xsrcs fr') ->
    ext_step (runs s0 os) o t n (fun _ xd => xd) (fr_xdsts fr) (fr_xdsts fr') ->
    began s0 (os ++ [o]) t n fr'.
  Proof.
    intros (a & b & -> & [Hr Hd] & -> & Hb & Hfd & Hxs & Hxd) Hn Eq1 Eq2 Eq3 X1 X2.
    exists a, (b ++ [o]). rewrite Eq1, Eq2, Eq3. cbv zeta.
    split_and!; try done.
    - by rewrite <- app_assoc.
    - split; [done|]. intros b1 b2 H. destruct (snoc_split _ _ _ _ H) as [[-> ->]|(b2' & -> & H2)].
      + rewrite <- app_assoc in Hn. simpl in Hn. lia.
      + by eapply Hd.
    - intros f. by rewrite registered_snoc, (X1 f), Hxs.
    - intros f. by rewrite registered_snoc, (X2 f), Hxd.
  Qed.

  Lemma ext_step_none s o t n pick l :
    (forall xs xd g, o <> OAddExt t xs xd g) -> ext_step s o t n pick l l.
  Proof. intros H f. split; [auto|]. intros [?|(xs & xd & g & -> & _)]; [done|]. by edestruct H. Qed.

  Lemma ext_step_add s xs xd g t n pick l :
    g = false \/ depth s t = n ->
    ext_step s (OAddExt t xs xd g) t n pick l (pick xs xd ++ l).
  Proof.
    intros H f. rewrite elem_of_app. split.
    - intros [?|?]; [right; eauto 10|by left].
    - intros [?|(? & ? & ? & [= <- <- <-] & ? & _)]; auto.
  Qed.

  Lemma ext_step_miss s xs xd t n pick l :
    depth s t <> n -> ext_step s (OAddExt t xs xd true) t n pick l l.
  Proof.
    intros H f. split; [auto|].
    by intros [?|(? & ? & ? & [= <- <- <-] & ? & [?|?])].
  Qed.

  Lemma frames_began s0 os :
    s_threads s0 = ∅ ->
    forall t l1 fr l2, thread (runs s0 os) t = l1 ++ fr :: l2 ->
      began s0 os t (Datatypes.S (length l2)) fr.
  Proof.
    intros H0. induction os as [|o os IH] using rev_ind; intros t l1 fr l2 Ht.
    { simpl in Ht. unfold thread in Ht. rewrite H0, lookup_empty in Ht. simpl in Ht.
      by destruct l1. }
    assert (Datatypes.S (length l2) <= depth (runs s0 (os ++ [o])) t) as Hdep.
    { unfold depth. rewrite Ht, app_length. simpl. lia. }
    assert (forall l0, thread (runs s0 os) t = l0 ++ fr :: l2 ->
       (forall xs xd g, o <> OAddExt t xs xd g) ->
       began s0 (os ++ [o]) t (Datatypes.S (length l2)) fr) as Hsame.
    { intros l0 Hl0 Hno. eapply began_extend; eauto using ext_step_none. }
    pose proof (step_frames (runs s0 os) o t) as Hst. rewrite <- runs_snoc in Hst.
    unfold frames_step in Hst.
    destruct o as [t' rq|t' xs xd g|t' r|t'| | | | | | |];
      try (rewrite Hst in Ht; by eapply Hsame).
    - destruct (decide (t' = t)) as [->|]; [|rewrite Hst in Ht; by eapply Hsame].
      destruct Hst as [(Hr & d & p & Hd & Hst)|[_ Hst]]; [|rewrite Hst in Ht; by eapply Hsame].
      rewrite Ht in Hst. destruct l1 as [|x l1].
      + injection Hst as -> Hl2. exists os, []. cbn [fr_req fr_begin fr_digest fr_xsrcs fr_xdsts].
        split_and!; try done.
        * split; [done|]. intros b1 b2 H. destruct b1; [|done]. unfold depth.
          rewrite Ht. simpl. rewrite Hl2. lia.
        * unfold depth. by rewrite Hl2.
        * intros f. split; [by intros ?%elem_of_nil|]. intros (b1 & ? & ? & ? & ? & H & _). by destruct b1.
        * intros f. split; [by intros ?%elem_of_nil|]. intros (b1 & ? & ? & ? & ? & H & _). by destruct b1.
      + injection Hst as -> Hl2. by eapply Hsame.
    - destruct (decide (t' = t)) as [->|Hne].
      2:{ rewrite Hst in Ht. eapply Hsame; [done|]. congruence. }
      destruct (thread (runs s0 os) t) as [|fr1 frs] eqn:Eth.
      { rewrite Hst in Ht. by destruct l1. }
      rewrite Ht in Hst.
      assert (depth (runs s0 os) t = Datatypes.S (length frs)) as Hdp by (unfold depth; by rewrite Eth).
      destruct l1 as [|x l1].
      + injection Hst as -> Hl2.
        assert (length l2 = length frs) as Hlen by (rewrite Hl2; destruct g; [done|by rewrite fmap_length]).
        rewrite Hlen in *.
        eapply (began_extend _ _ _ _ _ fr1); eauto.
        * by apply (IH t [] fr1 frs).
        * apply (ext_step_add _ _ _ _ _ _ (fun xs _ => xs)). by right.
        * apply (ext_step_add _ _ _ _ _ _ (fun _ xd => xd)). by right.
      + injection Hst as -> Hl2. destruct g.
        * subst frs. rewrite app_length in Hdp. simpl in Hdp.
          eapply (began_extend _ _ _ _ _ fr); eauto.
          -- by apply (IH t (fr1 :: l1) fr l2).
          -- apply ext_step_miss. lia.
          -- apply ext_step_miss. lia.
        * symmetry in Hl2.
          apply fmap_app_inv in Hl2 as (k1 & k2 & -> & Hk2 & ->).
          symmetry in Hk2. apply fmap_cons_inv in Hk2 as (fr0 & k3 & -> & -> & ->).
          rewrite fmap_length in *.
          eapply (began_extend _ _ _ _ _ fr0); eauto.
          -- by apply (IH t (fr1 :: k1) fr0 k3).
          -- apply (ext_step_add _ _ _ _ _ _ (fun xs _ => xs)). by left.
          -- apply (ext_step_add _ _ _ _ _ _ (fun _ xd => xd)). by left.
    - destruct (decide (t' = t)) as [->|]; [|rewrite Hst in Ht; by eapply Hsame].
      rewrite Hst in Ht. destruct (thread (runs s0 os) t) as [|x frs] eqn:Eth.
      { simpl in Ht. by destruct l1. }
      simpl in Ht. subst frs. by apply (Hsame (x :: l1)).
    - destruct (decide (t' = t)) as [->|]; [|rewrite Hst in Ht; by eapply Hsame].
      rewrite Hst in Ht. destruct (thread (runs s0 os) t) as [|x frs] eqn:Eth.
      { simpl in Ht. by destruct l1. }
      simpl in Ht. subst frs. by apply (Hsame (x :: l1)).
    - rewrite Hst in Ht. by destruct l1.
  Qed.

  (** The effect of a step on the log. *)
  Lemma step_log (s : sys) (o : op) :
    s_log (fst (step s o)) = s_log s \/
    exists t r fr frs ok, o = OEnd t r /\ thread s t = fr :: frs /\
      s_log (fst (step s o)) =
        Run (fr_req fr) (fr_digest fr) r (fr_begin fr) (s_env s) (fr_xsrcs fr) (fr_xdsts fr) ok :: s_log s /\
      (ok = true <-> exists srcs dsts, snd (step s o) = RDone r srcs dsts).
  Proof.
    destruct o as [t rq|t xs xd g|t r|t| | | | | |f|f]; simpl; try (by left).
    - left. unfold begin_call.
      destruct (e_fun (s_env s) !! rq_fun rq) as [d|]; [|done].
      destruct (prepare _ _ _ _ _ _ _) as [[x|p] db]; [done|].
      destruct (pr_fun_dirty p), (pr_call_dirty p), (pr_files p), (pr_xfiles p), (pr_old_result p); try done.
      by destruct (forallb _ _).
    - unfold end_call. destruct (thread s t) as [|fr frs] eqn:Et; [by left|].
      destruct (s_callstack s); [by left|]. right. exists t, r, fr, frs.
      destruct (cache _ _ _ _ _ _ _ _ _ _ _ _ _ _) as [[x|u] db].
      + exists false. split_and!; try done. split; [done|]. intros (? & ? & ?). done.
      + exists true. split_and!; try done. split; [|done]. intros _. eauto.
    - left. unfold raise_call. by destruct (thread s t).
    - left. by destruct (delete_function _ _ _) as [[?|?] ?].
    - left. by destruct (delete_file _ _ _) as [[?|?] ?].
  Qed.

  Lemma ran_app s0 os os' ru : ran s0 os ru -> ran s0 (os ++ os') ru.
  Proof.
    intros (t & a & b & c & -> & H). exists t, a, b, (c ++ os'). split; [|exact H].
    rewrite <- app_assoc. simpl. by rewrite <- app_assoc.
  Qed.

  Lemma log_ran s0 os :
    s_threads s0 = ∅ -> s_log s0 = [] ->
    forall ru, ru ∈ s_log (runs s0 os) -> ran s0 os ru.
  Proof.
    intros H0 H1. induction os as [|o os IH] using rev_ind; intros ru Hru.
    { simpl in Hru. rewrite H1 in Hru. by apply elem_of_nil in Hru. }
    rewrite runs_snoc in Hru.
    destruct (step_log (runs s0 os) o) as [Heq|(t & r & fr & frs & ok & -> & Ht & Hlog & Hok)].
    { rewrite Heq in Hru. by apply ran_app, IH. }
    rewrite Hlog in Hru. apply elem_of_cons in Hru as [->|Hru]; [|by apply ran_app, IH].
    pose proof (frames_began s0 os H0 t [] fr frs Ht) as (a & b & Hos & Hrun & Hn & Hb & Hfd & Hxs & Hxd).
    exists t, a, b, []. cbn [ru_req ru_result ru_begin ru_end ru_digest ru_xsrcs ru_xdsts ru_recorded].
    cbv zeta. split_and!; try done.
    - rewrite Hos at 1. by rewrite <- app_assoc.
    - rewrite <- Hos. unfold depth at 1. rewrite Ht. exact Hn.
    - by rewrite <- Hos.
    - by rewrite <- Hos.
  Qed.
End History.
