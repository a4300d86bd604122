(** Proofs about reusing object files. *)
From stdpp Require Import base list strings gmap.
From Coq Require Import Ascii NArith ZArith Lia.
From Verif Require Import PyMonad DbModel DbSpec DbClaims CacheBackend DbHistory CacheTrust DbTheorems FnModel DepModel DepSpec DepFacts
  CompileSpec.

(** *** Names *)
Lemma ascii_of_N_of_ascii s t : chars s = chars t -> s = t.
Proof.
  revert t. induction s as [|x s IH]; intros [|y t]; try done. cbn. intros [= H1 H2].
  f_equal; [|by apply IH]. by rewrite <- (ascii_N_embedding x), <- (ascii_N_embedding y), H1.
Qed.
Lemma chars_map l l' : map chars l = map chars l' -> l = l'.
Proof.
  revert l'. induction l as [|x l IH]; intros [|y l']; try done. cbn. intros [= H1 H2].
  f_equal; [by apply ascii_of_N_of_ascii|by apply IH].
Qed.

Lemma map_snd_combine {A B} (l : list A) (k : list B) : length l = length k -> map snd (combine l k) = k.
Proof. revert k. induction l as [|x l IH]; intros [|y k]; try done. intros [= H]. cbn. by rewrite IH. Qed.
Lemma in_combine_snd {A B} (P : B -> Prop) (l : list A) (k : list B) :
  Forall P k -> Forall (fun d => P (snd d)) (combine l k).
Proof.
  intros H. revert l. induction H as [|y k Hy _ IH]; intros [|x l]; cbn; constructor; done.
Qed.

(** The names read from a dependency file are those the compiler listed. *)
Lemma dep_file_read ct hs deps : dep_file ct hs -> read_deps (chars ct) = Some (map chars deps) -> deps = hs.
Proof.
  intros (target & brk & Hlen & [Ht1 Ht2] & Hhs & ->) H.
  assert (length brk = length (map chars hs)) as Hlen' by (by rewrite map_length).
  rewrite read_plain in H.
  - rewrite map_snd_combine in H by done. injection H as H. symmetry. by apply chars_map.
  - done.
  - apply (in_combine_snd plain). apply Forall_map. eapply Forall_impl; [exact Hhs|]. by intros ? [? ?].
  - rewrite map_snd_combine by done. intros n [->|Hn] s; [apply Ht2|].
    apply elem_of_list_In, elem_of_list_fmap in Hn as (h & -> & Hh).
    rewrite Forall_forall in Hhs. apply Hhs. done.
Qed.

Section Facts.
  Context {V R : Type} (md5 : content -> digest).
  Context {S FunId CallId FileId : Type}.
  Context (BK : backend V R S FunId CallId FileId).
  Notation sys := (sys V R S FunId CallId FileId).
  Notation op := (op V R).
  Notation step := (step md5 BK).
  Notation runs := (runs md5 BK).
  Notation still_running := (still_running md5 BK).
  Notation runs_during := (runs_during md5 BK).
  Notation registered := (registered md5 BK).

  (** The frame of a call that is still running. *)
  Lemma running_frame (s0 : sys) t rq a b :
    still_running s0 t rq a b ->
    exists l1 fr l2, thread (runs s0 (a ++ OBegin t rq :: b)) t = l1 ++ fr :: l2 /\
      length l2 = depth (runs s0 a) t /\ fr_req fr = rq /\
      (forall f, f ∈ fr_xsrcs fr <-> registered s0 (fun xs _ => xs) t rq a b f) /\
      (forall f, f ∈ fr_xdsts fr <-> registered s0 (fun _ xd => xd) t rq a b f).
  Proof.
    induction b as [|o b IH] using rev_ind; intros [Hr Hd].
    - pose proof (step_frames md5 BK (runs s0 a) (OBegin t rq) t) as Hst. rewrite <- runs_snoc in Hst.
      unfold frames_step in Hst. rewrite decide_True in Hst by done.
      destruct Hst as [(_ & d & p & _ & Hst)|[Hn Hst]].
      + exists [], (Frame rq d p [] [] (s_env (runs s0 a))), (thread (runs s0 a) t).
        split_and!; try done; intros f; (split; [by intros ?%elem_of_nil|]);
          intros (b1 & ? & ? & ? & ? & H & _); by destruct b1.
      + exfalso. specialize (Hd [] [] eq_refl). unfold depth in Hd. rewrite Hst in Hd. lia.
    - destruct IH as (l1 & fr & l2 & Hth & Hlen & Hrq & Hxs & Hxd).
      { split; [done|]. intros b1 b2 ->. eapply (Hd b1 (b2 ++ [o])). by rewrite app_assoc. }
      pose proof (Hd (b ++ [o]) [] (eq_sym (app_nil_r _))) as Hdep.
      change (a ++ OBegin t rq :: b ++ [o]) with (a ++ (OBegin t rq :: b) ++ [o]) in *.
      rewrite app_assoc in Hdep |- *.
      set (h := a ++ OBegin t rq :: b) in *.
      pose proof (step_frames md5 BK (runs s0 h) o t) as Hst. rewrite <- runs_snoc in Hst.
      unfold depth in Hdep, Hlen. rewrite <- Hlen in Hdep.
      assert ((forall xs xd g, o <> OAddExt t xs xd g) -> forall l0, thread (runs s0 (h ++ [o])) t = l0 ++ fr :: l2 ->
        exists l1 fr l2, thread (runs s0 (h ++ [o])) t = l1 ++ fr :: l2 /\
          length l2 = length (thread (runs s0 a) t) /\ fr_req fr = rq /\
          (forall f, f ∈ fr_xsrcs fr <-> registered s0 (fun xs _ => xs) t rq a (b ++ [o]) f) /\
          (forall f, f ∈ fr_xdsts fr <-> registered s0 (fun _ xd => xd) t rq a (b ++ [o]) f)) as Hsame.
      { intros Hno l0 Hl0. exists l0, fr, l2. split_and!; try done; intros f; rewrite registered_snoc, ?Hxs, ?Hxd;
          (split; [by left|]); intros [?|(? & ? & ? & -> & _)]; try done; by edestruct Hno. }
      unfold frames_step in Hst.
      destruct o as [t' rq'|t' xs xd g|t' r|t'| | | | | | |];
        try (apply (Hsame ltac:(congruence) l1); by rewrite Hst).
      + destruct (decide (t' = t)) as [->|]; [|apply (Hsame ltac:(congruence) l1); by rewrite Hst].
        destruct Hst as [(_ & d & p & _ & Hst)|[_ Hst]]; [|apply (Hsame ltac:(congruence) l1); by rewrite Hst].
        apply (Hsame ltac:(congruence) (Frame rq' d p [] [] (s_env (runs s0 h)) :: l1)). rewrite Hst, Hth. done.
      + destruct (decide (t' = t)) as [->|]; [|apply (Hsame ltac:(congruence) l1); by rewrite Hst].
        rewrite Hth in Hst. destruct l1 as [|x l1]; simpl in Hst.
        * exists [], (frame_add xs xd fr), (if g then l2 else frame_add xs xd <$> l2).
          assert (depth (runs s0 h) t = Datatypes.S (depth (runs s0 a) t)) as Hde.
          { unfold depth. rewrite Hth. simpl. by rewrite Hlen. }
          split_and!; try done.
          -- destruct g; [done|]. by rewrite fmap_length.
          -- intros f. simpl. rewrite elem_of_app, registered_snoc, Hxs. split.
             ++ intros [?|?]; [right|by left]. exists xs, xd, g. split_and!; [done..|]. by right.
             ++ intros [?|(? & ? & ? & [= <- <- <-] & ? & _)]; [by right|by left].
          -- intros f. simpl. rewrite elem_of_app, registered_snoc, Hxd. split.
             ++ intros [?|?]; [right|by left]. exists xs, xd, g. split_and!; [done..|]. by right.
             ++ intros [?|(? & ? & ? & [= <- <- <-] & ? & _)]; [by right|by left].
        * destruct g.
          -- exists (frame_add xs xd x :: l1), fr, l2. split_and!; try done.
             ++ intros f. rewrite registered_snoc, Hxs. split; [by left|].
                intros [?|(? & ? & ? & [= <- <- <-] & ? & [?|Hde])]; [done..|]. exfalso. fold h in Hde. unfold depth in Hde.
                rewrite Hth, <- Hlen in Hde. simpl in Hde. rewrite app_length in Hde. simpl in Hde. lia.
             ++ intros f. rewrite registered_snoc, Hxd. split; [by left|].
                intros [?|(? & ? & ? & [= <- <- <-] & ? & [?|Hde])]; [done..|]. exfalso. fold h in Hde. unfold depth in Hde.
                rewrite Hth, <- Hlen in Hde. simpl in Hde. rewrite app_length in Hde. simpl in Hde. lia.
          -- exists (frame_add xs xd x :: (frame_add xs xd <$> l1)), (frame_add xs xd fr), (frame_add xs xd <$> l2).
             split_and!; try done.
             ++ rewrite Hst, fmap_app. done.
             ++ by rewrite fmap_length.
             ++ intros f. simpl. rewrite elem_of_app, registered_snoc, Hxs. split.
                ** intros [?|?]; [right|by left]. exists xs, xd, false. split_and!; [done..|]. by left.
                ** intros [?|(? & ? & ? & [= <- <- <-] & ? & _)]; [by right|by left].
             ++ intros f. simpl. rewrite elem_of_app, registered_snoc, Hxd. split.
                ** intros [?|?]; [right|by left]. exists xs, xd, false. split_and!; [done..|]. by left.
                ** intros [?|(? & ? & ? & [= <- <- <-] & ? & _)]; [by right|by left].
      + destruct (decide (t' = t)) as [->|]; [|apply (Hsame ltac:(congruence) l1); by rewrite Hst].
        rewrite Hth in Hst. destruct l1 as [|x l1]; simpl in Hst; [rewrite Hst in Hdep; lia|].
        by apply (Hsame ltac:(congruence) l1).
      + destruct (decide (t' = t)) as [->|]; [|apply (Hsame ltac:(congruence) l1); by rewrite Hst].
        rewrite Hth in Hst. destruct l1 as [|x l1]; simpl in Hst; [rewrite Hst in Hdep; lia|].
        by apply (Hsame ltac:(congruence) l1).
      + rewrite Hst in Hdep. simpl in Hdep. lia.
  Qed.

  (** What a call that ran reports. *)
  Lemma done_files (s0 : sys) t rq a b r r' srcs dsts :
    runs_during s0 t rq a b ->
    snd (step (runs s0 (a ++ OBegin t rq :: b)) (OEnd t r)) = RDone r' srcs dsts ->
    (forall f, f ∈ srcs <-> f ∈ rq_srcs rq \/ registered s0 (fun xs _ => xs) t rq a b f) /\
    (forall f, f ∈ dsts <-> f ∈ rq_dsts rq \/ f ∈ rq_ret rq r \/ registered s0 (fun _ xd => xd) t rq a b f).
  Proof.
    intros [Hrun Hdep]. destruct (running_frame _ _ _ _ _ Hrun) as (l1 & fr & l2 & Hth & Hlen & Hrq & Hxs & Hxd).
    unfold depth in Hdep, Hlen. rewrite Hth, app_length in Hdep. simpl in Hdep.
    destruct l1 as [|x l1]; [|simpl in Hdep; lia].
    simpl. unfold end_call. rewrite Hth. simpl. destruct (s_callstack _); [done|].
    destruct (cache _ _ _ _ _ _ _ _ _ _ _ _ _ _) as [[?|?] ?]; [done|]. simpl. intros [= _ <- <-]. rewrite Hrq.
    split; intros f; rewrite !elem_of_app, ?Hxs, ?Hxd; tauto.
  Qed.

  (** Declared sources of a running call stay as they are. *)
  Lemma history_ok_at F (s0 : sys) a o b : history_ok md5 BK F s0 (a ++ o :: b) -> well_behaved (runs s0 a) o.
  Proof. revert s0. induction a as [|x a IH]; intros s0 H; simpl in H; destruct H as (_ & H & H'); [done|]. by apply IH. Qed.
  Lemma history_ok_app F (s0 : sys) a b : history_ok md5 BK F s0 (a ++ b) -> history_ok md5 BK F s0 a.
  Proof. revert s0. induction a as [|x a IH]; intros s0 H; simpl in *; [done|]. destruct H as (? & ? & ?). split_and!; try done. by apply IH. Qed.

  Lemma running_in_use (s0 : sys) t rq a b f : still_running s0 t rq a b -> f ∈ rq_srcs rq ->
    in_use (runs s0 (a ++ OBegin t rq :: b)) f.
  Proof.
    intros Hr Hf. destruct (running_frame _ _ _ _ _ Hr) as (l1 & fr & l2 & Hth & _ & Hrq & _).
    exists t, fr. rewrite Hth, Hrq. split; [|done]. rewrite elem_of_app. right. by left.
  Qed.
  Lemma still_running_prefix (s0 : sys) t rq a b1 b2 : still_running s0 t rq a (b1 ++ b2) -> still_running s0 t rq a b1.
  Proof. intros [? H]. split; [done|]. intros c1 c2 ->. apply (H c1 (c2 ++ b2)). by rewrite app_assoc. Qed.

  Lemma leaves_step (s : sys) (o : op) f :
    (forall s' : sys, e_fs (s_env (fst (step s' o))) =
       match o with OWrite g ct m => <[g := (m, ct)]> (e_fs (s_env s')) | ORemove g => delete g (e_fs (s_env s')) | _ => e_fs (s_env s') end) ->
    leaves f o -> e_fs (s_env (fst (step s o))) !! f = e_fs (s_env s) !! f.
  Proof.
    intros Hs Hl. rewrite Hs. destruct o; try done; simpl in Hl; [by rewrite lookup_insert_ne|by rewrite lookup_delete_ne].
  Qed.
End Facts.

Section Reuse.
  Context {V R : Type} (veq : V -> V -> bool) (md5 : content -> digest).
  Notation BK := (cache_backend (V := V) (R := R) veq md5).
  Notation sys := (sys V R (pdb V R) name (name * nat) name).
  Notation op := (op V R).
  Notation step := (step md5 BK).
  Notation runs := (runs md5 BK).
  Notation digest_at := (digest_at md5).

  Lemma leaves_runs (s : sys) os f : Forall (leaves f) os -> e_fs (s_env (runs s os)) !! f = e_fs (s_env s) !! f.
  Proof.
    revert s. induction os as [|o os IH]; intros s H; [done|]. inversion H; subst. simpl. rewrite IH by done.
    apply leaves_step; [|done]. intros s'. exact (step_fs veq md5 s' _).
  Qed.

  Lemma declared_kept F (s0 : sys) t rq a b f rest :
    history_ok md5 BK F s0 (a ++ OBegin t rq :: b ++ rest) ->
    still_running md5 BK s0 t rq a b -> f ∈ rq_srcs rq ->
    e_fs (s_env (runs s0 (a ++ OBegin t rq :: b))) !! f = e_fs (s_env (runs s0 a)) !! f.
  Proof.
    intros Hh Hr Hf. revert rest Hr Hh. induction b as [|o b IH] using rev_ind; intros rest Hr Hh.
    - rewrite runs_snoc. apply leaves_step; [|done]. intros s'. exact (step_fs veq md5 s' _).
    - assert (still_running md5 BK s0 t rq a b) as Hr' by (by eapply still_running_prefix).
      rewrite app_comm_cons, app_assoc, runs_snoc.
      rewrite leaves_step; [apply (IH (o :: rest) Hr')| |].
      + by rewrite <- app_assoc in Hh.
      + intros s'. exact (step_fs veq md5 s' _).
      + rewrite <- app_assoc, app_comm_cons, app_assoc in Hh. apply history_ok_at in Hh.
        pose proof (running_in_use _ _ _ _ _ _ _ _ Hr' Hf) as Hu.
        destruct o; simpl in *; try done; by intros ->.
  Qed.

  Lemma digest_same (e e' : env) f : e_fs e !! f = e_fs e' !! f -> digest_at e f = digest_at e' f.
  Proof. unfold DbSpec.digest_at. by intros ->. Qed.

  (** One run behind a hit. *)
  Lemma hit_run F D (s0 : sys) os t (rq : request V R) r srcs dsts :
    fresh pdb_empty s0 -> fs_faithful F (s_env s0) -> history_ok md5 BK F s0 os ->
    declared_by veq D (os ++ [OBegin t rq]) ->
    let s := runs s0 os in
    snd (step s (OBegin t rq)) = RHit r srcs dsts ->
    exists t' rq' a b c, os = a ++ OBegin t' rq' :: b ++ OEnd t' r :: c /\
      runs_during md5 BK s0 t' rq' a b /\ rq_fun rq' = rq_fun rq /\ veq (rq_bound rq) (rq_bound rq') = true /\
      rq_srcs rq' = rq_srcs rq /\
      (forall f, f ∈ srcs <-> f ∈ rq_srcs rq \/ registered md5 BK s0 (fun xs _ => xs) t' rq' a b f) /\
      (forall f, f ∈ dsts <-> f ∈ rq_dsts rq \/ f ∈ rq_ret rq r \/ registered md5 BK s0 (fun _ xd => xd) t' rq' a b f) /\
      (forall f, f ∈ rq_srcs rq -> is_Some (digest_at (s_env s) f) /\
         digest_at (s_env s) f = digest_at (s_env (runs s0 a)) f) /\
      ((exists srcs' dsts', snd (step (runs s0 (a ++ OBegin t' rq' :: b)) (OEnd t' r)) = RDone r srcs' dsts') ->
       forall f, registered md5 BK s0 (fun xs _ => xs) t' rq' a b f -> is_Some (e_fs (s_env s) !! f) ->
         digest_at (s_env s) f = digest_at (s_env (runs s0 (a ++ OBegin t' rq' :: b))) f) /\
      (forall f, f ∈ dsts -> is_Some (e_fs (s_env s) !! f)).
  Proof.
    intros Hf Hfs Hh [HD1 HD2] s Hhit.
    destruct (hit_facts veq md5 F s0 os t rq r srcs dsts Hf Hfs Hh Hhit)
      as (ru & (t' & a & b & c & Hos & Hr1 & Hr2 & Hbeg & Hend & _ & Hxs & Hxd & Hrec) & Hfn & Hb & Hres & _ & -> & -> & Hsrc & Hx & Hd).
    rewrite Hres in *. exists t', (ru_req ru), a, b, c.
    assert (rq_srcs (ru_req ru) = rq_srcs rq) as Hsame.
    { rewrite (HD1 t rq), (HD1 t' (ru_req ru)), Hfn.
      - symmetry. by apply HD2.
      - rewrite Hos, !elem_of_app, elem_of_cons. tauto.
      - rewrite elem_of_app, elem_of_list_singleton. tauto. }
    rewrite Hbeg in *. rewrite Hend in *.
    split_and!; try done.
    - intros f. rewrite elem_of_app, Hxs. done.
    - intros f. rewrite !elem_of_app, Hxd. tauto.
    - intros f Hff. apply Hsrc; [done|]. by rewrite Hsame.
    - intros Hdone f Hreg. apply Hx; [by apply Hxs|]. by apply Hrec.
  Qed.

  (** The files a compilation read are registered. *)
  Lemma compile_registers (s0 : sys) t rq a b hs h :
    compile_run md5 BK s0 t rq a b hs -> h ∈ hs -> registered md5 BK s0 (fun xs _ => xs) t rq a b h.
  Proof.
    intros (b1 & dep & m & ct & deps & b2 & -> & _ & Hdf & Hrd) Hh.
    rewrite <- (dep_file_read _ _ _ Hdf Hrd) in Hh. exists b1, deps, [], false, b2. split_and!; [done..|]. by left.
  Qed.
End Reuse.
