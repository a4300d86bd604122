(** The table of known files is right as long as files written after the database
    looked at them get a new modification time. *)
From stdpp Require Import base list strings gmap.
From Coq Require Import ZArith Lia.
From Verif Require Import PyMonad DbModel DbSpec DbClaims CacheBackend CacheLift CacheFacts CacheInv
  DbHistory CacheStep CacheProv CacheDeps CacheTrust.

Section Stamp.
  Context {V R : Type} (veq : V -> V -> bool) (md5 : content -> digest).
  Notation BK := (cache_backend (V := V) (R := R) veq md5).
  Notation cdb := (cdb V R).
  Notation sys := (sys V R (pdb V R) name (name * nat) name).
  Notation op := (op V R).
  Notation step := (step md5 BK).
  Notation runs := (runs md5 BK).
  Notation mem s := (p_mem (s_db s)).
  Notation disk s := (p_disk (s_db s)).
  Notation trusted := (trusted veq md5).
  Notation looked_at := (looked_at md5 BK veq).

  (** Where the entry [(m, d)] of [f] comes from. *)
  Definition from_look (s0 : sys) (os : list op) (f : name) (m : Z) (d : digest) : Prop :=
    exists a o b ct, os = a ++ o :: b /\ looks veq (runs s0 a) o f /\
      e_fs (s_env (runs s0 a)) !! f = Some (m, ct) /\ d = md5 ct.

  Lemma from_look_app s0 os os' f m d : from_look s0 os f m d -> from_look s0 (os ++ os') f m d.
  Proof.
    intros (a & o & b & ct & -> & ?). exists a, o, (b ++ os'), ct. split; [|done].
    by rewrite <- app_assoc.
  Qed.

  Lemma table_from_looks (s0 : sys) os :
    fresh pdb_empty s0 ->
    (forall f m d, c_files (mem (runs s0 os)) !! f = Some (m, d) -> from_look s0 os f m d) /\
    (forall f m d, c_files (disk (runs s0 os)) !! f = Some (m, d) -> from_look s0 os f m d).
  Proof.
    intros (Hdb & _). induction os as [|o os [IHm IHd]] using rev_ind.
    - simpl. rewrite Hdb. simpl. split; intros f m d; by rewrite lookup_empty.
    - rewrite runs_app. simpl. split; intros f m d.
      + intros H. destruct (step_files veq md5 _ _ _ _ _ H) as [?|[?|(Hl & ct & He & ->)]].
        * by apply from_look_app, IHm.
        * by apply from_look_app, IHd.
        * by exists os, o, [], ct.
      + rewrite (step_disk veq md5). intros H. apply from_look_app. destruct o; auto.
  Qed.

  (** A file that has the modification time it had before, and was only written
      with that time and content [ct], has content [ct]. *)
  Lemma file_since (s : sys) b f m ct m' ct' :
    e_fs (s_env s) !! f = Some (m, ct) ->
    (forall b1 c b2, b = b1 ++ OWrite f c m :: b2 -> c = ct) ->
    e_fs (s_env (runs s b)) !! f = Some (m', ct') -> m' = m -> ct' = ct.
  Proof.
    intros He Hw.
    assert (forall m' c', e_fs (s_env s) !! f = Some (m', c') -> m' = m -> c' = ct) as Hs by (intros; congruence).
    clear He. revert s Hs Hw. induction b as [|o b IH]; intros s Hs Hw Hend Hm; simpl in *; [by eapply Hs|].
    eapply IH; [| |exact Hend|done].
    - intros m1 c1. rewrite (step_fs veq md5).
      destruct o as [t rq|t xs xd g|t r|t|f' c0 m0|f'|dt| |funs|f'|f']; try apply Hs.
      + destruct (decide (f' = f)) as [->|Hn].
        * rewrite lookup_insert. intros [= -> ->] ->. by apply (Hw [] c1 b).
        * rewrite lookup_insert_ne by done. apply Hs.
      + intros H. apply lookup_delete_Some in H as [_ H]. by apply (Hs m1).
    - intros b1 c b2 ->. by apply (Hw (o :: b1) c b2).
  Qed.

  Lemma looks_looked_at (s0 : sys) a o f :
    fresh pdb_empty s0 -> inv md5 (runs s0 a) ->
    looks veq (runs s0 a) o f -> looked_at s0 a o f.
  Proof.
    intros Hf Hinv. destruct o; simpl; try done.
    intros [?|(i & ds & b' & r & H1 & H2 & H3 & H4)]; [by left|right].
    destruct (di_entry _ _ _ _ (in_mem _ _ Hinv) _ _ _ _ _ H1 H2) as (ru & Hru & Hen); [done|].
    destruct Hen. exists ru. split_and!; try done.
    - destruct Hf as (_ & _ & ? & ?). by apply log_ran.
    - congruence.
    - congruence.
  Qed.

  Lemma trusted_snoc s os o :
    trusted s os -> well_behaved (runs s os) o ->
    files_ok md5 (s_env (runs s (os ++ [o]))) (mem (runs s (os ++ [o]))) -> trusted s (os ++ [o]).
  Proof.
    revert s. induction os as [|o' os IH]; intros s; simpl; [done|].
    intros (H1 & H2 & H3) Hw Hok. split_and!; try done. by apply IH.
  Qed.

  Lemma shows_trusted (s0 : sys) os :
    fresh pdb_empty s0 -> careful md5 BK s0 os -> rewrites_show md5 BK veq s0 os -> trusted s0 os.
  Proof.
    intros Hf. induction os as [|o os IH] using rev_ind; intros Hc Hr.
    - intros f m d ct. destruct Hf as (Hdb & _). rewrite Hdb. simpl. by rewrite lookup_empty.
    - assert (trusted s0 os) as Htr.
      { apply IH.
        - intros a o' b ->. apply (Hc a o' (b ++ [o])). by rewrite <- app_assoc.
        - intros a o' b f c m c' rest ->. apply (Hr a o' b f c m c' (rest ++ [o])).
          by rewrite <- app_assoc; simpl; rewrite <- app_assoc. }
      apply trusted_snoc; [done|by apply (Hc os o [])|].
      intros f m d ct Hd He.
      apply (table_from_looks s0 (os ++ [o]) Hf) in Hd as (a & o' & b & ct0 & Hos & Hl & He0 & ->).
      assert (ct = ct0) as ->; [|done].
      assert (exists b', os = a ++ b') as [b' Hb'].
      { destruct b as [|x b _] using rev_ind.
        - apply app_inj_tail in Hos as [-> _]. exists []. by rewrite app_nil_r.
        - rewrite app_comm_cons, app_assoc in Hos. apply app_inj_tail in Hos as [-> _]. by exists (o' :: b). }
      assert (inv md5 (runs s0 a)) as Hinv.
      { apply (inv_runs veq); [by apply inv_fresh|]. rewrite Hb' in Htr. by apply (trusted_app veq) in Htr as [? _]. }
      apply looks_looked_at in Hl; [|done|done].
      rewrite Hos, (runs_app md5) in He.
      eapply file_since; [exact He0| |exact He|done].
      intros b1 c b2 Hb. destruct b1 as [|x b1]; simpl in Hb.
      + injection Hb as -> ->. done.
      + injection Hb as -> ->. by eapply (Hr a x b1 f c m ct0 b2).
  Qed.

  Lemma stamped_app res (s : sys) a b :
    stamped md5 BK res s (a ++ b) -> stamped md5 BK res s a /\ stamped md5 BK res (runs s a) b.
  Proof.
    revert s. induction a as [|o a IH]; intros s; simpl; [done|].
    intros [H1 H2]. by apply IH in H2 as [? ?].
  Qed.

  Lemma now_grows res (s : sys) os :
    stamped md5 BK res s os -> (e_now (s_env s) <= e_now (s_env (runs s os)))%Z.
  Proof.
    revert s. induction os as [|o os IH]; intros s; simpl; [lia|].
    intros [H1 H2]. apply IH in H2. rewrite (step_now veq md5) in H2. destruct o; simpl in H1; lia.
  Qed.

  Lemma settled_shows res (s0 : sys) os :
    (0 < res)%Z -> stamped md5 BK res s0 os -> settled md5 BK veq res s0 os ->
    rewrites_show md5 BK veq s0 os.
  Proof.
    intros Hres Hst Hset a o b f c m c' rest -> Hl He. exfalso.
    pose proof (Hset a o (b ++ OWrite f c m :: rest) f m c' eq_refl Hl He) as Hm.
    apply stamped_app in Hst as [_ Hst].
    change (o :: b ++ OWrite f c m :: rest) with ((o :: b) ++ OWrite f c m :: rest) in Hst.
    apply stamped_app in Hst as [Hst1 Hst2]. apply now_grows in Hst1.
    destruct Hst2 as [Hw _]. simpl in Hw, Hst1.
    match type of Hw with _ = (?n / _ * _)%Z => pose proof (Z.mod_pos_bound n res Hres);
      pose proof (Z.div_mod n res ltac:(lia)) end. lia.
  Qed.
End Stamp.
