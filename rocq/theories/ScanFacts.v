(** Facts about dependency scans. *)
From stdpp Require Import base list gmap relations sets fin_sets.
From Coq Require Import Lia.
From Verif Require Import ScanModel.

Section Facts.
  Context {F : Type} `{Countable F}.
  Context (succ : F -> list F).
  Notation native_f := (native_f succ).
  Notation native_scan := (native_scan succ).
  Definition edge (x y : F) : Prop := y ∈ succ x.

  (** The inner loop of f, given what f does below. *)
  Fixpoint loop (f : gset F -> F -> option (gset F)) (ds : list F) (deps : gset F) : option (gset F) :=
    match ds with
    | [] => Some deps
    | d :: ds' => if decide (d ∈ deps) then loop f ds' deps
                  else match f ({[ d ]} ∪ deps) d with
                       | Some deps => loop f ds' deps
                       | None => None
                       end
    end.
  Lemma native_loop depth deps src : native_f (S depth) deps src = loop (native_f depth) (succ src) deps.
  Proof.
    change (native_f (S depth) deps src) with
      ((fix lp (ds : list F) (deps : gset F) : option (gset F) :=
         match ds with
         | [] => Some deps
         | d :: ds' => if decide (d ∈ deps) then lp ds' deps
                       else match native_f depth ({[ d ]} ∪ deps) d with Some deps => lp ds' deps | None => None end
         end) (succ src) deps).
    generalize (succ src) as ds. intros ds. revert deps. induction ds as [|d ds IH]; intros deps; cbn; [done|].
    destruct (decide (d ∈ deps)); [apply IH|]. destruct (native_f depth ({[d]} ∪ deps) d); [apply IH|done].
  Qed.

  Record scanned (deps : gset F) (src : F) (ds : list F) (deps' : gset F) : Prop := Scanned {
    sc_sub : deps ⊆ deps';
    sc_src : forall d, d ∈ ds -> d ∈ deps';
    sc_closed : forall x y, x ∈ deps' -> x ∉ deps -> edge x y -> y ∈ deps';
    sc_reach : forall x, x ∈ deps' -> x ∉ deps -> tc edge src x
  }.

  Lemma loop_ok f src ds deps deps' :
    (forall deps src deps', f deps src = Some deps' -> scanned deps src (succ src) deps') ->
    (forall d, d ∈ ds -> edge src d) ->
    loop f ds deps = Some deps' -> scanned deps src ds deps'.
  Proof.
    intros Hf. revert deps. induction ds as [|d ds IH]; intros deps He Hl; cbn in Hl.
    - injection Hl as <-. split; [done|by intros d ?%elem_of_nil|done|done].
    - assert (forall d', d' ∈ ds -> edge src d') as He' by (intros; apply He; by right).
      destruct (decide (d ∈ deps)) as [Hd|Hd].
      + destruct (IH deps He' Hl) as [S1 S2 S3 S4]. split; try done.
        intros d' [ ->|Hd']%elem_of_cons; [by apply S1|by apply S2].
      + destruct (f ({[d]} ∪ deps) d) as [deps1|] eqn:Ef; [|done].
        destruct (Hf _ _ _ Ef) as [T1 T2 T3 T4]. destruct (IH deps1 He' Hl) as [S1 S2 S3 S4].
        assert (edge src d) as Hsd by (apply He; by left).
        assert (d ∈ deps1) as Hd1 by (apply T1; set_solver).
        split.
        * set_solver.
        * intros d' [ ->|Hd']%elem_of_cons; [by apply S1|by apply S2].
        * intros x y Hx Hxn Hxy. destruct (decide (x ∈ deps1)) as [Hx1|Hx1].
          -- apply S1. destruct (decide (x = d)) as [->|Hne]; [by apply T2|].
             apply (T3 x y Hx1); [set_solver|done].
          -- by apply (S3 x y).
        * intros x Hx Hxn. destruct (decide (x ∈ deps1)) as [Hx1|Hx1].
          -- destruct (decide (x = d)) as [->|Hne]; [by apply tc_once|].
             apply tc_l with d; [done|]. apply (T4 x Hx1). set_solver.
          -- by apply S4.
  Qed.

  Lemma native_ok depth : forall deps src deps',
    native_f depth deps src = Some deps' -> scanned deps src (succ src) deps'.
  Proof.
    induction depth as [|depth IH]; intros deps src deps' Hn; [done|].
    rewrite native_loop in Hn. by apply (loop_ok _ _ _ _ _ IH).
  Qed.

  Lemma native_exact depth src r :
    native_scan depth src = Some r -> forall d, d ∈ r <-> tc edge src d.
  Proof.
    intros Hr. destruct (native_ok _ _ _ _ Hr) as [_ S2 S3 S4]. intros d. split.
    - intros Hd. apply S4; [done|set_solver].
    - intros Ht. induction Ht as [x y Hxy|x y z Hxy Hyz IH].
      + by apply S2.
      + clear S4 Hr.
        assert (y ∈ r) as Hy by by apply S2. clear S2 IH Hxy x.
        induction Hyz as [y z Hyz|y w z Hyw Hwz IH].
        * apply (S3 y z); [done|set_solver|done].
        * apply IH. apply (S3 y w); [done|set_solver|done].
  Qed.

  Lemma native_sub depth deps src deps' (V : gset F) :
    native_f depth deps src = Some deps' -> (forall d, tc edge src d -> d ∈ V) -> deps' ⊆ deps ∪ V.
  Proof.
    intros Hn HV x Hx. destruct (native_ok _ _ _ _ Hn) as [_ _ _ S4].
    destruct (decide (x ∈ deps)); [set_solver|]. apply elem_of_union. right. apply HV. by apply S4.
  Qed.

  Lemma native_total depth : forall deps src (V : gset F),
    (forall d, tc edge src d -> d ∈ V) -> size (V ∖ deps) < depth -> is_Some (native_f depth deps src).
  Proof.
    induction depth as [|depth IH]; intros deps src V HV Hs; [lia|].
    rewrite native_loop.
    assert (forall ds, (forall d, d ∈ ds -> edge src d) -> forall deps, size (V ∖ deps) < S depth ->
      is_Some (loop (native_f depth) ds deps)) as Hloop; [|by apply Hloop].
    clear deps Hs. intros ds. induction ds as [|d ds IHd]; intros He deps Hs; cbn; [done|].
    destruct (decide (d ∈ deps)) as [Hd|Hd]; [apply IHd; [|done]; intros; apply He; by right|].
    assert (edge src d) as Hsd by (apply He; by left).
    assert (d ∈ V) as HdV by (apply HV; by apply tc_once).
    assert (forall x, tc edge d x -> x ∈ V) as HV' by (intros x Hx; apply HV; by apply tc_l with d).
    assert (size (V ∖ ({[d]} ∪ deps)) < size (V ∖ deps)) as Hlt.
    { apply subset_size. split; [set_solver|]. intros Hsub.
      assert (d ∈ V ∖ ({[d]} ∪ deps)) by (apply Hsub; set_solver). set_solver. }
    destruct (IH ({[d]} ∪ deps) d V HV' ltac:(lia)) as [deps1 E1]. rewrite E1. apply IHd.
    - intros; apply He; by right.
    - destruct (native_ok _ _ _ _ E1) as [T1 _ _ _].
      assert (size (V ∖ deps1) <= size (V ∖ deps)) by (apply subseteq_size; set_solver). lia.
  Qed.

  Theorem native_scan_ok depth src (V : gset F) :
    (forall d, tc edge src d -> d ∈ V) -> size V < depth ->
    exists r, native_scan depth src = Some r /\ forall d, d ∈ r <-> tc edge src d.
  Proof.
    intros HV Hs. destruct (native_total depth ∅ src V HV) as [r Hr].
    { assert (V ∖ ∅ = V) as -> by set_solver. done. }
    exists r. split; [done|]. by apply (native_exact depth).
  Qed.

  (** *** Bytecode *)
  Context (base : F -> F) (is_mli : F -> bool).
  Notation byte_scan := (byte_scan succ base is_mli).
  Notation lookup_of := (lookup_of base is_mli).
  Definition chosen (x y : F) : Prop := y ∈ (lookup_of (succ x)).*2.

  Fixpoint bloop (f : F -> option (gset F)) (ds : list F) (deps : gset F) : option (gset F) :=
    match ds with
    | [] => Some deps
    | d :: ds' => match f d with Some s => bloop f ds' (s ∪ ({[ d ]} ∪ deps)) | None => None end
    end.
  Lemma byte_loop depth src : byte_scan (S depth) src = bloop (byte_scan depth) ((lookup_of (succ src)).*2) ∅.
  Proof.
    change (byte_scan (S depth) src) with
      ((fix lp (ds : list F) (deps : gset F) : option (gset F) :=
         match ds with
         | [] => Some deps
         | d :: ds' => match byte_scan depth d with Some s => lp ds' (s ∪ ({[ d ]} ∪ deps)) | None => None end
         end) ((lookup_of (succ src)).*2) ∅).
    generalize ((lookup_of (succ src)).*2) as ds. generalize (∅ : gset F) as deps. intros deps ds. revert deps.
    induction ds as [|d ds IH]; intros deps; cbn; [done|].
    destruct (byte_scan depth d); [apply IH|done].
  Qed.

  Lemma bloop_in f ds deps r :
    bloop f ds deps = Some r ->
    forall x, x ∈ r <-> x ∈ deps \/ exists d s, d ∈ ds /\ f d = Some s /\ (x = d \/ x ∈ s).
  Proof.
    revert deps. induction ds as [|d ds IH]; intros deps; cbn.
    - intros [= <-] x. split; [by left|]. intros [?|(d & s & []%elem_of_nil & _)]; done.
    - destruct (f d) as [s|] eqn:Ef; [|done]. intros Hl x. rewrite (IH _ Hl x). split.
      + intros [Hx|(d' & s' & Hd' & Hf & Hx)].
        * rewrite !elem_of_union, elem_of_singleton in Hx. destruct Hx as [Hx|[->|Hx]].
          -- right. exists d, s. split; [by left|]. by split; [|right].
          -- right. exists d, s. split; [by left|]. by split; [|left].
          -- by left.
        * right. exists d', s'. split; [by right|done].
      + intros [Hx|(d' & s' & [ ->|Hd']%elem_of_cons & Hf & Hx)].
        * left. set_solver.
        * rewrite Ef in Hf. injection Hf as <-. left. destruct Hx as [->|Hx]; set_solver.
        * right. eauto.
  Qed.
  Lemma bloop_none f ds deps : bloop f ds deps = None <-> exists d, d ∈ ds /\ f d = None.
  Proof.
    revert deps. induction ds as [|d ds IH]; intros deps; cbn.
    - split; [done|]. by intros (d & []%elem_of_nil & _).
    - destruct (f d) as [s|] eqn:Ef.
      + rewrite IH. split.
        * intros (d' & Hd & Hf). exists d'. split; [by right|done].
        * intros (d' & [ ->|Hd]%elem_of_cons & Hf); [congruence|eauto].
      + split; [|done]. intros _. exists d. split; [by left|done].
  Qed.

  Theorem byte_exact depth : forall src r,
    byte_scan depth src = Some r -> forall d, d ∈ r <-> tc chosen src d.
  Proof.
    induction depth as [|depth IH]; intros src r Hr d; [done|].
    rewrite byte_loop in Hr. rewrite (bloop_in _ _ _ _ Hr d). split.
    - intros [Hx|(x & s & Hx & Hs & Hd)]; [set_solver|].
      destruct Hd as [ ->|Hd]; [by apply tc_once|]. apply tc_l with x; [done|]. by apply (IH x s).
    - intros Ht. right.
      assert (forall x, chosen src x -> exists s, byte_scan depth x = Some s) as Hsome.
      { intros x Hx. destruct (byte_scan depth x) as [s|] eqn:E; [eauto|].
        assert (bloop (byte_scan depth) ((lookup_of (succ src)).*2) ∅ = None) by (apply bloop_none; eauto).
        congruence. }
      inversion Ht as [? ? Hd|? x ? Hx Hxd]; subst.
      + destruct (Hsome d Hd) as [s Hs]. exists d, s. split; [done|]. by split; [|left].
      + destruct (Hsome x Hx) as [s Hs]. exists x, s. split; [done|]. split; [done|]. right. by apply (IH x s).
  Qed.

  Theorem byte_fails depth : forall src, byte_scan depth src = None <-> exists y, nsteps chosen depth src y.
  Proof.
    induction depth as [|depth IH]; intros src.
    - split; [|done]. intros _. exists src. constructor.
    - rewrite byte_loop, bloop_none. split.
      + intros (d & Hd & [y Hy]%IH). exists y. by apply nsteps_l with d.
      + intros [y Hy]. inversion Hy as [|? ? d ? Hd Hdy]; subst. exists d. split; [done|]. apply IH. eauto.
  Qed.

  (** A cycle: no depth is enough. *)
  Theorem byte_cycle src x depth : rtc chosen src x -> tc chosen x x -> byte_scan depth src = None.
  Proof.
    intros Hr Hc. apply byte_fails. clear -Hr Hc.
    assert (forall y, tc chosen y x -> exists z, nsteps chosen depth y z) as Ht.
    { induction depth as [|n IH]; intros y Hy; [exists y; constructor|].
      inversion Hy as [? ? Hyx|? w ? Hyw Hwx]; subst.
      - destruct (IH x Hc) as [z Hz]. exists z. by apply nsteps_l with x.
      - destruct (IH w Hwx) as [z Hz]. exists z. by apply nsteps_l with w. }
    apply rtc_tc in Hr as [->|Hsx]; by apply Ht.
  Qed.

  (** What is chosen: of each base one file, an interface if there is one. *)
  Lemma put_keys (l : list (F * F)) b d :
    (put l b d).*1 = if decide (b ∈ l.*1) then l.*1 else l.*1 ++ [b].
  Proof.
    induction l as [|[b' d'] l IH]; cbn.
    - rewrite decide_False by apply not_elem_of_nil. done.
    - destruct (decide (b' = b)) as [->|Hne]; cbn.
      + rewrite decide_True by left. done.
      + rewrite IH. destruct (decide (b ∈ l.*1)) as [Hb|Hb].
        * rewrite decide_True by by right. done.
        * rewrite decide_False; [done|]. intros [?|?]%elem_of_cons; congruence.
  Qed.
  Lemma put_in (l : list (F * F)) b d b' d' :
    NoDup (l.*1) ->
    (b', d') ∈ put l b d <-> (b', d') = (b, d) \/ (b', d') ∈ l /\ b' <> b.
  Proof.
    induction l as [|[b0 d0] l IH]; intros Hn; cbn.
    - rewrite elem_of_list_singleton. split; [by left|]. intros [?|[[]%elem_of_nil _]]; done.
    - cbn in Hn. apply NoDup_cons in Hn as [Hb Hn].
      destruct (decide (b0 = b)) as [->|Hne]; rewrite !elem_of_cons.
      + split.
        * intros [?|Hin]; [by left|]. right. split; [by right|]. intros ->. apply Hb.
          apply elem_of_list_fmap. by exists (b, d').
        * intros [?|[[?|?] Hbb]]; [by left|congruence|by right].
      + rewrite (IH Hn). split.
        * intros [?|[?|[? ?]]]; [right; split; [by left|congruence]|by left|by right; split; [right|]].
        * intros [?|[[?|?] ?]]; [by right; left|by left|by right; right].
  Qed.

  Record picked (ds : list F) (l : list (F * F)) : Prop := Picked {
    pk_nodup : NoDup (l.*1);
    pk_from : forall b d, (b, d) ∈ l -> base d = b /\ d ∈ ds;
    pk_each : forall d, d ∈ ds -> base d ∈ l.*1;
    pk_mli : forall d d', d ∈ ds -> is_mli d = true -> (base d, d') ∈ l -> is_mli d' = true
  }.
  Lemma lookup_picked ds : picked ds (lookup_of ds).
  Proof.
    induction ds as [|d ds IH] using rev_ind.
    - split; [constructor|by intros b d []%elem_of_nil|by intros d []%elem_of_nil|by intros d d' []%elem_of_nil].
    - unfold ScanModel.lookup_of. rewrite fold_left_app. cbn. fold (lookup_of ds).
      destruct IH as [K1 K2 K3 K4].
      destruct (is_mli d) eqn:Ed; cbn [orb].
      2: destruct (bool_decide (base d ∈ (lookup_of ds).*1)) eqn:Eb; cbn [negb].
      + split.
        * rewrite put_keys. destruct (decide _); [done|]. apply NoDup_app. split; [done|].
          split; [|apply NoDup_singleton]. intros x Hx ->%elem_of_list_singleton. done.
        * intros b d' [[= -> ->]|[Hin Hb]]%put_in; [split; [done|set_solver]| |done].
          destruct (K2 _ _ Hin). set_solver.
        * intros d' Hd'. rewrite put_keys.
          apply elem_of_app in Hd' as [Hd'| ->%elem_of_list_singleton].
          -- specialize (K3 _ Hd'). destruct (decide _); [done|set_solver].
          -- destruct (decide _); [done|set_solver].
        * intros d1 d2 Hd1 Hm1 [[= ? ->]|[Hin Hb]]%put_in; [done| |done].
          apply elem_of_app in Hd1 as [Hd1| ->%elem_of_list_singleton]; [by apply (K4 d1)|done].
      + apply bool_decide_eq_true in Eb. split; [done| | |].
        * intros b d' Hin. destruct (K2 _ _ Hin). set_solver.
        * intros d' [Hd'| ->%elem_of_list_singleton]%elem_of_app; [by apply K3|done].
        * intros d1 d2 [Hd1| ->%elem_of_list_singleton]%elem_of_app Hm1 Hin; [by apply (K4 d1)|congruence].
      + apply bool_decide_eq_false in Eb. split.
        * rewrite put_keys. destruct (decide _); [done|]. apply NoDup_app. split; [done|].
          split; [|apply NoDup_singleton]. intros x Hx ->%elem_of_list_singleton. done.
        * intros b d' [[= -> ->]|[Hin Hb]]%put_in; [split; [done|set_solver]| |done].
          destruct (K2 _ _ Hin). set_solver.
        * intros d' Hd'. rewrite put_keys.
          apply elem_of_app in Hd' as [Hd'| ->%elem_of_list_singleton].
          -- specialize (K3 _ Hd'). destruct (decide _); [done|set_solver].
          -- destruct (decide _); [done|set_solver].
        * intros d1 d2 Hd1 Hm1 [[= Hbb ->]|[Hin Hb]]%put_in; [| |done].
          -- apply elem_of_app in Hd1 as [Hd1| ->%elem_of_list_singleton]; [|congruence].
             exfalso. apply Eb. rewrite <- Hbb. by apply K3.
          -- apply elem_of_app in Hd1 as [Hd1| ->%elem_of_list_singleton]; [by apply (K4 d1)|done].
  Qed.

  Lemma chosen_iff_edge x y : chosen x y -> edge x y.
  Proof.
    intros Hc. unfold chosen in Hc. apply elem_of_list_fmap in Hc as ([b d] & -> & Hin).
    destruct (lookup_picked (succ x)) as [_ K2 _ _]. cbn. by destruct (K2 _ _ Hin).
  Qed.
  Lemma chosen_each x y : edge x y -> exists z, chosen x z /\ base z = base y.
  Proof.
    intros He. destruct (lookup_picked (succ x)) as [_ K2 K3 _].
    specialize (K3 y He). apply elem_of_list_fmap in K3 as ([b d] & Hb & Hin). cbn in Hb.
    exists d. split; [|by rewrite Hb; destruct (K2 _ _ Hin)].
    apply elem_of_list_fmap. by exists (b, d).
  Qed.
  Lemma chosen_one x y z : chosen x y -> chosen x z -> base y = base z -> y = z.
  Proof.
    intros Hy Hz Hb. destruct (lookup_picked (succ x)) as [K1 K2 _ _].
    apply elem_of_list_fmap in Hy as ([b d] & -> & Hy). apply elem_of_list_fmap in Hz as ([b' d'] & -> & Hz).
    cbn in *. destruct (K2 _ _ Hy) as [Eb _], (K2 _ _ Hz) as [Eb' _]. subst.
    rewrite Hb in Hy. clear -K1 Hy Hz. induction (lookup_of (succ x)) as [|[b0 d0] l IH]; [by apply elem_of_nil in Hy|].
    cbn in K1. apply NoDup_cons in K1 as [Hn K1].
    apply elem_of_cons in Hy as [Hy|Hy], Hz as [Hz|Hz]; try congruence; try by apply IH.
    - injection Hy as <- <-. destruct Hn. apply elem_of_list_fmap. by exists (base d', d').
    - injection Hz as <- <-. destruct Hn. apply elem_of_list_fmap. by exists (base d', d).
  Qed.
  Lemma chosen_mli x y z : edge x y -> is_mli y = true -> chosen x z -> base z = base y -> is_mli z = true.
  Proof.
    intros He Hm Hz Hb. destruct (lookup_picked (succ x)) as [_ K2 _ K4].
    apply elem_of_list_fmap in Hz as ([b d] & -> & Hin). cbn in *.
    destruct (K2 _ _ Hin) as [<- _]. rewrite Hb in Hin. by apply (K4 y).
  Qed.
End Facts.
