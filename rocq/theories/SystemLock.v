(** Who holds the controlling lock: for programs that use interruptible sections only from
    tasks, without nesting them and without starting evaluations inside them, the lock is
    held exactly when one thread runs task code outside such a section, works on a nested
    evaluation or is about to give the lock back, and by only one. *)
From Coq Require Import List Bool Arith Lia Permutation.
From Verif Require Import SchedModel SchedFacts SystemModel SystemSteps SystemFacts.
Import ListNotations.

(** [w]: the code of a task (otherwise of a thread outside); [sec]: inside a section. *)
Fixpoint orderly (w sec : bool) (p : prog) : Prop :=
  match p with
  | Done _ => sec = false
  | Work k => orderly w sec k
  | Spawn _ _ body k => sec = false /\ (forall i, orderly true false (body i)) /\ forall a, orderly w false (k a)
  | Enter k => w = true /\ sec = false /\ orderly w true k
  | Leave k => sec = true /\ orderly w false k
  | Shutdown k => w = false /\ orderly w sec k
  end.

(** The thread has the lock. *)
Definition free_code (fr : frame) : bool :=
  match f_flags fr with
  | [] => match f_mode fr with
          | MCode _ => true
          | MEval _ _ (SPut _ | SLoop | SDone) => true
          | _ => false
          end
  | _ :: _ => false
  end.
Definition holder (th : thread) : bool :=
  t_worker th && match t_pc th with
                 | PUnlock _ => true
                 | PStack => match t_stack th with fr :: _ => free_code fr | [] => false end
                 | _ => false
                 end.

Definition frame_ok (w : bool) (fr : frame) : Prop :=
  match f_mode fr with
  | MCode p => (f_flags fr = [] \/ w = true /\ f_flags fr = [true]) /\ orderly w (negb (match f_flags fr with [] => true | _ => false end)) p
  | MEval _ k st => f_flags fr = [] /\ (forall a, orderly w false (k a)) /\
      match st with SRead was | SAcq was _ => was = true | _ => True end
  | MShut _ _ _ k => f_flags fr = [] /\ w = false /\ orderly w false k
  end.

Record lockinv (s : sys) : Prop := LockInv {
  l_frames : forall t th fr, nth_error (s_threads s) t = Some th -> In fr (t_stack th) -> frame_ok (t_worker th) fr;
  l_bodies : forall e v i, nth_error (s_evals s) e = Some v -> orderly true false (v_body v i);
  l_held : s_lock s = true -> exists t th, nth_error (s_threads s) t = Some th /\ holder th = true;
  l_holds : forall t th, nth_error (s_threads s) t = Some th -> holder th = true -> s_lock s = true;
  l_one : forall t th t' th', nth_error (s_threads s) t = Some th -> nth_error (s_threads s) t' = Some th' ->
    holder th = true -> holder th' = true -> t = t'
}.

(** How a thread and the lock may change together. *)
Definition handover (lk lk' h h' : bool) : Prop :=
  (h = h' /\ lk = lk') \/ (h = false /\ lk = false /\ h' = true /\ lk' = true) \/ (h = true /\ h' = false /\ lk' = false).

Lemma lock_change s t th th' q evs lk c h : lockinv s -> nth_error (s_threads s) t = Some th ->
  (forall fr, In fr (t_stack th') -> frame_ok (t_worker th') fr) ->
  (forall e v i, nth_error evs e = Some v -> orderly true false (v_body v i)) ->
  handover (s_lock s) lk (holder th) (holder th') ->
  lockinv (Sys (setnth (s_threads s) t th') q lk evs c h).
Proof.
  intros [L1 L2 L3 L4 L5] Ht Hf Hb Hh. split; cbn [s_threads s_queue s_lock s_evals s_clock s_events].
  - intros t' x fr Hx Hin. apply setnth_cases in Hx. destruct Hx as [(-> & -> & _)|(_ & Hx)]; [exact (Hf _ Hin)|exact (L1 _ _ _ Hx Hin)].
  - exact Hb.
  - intros Hlk. destruct Hh as [[E1 E2]|[(E1 & E2 & E3 & E4)|(E1 & E2 & E3)]]; [| |congruence].
    + rewrite <- E2 in Hlk. destruct (L3 Hlk) as (t1 & x & Hx & Hhx). destruct (Nat.eq_dec t1 t) as [->|Hne].
      * exists t, th'. rewrite (setnth_same _ _ _ _ Ht). split; [reflexivity|]. congruence.
      * exists t1, x. rewrite setnth_other by exact Hne. auto.
    + exists t, th'. rewrite (setnth_same _ _ _ _ Ht). auto.
  - intros t1 x Hx Hhx. apply setnth_cases in Hx. destruct Hx as [(-> & -> & _)|(Hne & Hx)].
    + destruct Hh as [[E1 E2]|[(E1 & E2 & E3 & E4)|(E1 & E2 & E3)]]; [|congruence|congruence]. rewrite <- E2. apply (L4 _ _ Ht). congruence.
    + destruct Hh as [[E1 E2]|[(E1 & E2 & E3 & E4)|(E1 & E2 & E3)]]; [rewrite <- E2; exact (L4 _ _ Hx Hhx)|exact E4|].
      exfalso. apply Hne. exact (L5 _ _ _ _ Hx Ht Hhx E1).
  - intros t1 x1 t2 x2 H1 H2 Hh1 Hh2. apply setnth_cases in H1, H2.
    assert (forall t3 x3, nth_error (s_threads s) t3 = Some x3 -> t3 <> t -> holder x3 = true -> holder th' = true -> False) as Hclash.
    { intros t3 x3 Hx Hne Hx3 Hth. destruct Hh as [[E1 E2]|[(E1 & E2 & E3 & E4)|(E1 & E2 & E3)]].
      - apply Hne. apply (L5 _ _ _ _ Hx Ht Hx3). congruence.
      - rewrite (L4 _ _ Hx Hx3) in E2. discriminate.
      - congruence. }
    destruct H1 as [(-> & -> & _)|(N1 & H1)], H2 as [(-> & -> & _)|(N2 & H2)]; auto.
    + exfalso. eauto.
    + exfalso. eauto.
    + exact (L5 _ _ _ _ H1 H2 Hh1 Hh2).
Qed.

Lemma bodies_kept evs evs' : (forall e v i, nth_error evs e = Some v -> orderly true false (v_body v i)) ->
  (forall e' v', nth_error evs' e' = Some v' -> exists v, nth_error evs e' = Some v /\ v_body v' = v_body v) ->
  forall e v i, nth_error evs' e = Some v -> orderly true false (v_body v i).
Proof. intros H1 H2 e v i H. destruct (H2 _ _ H) as (v0 & E1 & E2). rewrite E2. eauto. Qed.
Lemma step_bodies evs e l evs' : eval_step evs e l = Some evs' ->
  forall e' v', nth_error evs' e' = Some v' -> exists v, nth_error evs e' = Some v /\ v_body v' = v_body v.
Proof.
  intros H e' v' Hv. destruct (eval_step_inv _ _ _ _ H) as (v & s' & Hv0 & _ & ->). apply setnth_cases in Hv.
  destruct Hv as [(-> & -> & _)|(_ & Hv)]; [exists v|exists v']; auto.
Qed.

Lemma top_frames (th : thread) fr below fr' : t_stack th = fr :: below ->
  (forall f, In f (t_stack th) -> frame_ok (t_worker th) f) -> frame_ok (t_worker th) fr' ->
  forall f, In f (t_stack (with_stack th (fr' :: below))) -> frame_ok (t_worker (with_stack th (fr' :: below))) f.
Proof. intros Hs H1 H2 f [<-|Hf]; [exact H2|]. apply H1. rewrite Hs. right. exact Hf. Qed.

Lemma flags_nil fr w : frame_ok w fr -> (forall p, f_mode fr <> MCode p) -> f_flags fr = [].
Proof. unfold frame_ok. intros H Hm. destruct (f_mode fr); [exfalso; eapply Hm; reflexivity|apply H|apply H]. Qed.

Lemma holder_top th fr below : t_pc th = PStack -> t_stack th = fr :: below -> holder th = t_worker th && free_code fr.
Proof. intros Hp Hs. unfold holder. rewrite Hp, Hs. reflexivity. Qed.

Lemma tell_holder l j t th : nth_error (tell l j) t = Some th -> exists x, nth_error l t = Some x /\ holder th = holder x /\ t_worker th = t_worker x /\ t_stack th = t_stack x.
Proof.
  intros H. destruct (tell_nth _ _ _ _ H) as (x & Hx & E1 & E2 & E3 & _). exists x. split; [exact Hx|].
  unfold holder. rewrite E1, E2, E3. auto.
Qed.
Lemma lock_tell s j : lockinv s -> lockinv (Sys (tell (s_threads s) j) (s_queue s) (s_lock s) (s_evals s) (s_clock s) (s_events s)).
Proof.
  intros [L1 L2 L3 L4 L5]. split; cbn [s_threads s_queue s_lock s_evals s_clock s_events].
  - intros t th fr H Hin. destruct (tell_holder _ _ _ _ H) as (x & Hx & _ & E2 & E3). rewrite E2. rewrite E3 in Hin. eauto.
  - exact L2.
  - intros H. destruct (L3 H) as (t & x & Hx & Hh). destruct (tell_nth' _ j _ _ Hx) as (th & Hth & E1 & E2 & E3).
    exists t, th. split; [exact Hth|]. unfold holder in *. rewrite E1, E2, E3. exact Hh.
  - intros t th H Hh. destruct (tell_holder _ _ _ _ H) as (x & Hx & E1 & _). rewrite E1 in Hh. eauto.
  - intros t th t' th' H H' Hh Hh'. destruct (tell_holder _ _ _ _ H) as (x & Hx & E1 & _). destruct (tell_holder _ _ _ _ H') as (x' & Hx' & E1' & _).
    rewrite E1 in Hh. rewrite E1' in Hh'. eauto.
Qed.

Lemma lock_step s t s' : gen s -> lockinv s -> sys_step s t = Some s' -> lockinv s'.
Proof.
  intros G L H. destruct (step_change _ _ _ H) as (th & Ht & C). pose proof (g_shape s G _ _ Ht) as Hsh.
  pose proof (l_frames s L t th) as Hfr0. assert (forall f, In f (t_stack th) -> frame_ok (t_worker th) f) as Hfr by (intros f; apply Hfr0; exact Ht).
  clear Hfr0. pose proof (l_bodies s L) as Hb. pose proof (l_holds s L t th Ht) as Hold.
  destruct C as [Hp|q qs Hp Hq|Hp Hl|e i s' Hp Hl Hst|lv Hp|fr below fr' lk h Hp Hs Hm|fr below o Hp Hs Hm Hf|fr below fr' q Hp Hs Hm
    |fr below j js k Hp Hs Hm|fr below e k was q qs Hp Hs Hm Hq|fr below e k was e' i' s' Hp Hs Hm Hl Hst
    |fr below e i o s' Hp Hs Hm Hf Hst|fr below n deps body k Hp Hs Hm|fr below e k st s' Hp Hs Hm Hst0 Hst].
  - apply lock_change with th; auto. left. unfold holder. rewrite Hp. cbn. destruct (t_finished th); auto.
  - apply lock_change with th; auto. left. unfold holder. rewrite Hp. auto.
  - apply lock_change with th; auto. right. left. unfold thread_shape in Hsh. rewrite Hp in Hsh. unfold holder. rewrite Hp. cbn.
    rewrite (proj2 Hsh). auto.
  - unfold thread_shape in Hsh. rewrite Hp in Hsh. destruct Hsh as [Hs Hw].
    destruct (start_inv' _ _ _ _ _ _ _ Hst) as (v & evs & Hv & Hev & ->). cbn in *. apply lock_change with th; auto.
    + cbn. intros f [<-|[]]. cbn. split; [auto|]. rewrite Hw. exact (Hb _ _ _ Hv).
    + exact (bodies_kept _ _ Hb (step_bodies _ _ _ _ Hev)).
    + right. left. unfold holder. rewrite Hp. cbn. rewrite Hw. auto.
  - apply lock_change with th; auto.
    unfold thread_shape in Hsh. rewrite Hp in Hsh. right. right. unfold holder. rewrite Hp. cbn. rewrite (proj2 Hsh).
    destruct (lv || negb (s_lock s)); auto.
  - assert (frame_ok (t_worker th) fr) as Hok by (apply Hfr; rewrite Hs; left; reflexivity).
    destruct (shape_stack th fr below Hsh Hp Hs) as (A1 & A2 & A3).
    assert (frame_ok (t_worker th) fr' /\ handover (s_lock s) lk (t_worker th && free_code fr) (t_worker th && free_code fr')) as [Hok' Hho].
    { rewrite (holder_top th fr below Hp Hs) in Hold. unfold frame_ok in Hok. destruct Hm; rewrite ?H0 in Hok; cbn in Hok.
      - split; [exact Hok|]. left. unfold free_code. rewrite H0. auto.
      - destruct Hok as [O1 (O2 & O3 & O4)]. destruct O1 as [O1|[_ O1]]; rewrite O1 in O3; [|discriminate].
        unfold free_code in Hold. rewrite O1, H0, O2 in Hold. specialize (Hold eq_refl). rewrite O1, Hold. cbn. rewrite O2 in *. split.
        + cbn. auto.
        + right. right. unfold free_code. cbn. rewrite O1, H0. auto.
      - rewrite H1 in Hok. cbn in Hok. destruct Hok as [_ [Hx _]]. discriminate.
      - rewrite H1 in Hok. cbn in Hok. destruct Hok as [[Hx|[_ Hx]] _]; discriminate.
      - rewrite H1 in Hok. cbn in Hok. destruct Hok as [[Hx|[Hw Hx]] [_ Hk]]; [discriminate|]. injection Hx as ->. cbn.
        split; [cbn; auto|]. right. left. unfold free_code. cbn. rewrite H1, Hw. auto.
      - destruct Hok as [O1 [O2 O3]]. rewrite H1 in *. destruct O1 as [O1|[? ?]]; [|discriminate]. rewrite O1 in O3. cbn in O3.
        split; [cbn; rewrite O1; auto|]. left. auto.
      - destruct Hok as (O1 & O2 & O3). rewrite O2 in *. split; [cbn; auto|]. left. auto.
      - destruct Hok as (O1 & O2 & O3). rewrite O2 in *. split; [cbn; rewrite O1; auto|]. left. auto.
      - destruct Hok as (O1 & O2 & _). split; [cbn; auto|]. left. unfold free_code. cbn. rewrite O1, H0. auto.
      - destruct Hok as (O1 & O2 & _). unfold free_code in Hold. rewrite O1, H0, H3 in Hold. specialize (Hold eq_refl). rewrite Hold.
        split; [cbn; auto|]. right. right. unfold free_code. cbn. rewrite O1, H0, H3. auto.
      - destruct Hok as (O1 & O2 & _). rewrite H3 in *. split; [cbn; auto|]. left. auto.
      - destruct Hok as (O1 & O2 & _). split; [cbn; rewrite O1; auto|]. left. unfold free_code. cbn. rewrite O1, H0. auto.
      - destruct Hok as (O1 & O2 & O3). split; [cbn; auto|]. left. unfold free_code. cbn. rewrite O1, H0. auto.
      - destruct Hok as (O1 & O2 & O3). subst was. cbn in H2. split; [cbn; auto|].
        assert (t_worker th = true) as Hw by (destruct (t_worker th); [reflexivity|destruct A3 as (_ & _ & _ & _ & B); exfalso; now eapply B; eassumption]).
        right. left. unfold free_code. cbn. rewrite O1, H0, H2, Hw. auto.
      - destruct Hok as (O1 & O2 & O3). split; [cbn; auto|]. left. unfold free_code. cbn. rewrite O1, H0. auto. }
    unfold go. apply lock_change with th; auto.
    + exact (top_frames th fr below fr' Hs Hfr Hok').
    + rewrite (holder_top th fr below Hp Hs). unfold holder, with_stack. cbn. rewrite Hp. exact Hho.
  - destruct (shape_stack th fr below Hsh Hp Hs) as (A1 & A2 & A3).
    assert (t_worker th = false) as Hw by (destruct (t_worker th); [destruct A3 as [A3 _]; exfalso; apply (A3 fr); [left; reflexivity|exact Hf]|reflexivity]).
    unfold go. apply lock_change with th; auto; [intros f []|]. left. unfold holder. cbn. rewrite Hw. auto.
  - assert (frame_ok (t_worker th) fr) as Hok by (apply Hfr; rewrite Hs; left; reflexivity).
    assert (frame_ok (t_worker th) fr' /\ free_code fr' = free_code fr) as [Hok' Hfc].
    { unfold frame_ok, free_code in *. destruct Hm; rewrite H0 in *; cbn; auto. }
    apply lock_change with th; auto.
    + exact (top_frames th fr below fr' Hs Hfr Hok').
    + left. rewrite (holder_top th fr below Hp Hs). unfold holder, with_stack. cbn. rewrite Hp, Hfc. auto.
  - assert (frame_ok (t_worker th) fr) as Hok by (apply Hfr; rewrite Hs; left; reflexivity).
    refine (lock_tell (Sys _ _ _ _ _ _) j _). unfold frame_ok in Hok. rewrite Hm in Hok. destruct Hok as (O1 & O2 & O3).
    apply lock_change with th; auto.
    + apply (top_frames th fr below _ Hs Hfr). cbn. auto.
    + left. unfold holder. cbn. rewrite O2. auto.
  - assert (frame_ok (t_worker th) fr) as Hok by (apply Hfr; rewrite Hs; left; reflexivity).
    unfold frame_ok in Hok. rewrite Hm in Hok. destruct Hok as (O1 & O2 & O3).
    apply lock_change with th; auto.
    + apply (top_frames th fr below _ Hs Hfr). cbn. auto.
    + left. rewrite (holder_top th fr below Hp Hs). unfold holder, with_stack, free_code. cbn. rewrite Hp, O1, Hm. auto.
  - assert (frame_ok (t_worker th) fr) as Hok by (apply Hfr; rewrite Hs; left; reflexivity).
    destruct (shape_stack th fr below Hsh Hp Hs) as (A1 & A2 & A3).
    assert (t_worker th = true) as Hw by (destruct (t_worker th); [reflexivity|destruct A3 as (_ & _ & _ & _ & B); exfalso; now eapply B; eassumption]).
    unfold frame_ok in Hok. rewrite Hm in Hok. destruct Hok as (O1 & O2 & O3). subst was. cbn in Hl.
    destruct (start_inv' _ _ _ _ _ _ _ Hst) as (v & evs & Hv & Hev & ->). cbn in *. apply lock_change with th; auto.
    + intros f [<-|[<-|Hin]].
      * cbn. split; [auto|]. rewrite Hw. exact (Hb _ _ _ Hv).
      * cbn. auto.
      * apply Hfr. rewrite Hs. right. exact Hin.
    + exact (bodies_kept _ _ Hb (step_bodies _ _ _ _ Hev)).
    + right. left. rewrite (holder_top th fr below Hp Hs). unfold holder, free_code. cbn. rewrite Hw, O1, Hm, Hl. auto.
  - assert (frame_ok (t_worker th) fr) as Hok by (apply Hfr; rewrite Hs; left; reflexivity).
    destruct (shape_stack th fr below Hsh Hp Hs) as (A1 & A2 & A3).
    assert (t_worker th = true) as Hw by (destruct (t_worker th); [reflexivity|destruct A3 as (_ & A3 & _); congruence]).
    unfold frame_ok in Hok. rewrite Hm in Hok. cbn in Hok. destruct Hok as [O1 O2].
    assert (f_flags fr = []) as Hfl by (destruct (f_flags fr); [reflexivity|discriminate]).
    assert (holder th = true) as Hh by (rewrite (holder_top th fr below Hp Hs); unfold free_code; rewrite Hfl, Hm, Hw; reflexivity).
    destruct (finish_inv' _ _ _ _ _ _ _ _ Hst) as (evs & Hev & ->).
    assert (forall f, In f below -> frame_ok (t_worker th) f) as Hbe by (intros f Hin; apply Hfr; rewrite Hs; right; exact Hin).
    apply lock_change with th; auto.
    + unfold resume. destruct below as [|f below']; [intros ? []|]. destruct (A1 f (or_introl eq_refl)) as (e1 & k1 & E1). rewrite E1. cbn.
      pose proof (Hbe f (or_introl eq_refl)) as Hok1. unfold frame_ok in Hok1. rewrite E1 in Hok1. destruct Hok1 as (P1 & P2 & _).
      intros f1 [<-|Hin]; [|apply Hbe; right; exact Hin]. unfold frame_ok. destruct o; cbn; rewrite P1; cbn; auto.
    + exact (bodies_kept _ _ Hb (step_bodies _ _ _ _ Hev)).
    + left. split; [|reflexivity]. rewrite Hh. unfold resume. destruct below as [|f below']; [unfold holder; cbn; rewrite Hw; reflexivity|].
      destruct (A1 f (or_introl eq_refl)) as (e1 & k1 & E1). rewrite E1.
      pose proof (Hbe f (or_introl eq_refl)) as Hok1. unfold frame_ok in Hok1. rewrite E1 in Hok1. destruct Hok1 as (P1 & P2 & _).
      unfold holder, free_code. cbn. rewrite Hw, P1. destruct o; reflexivity.
  - assert (frame_ok (t_worker th) fr) as Hok by (apply Hfr; rewrite Hs; left; reflexivity).
    unfold frame_ok in Hok. rewrite Hm in Hok. cbn in Hok. destruct Hok as (O1 & O2 & O3 & O4).
    assert (f_flags fr = []) as Hfl by (destruct (f_flags fr); [reflexivity|discriminate]).
    unfold spawn. apply lock_change with th; auto.
    + apply (top_frames th fr below _ Hs Hfr). cbn. auto.
    + intros e v i Hv. destruct (Nat.lt_ge_cases e (length (s_evals s))) as [Hlt|Hge].
      * rewrite nth_error_app1 in Hv by exact Hlt. exact (Hb _ _ _ Hv).
      * rewrite nth_error_app2 in Hv by exact Hge. destruct (e - length (s_evals s)) as [|[|?]]; try discriminate. injection Hv as <-. apply O3.
    + left. rewrite (holder_top th fr below Hp Hs). unfold holder, with_stack, free_code. cbn. rewrite Hp, Hfl, Hm. auto.
  - assert (frame_ok (t_worker th) fr) as Hok by (apply Hfr; rewrite Hs; left; reflexivity).
    destruct (shape_stack th fr below Hsh Hp Hs) as (A1 & A2 & A3).
    unfold frame_ok in Hok. rewrite Hm in Hok. destruct Hok as (O1 & O2 & _).
    destruct (process_inv' _ _ _ _ _ _ _ _ Hst) as (evs & Hev & ->). apply lock_change with th; auto.
    + apply (top_frames th fr below _ Hs Hfr). cbn. auto.
    + exact (bodies_kept _ _ Hb (step_bodies _ _ _ _ Hev)).
    + left. rewrite (holder_top th fr below Hp Hs). unfold holder, with_stack, free_code. cbn. rewrite Hp, O1, Hm.
      destruct Hst0 as [-> | ->]; [auto|]. destruct (t_worker th); [|auto]. exfalso. destruct A3 as (_ & B & _). now eapply B; eassumption.
Qed.

Lemma lock_runs ts : forall s s', gen s -> lockinv s -> sys_runs s ts = Some s' -> lockinv s'.
Proof.
  induction ts as [|t ts IH]; intros s s' G L H; cbn in H; [injection H as <-; exact L|].
  destruct (sys_step s t) as [s1|] eqn:E; [|discriminate]. exact (IH _ _ (gen_step _ _ _ G E) (lock_step _ _ _ G L E) H).
Qed.

Lemma lock_init w mains : (forall p, In p mains -> orderly false false p) -> lockinv (sys_init w mains).
Proof.
  intros Ho. split.
  - intros t th fr Ht Hin. destruct (init_thread _ _ _ _ Ht) as [->|(p & Hp & ->)]; [contradiction|]. cbn in Hin. destruct Hin as [<-|[]].
    cbn. auto.
  - intros e v i Hv. destruct e; discriminate.
  - discriminate.
  - intros t th Ht Hh. destruct (init_thread _ _ _ _ Ht) as [->|(p & Hp & ->)]; discriminate.
  - intros t th t' th' Ht _ Hh _. destruct (init_thread _ _ _ _ Ht) as [->|(p & Hp & ->)]; discriminate.
Qed.
