(** Calls that get along do not disturb each other. *)
From Coq Require Import List NArith Bool Arith Lia.
From Verif Require Import FnModel PathModel PathSpec PathFacts LinkModel GccModel TryModel TrySpec TryFacts TryPlaces OwnModel OwnSpec OwnPlaces.
Import ListNotations.
Open Scope N_scope.

Lemma app_common {A} (a b : list A) : forall x y, a ++ x = b ++ y -> (exists r, a = b ++ r) \/ (exists r, b = a ++ r).
Proof.
  revert b. induction a as [|c a IH]; intros [|d b] x y H; [left; exists []; reflexivity|right; eexists; reflexivity|left; eexists; reflexivity|].
  cbn in H. injection H as -> H. destruct (IH b x y H) as [[r ->]|[r ->]]; [left|right]; exists r; reflexivity.
Qed.
Lemma no_suffix_ne {A} (a b x y : list A) : no_suffix a b -> no_suffix b a -> x ++ a <> y ++ b.
Proof.
  intros H1 H2 E. apply (f_equal (@rev A)) in E. rewrite !rev_app_distr in E.
  destruct (app_common _ _ _ _ E) as [[r K]|[r K]]; apply (f_equal (@rev A)) in K; rewrite rev_app_distr, !rev_involutive in K.
  - exact (H2 _ K).
  - exact (H1 _ K).
Qed.
Lemma loc_eqb_iff a b : loc_eqb a b = true <-> a = b.
Proof. unfold loc_eqb. destruct (list_eq_dec (list_eq_dec N.eq_dec) a b); split; congruence. Qed.
Lemma put_same f l c : put f l c l = c.
Proof. unfold put. rewrite (proj2 (loc_eqb_iff l l) eq_refl). reflexivity. Qed.
Lemma put_other f l c l' : l <> l' -> put f l c l' = f l'.
Proof. intros H. unfold put. destruct (loc_eqb l l') eqn:E; [apply loc_eqb_iff in E; contradiction|reflexivity]. Qed.
Lemma starts_app p r : starts (p ++ r) p = true.
Proof. induction p as [|x p IH]; [destruct r; reflexivity|]. cbn. rewrite str_eqb_refl. exact IH. Qed.
Lemma contents_eqb_true a b : contents_eqb a b = true -> a = b.
Proof. destruct a, b; cbn; try discriminate; [|reflexivity]. intros H. apply str_eqb_true in H. subst. reflexivity. Qed.
Lemma all_eqb_true a : forall b, all_eqb a b = true -> a = b.
Proof.
  induction a as [|x a IH]; intros [|y b] H; try discriminate; [reflexivity|]. cbn in H. apply andb_true_iff in H as [H1 H2].
  apply contents_eqb_true in H1. apply IH in H2. congruence.
Qed.

Section Own.
  Context (cwd root dep : str) (bs : list build) (Hh : harmonious cwd root bs).
  Notation srcp := (srcp cwd). Notation objp := (objp cwd root dep). Notation prodp := (prodp cwd root dep).
  Notation R := (place cwd root).
  Let Hcwd := hm_cwd _ _ _ Hh.

  Definition has (b : build) (i : nat) : Prop := (i < length (b_srcs b))%nat.
  Lemma has_in b i : has b i -> In (src_at b i) (b_srcs b).
  Proof. intros H. apply nth_In. exact H. Qed.
  Lemma has_nth b i : has b i -> nth_error (b_srcs b) i = Some (src_at b i).
  Proof. intros H. apply nth_error_nth'. exact H. Qed.
  Lemma tidy_of b : In b bs -> tidy root b.
  Proof. apply (hm_tidy _ _ _ Hh). Qed.
  Lemma stem_ex n : exists r, stem n r.
  Proof. exists (fst (splitext n)). apply stem_split. reflexivity. Qed.

  Lemma obj_form b i : In b bs -> has b i -> exists ds ns n r, relative (b_dst b) ds /\ hd [] ds <> obj_dir /\
    kept (src_at b i) ns n /\ stem n r /\ objp b i = R ++ [obj_dir] ++ ds ++ ns ++ [r ++ b_osuffix b].
  Proof.
    intros Hb Hi. pose proof (tidy_of b Hb) as Ht. destruct (td_dst _ _ Ht) as (ds & Hd & Hhd).
    destruct (td_kept _ _ Ht _ (has_in b i Hi)) as (ns & n & Hk). destruct (stem_ex n) as (r & Hr).
    exists ds, ns, n, r. repeat (split; [assumption|]). apply (obj_place cwd Hcwd root dep b (src_at b i) ds ns n r); auto using has_in.
  Qed.
  Lemma obj_ne_same b i j : In b bs -> has b i -> has b j -> i <> j -> objp b i <> objp b j.
  Proof.
    intros Hb Hi Hj Hne E. destruct (obj_form b i Hb Hi) as (ds & ns & n & r & Hd & _ & Hk & Hr & E1).
    destruct (obj_form b j Hb Hj) as (ds' & ns' & n' & r' & Hd' & _ & Hk' & Hr' & E2).
    rewrite (relative_inj cwd Hcwd root _ _ _ Hd' Hd) in E2. rewrite E1, E2 in E.
    do 3 apply app_inv_head in E. apply app_inj_tail in E as [-> E]. apply app_inv_tail in E. subst r'.
    exact (td_distinct _ _ (tidy_of b Hb) i j _ _ ns' n n' r Hne (has_nth b i Hi) (has_nth b j Hj) Hk Hk' Hr Hr').
  Qed.
  Lemma obj_ne m n b c i j : m <> n -> nth_error bs m = Some b -> nth_error bs n = Some c -> has b i -> has c j -> objp b i <> objp c j.
  Proof.
    intros Hne Hb Hc Hi Hj E. destruct (obj_form b i (nth_error_In _ _ Hb) Hi) as (ds & ns & x & r & Hd & _ & _ & _ & E1).
    destruct (obj_form c j (nth_error_In _ _ Hc) Hj) as (ds' & ns' & x' & r' & Hd' & _ & _ & _ & E2). rewrite E1, E2 in E.
    do 2 apply app_inv_head in E. destruct (ga_objects _ _ (hm_along _ _ _ Hh m n b c Hne Hb Hc)) as [K|[K1 K2]].
    - destruct (K ds ds' Hd Hd') as [Ka Kb]. destruct (app_common _ _ _ _ E) as [[q Eq]|[q Eq]]; [exact (Kb q Eq)|exact (Ka q Eq)].
    - rewrite !app_assoc in E. apply app_inj_tail in E as [_ E]. exact (no_suffix_ne _ _ _ _ K1 K2 E).
  Qed.
  Lemma prod_ne m n b c : m <> n -> nth_error bs m = Some b -> nth_error bs n = Some c -> prodp b <> prodp c.
  Proof.
    intros Hne Hb Hc E. pose proof (tidy_of b (nth_error_In _ _ Hb)) as Tb. pose proof (tidy_of c (nth_error_In _ _ Hc)) as Tc.
    destruct (prod_some root b Tb) as (ds & x & Hx). destruct (prod_some root c Tc) as (es & y & Hy).
    rewrite (prod_place cwd Hcwd root dep b ds x Tb Hx), (prod_place cwd Hcwd root dep c es y Tc Hy) in E.
    apply app_inv_head in E. apply app_inj_tail in E as [-> ->].
    exact (ga_products _ _ (hm_along _ _ _ Hh m n b c Hne Hb Hc) es y Hx Hy).
  Qed.
  Lemma obj_prod b c i : In b bs -> In c bs -> has b i -> objp b i <> prodp c.
  Proof.
    intros Hb Hc Hi E. destruct (obj_form b i Hb Hi) as (ds & ns & x & r & Hd & _ & _ & _ & E1).
    pose proof (tidy_of c Hc) as Tc. destruct (td_dst _ _ Tc) as (es & He & Hhd). destruct (prod_some root c Tc) as (fs & y & Hy).
    rewrite E1, (prod_place cwd Hcwd root dep c fs y Tc Hy) in E. apply app_inv_head in E. destruct Hy as (m & Hm & _).
    pose proof (relative_inj cwd Hcwd root _ _ _ He Hm) as K. subst es. destruct fs as [|z fs].
    - cbn in E. injection E as _ E. destruct ds as [|d ds]; [destruct Hd as [Hd _]; contradiction|discriminate].
    - cbn in E, Hhd. injection E as <- _. contradiction.
  Qed.
  Lemma in_inputs b l : In l (inputs cwd b) -> exists p, l = place cwd p /\ (In p (b_srcs b) \/ In p (b_objs b)).
  Proof.
    unfold inputs. intros H. apply in_app_or in H as [H|H]; apply in_map_iff in H as (p & <- & H); exists p; auto.
  Qed.
  Lemma input_obj b c l i : In b bs -> In c bs -> has c i -> In l (inputs cwd b) -> l <> objp c i.
  Proof.
    intros Hb Hc Hi Hl E. destruct (in_inputs b l Hl) as (p & -> & Hp). destruct (hm_inputs _ _ _ Hh b p Hb Hp) as [K _].
    destruct (obj_form c i Hc Hi) as (ds & ns & x & r & _ & _ & _ & _ & E1). rewrite E1 in E.
    apply (K (ds ++ ns ++ [r ++ b_osuffix c])). rewrite E, <- app_assoc. reflexivity.
  Qed.
  Lemma input_prod b c l : In b bs -> In c bs -> In l (inputs cwd b) -> l <> prodp c.
  Proof.
    intros Hb Hc Hl E. destruct (in_inputs b l Hl) as (p & -> & Hp). destruct (hm_inputs _ _ _ Hh b p Hb Hp) as [_ K].
    pose proof (tidy_of c Hc) as Tc. destruct (prod_some root c Tc) as (fs & y & Hy). apply (K c fs y Hc Hy).
    rewrite E. apply (prod_place cwd Hcwd root dep c fs y Tc Hy).
  Qed.
  Lemma obj_starts b i : In b bs -> has b i -> starts (objp b i) (R ++ [s_obj]) = true.
  Proof.
    intros Hb Hi. destruct (obj_form b i Hb Hi) as (ds & ns & x & r & _ & _ & _ & _ & ->).
    change [obj_dir] with [s_obj]. rewrite app_assoc. apply starts_app.
  Qed.
  Lemma src_input b i : has b i -> In (srcp b i) (inputs cwd b).
  Proof. intros Hi. unfold inputs. apply in_or_app. left. apply (in_map (place cwd)). apply has_in. exact Hi. Qed.

  (** *** What holds all the time *)
  Context (f0 : files) (Hfresh : forall b, In b bs -> afresh root dep f0 cwd b).
  Notation made := (made root dep). Notation bound := (bound root dep).
  Notation parts := (parts cwd root dep).
  (** For one call [b] in state [t]. *)
  Record good (f : files) (b : build) (t : bst) : Prop := Good {
    g_rec : forall i c x, has b i -> crec t i = Some c -> f (objp b i) = Some x -> made b i c = Some x;
    g_run : on t = true -> forall i c, has b i -> cs t i = CRun c -> c = f (srcp b i);
    g_done : on t = true -> forall i, has b i -> cs t i = CDone -> f (objp b i) = made b i (f (srcp b i)) /\ f (objp b i) <> None;
    g_fail : on t = true -> forall i, has b i -> cs t i = CFail -> made b i (f (srcp b i)) = None;
    g_old : forall ins, bound b (f (prodp b)) ins = bound b None ins;
    g_lrec : forall ins x, lrec t = Some ins -> f (prodp b) = Some x -> bound b None ins = Some x;
    g_all : on t = true -> ls t <> LWait -> forall i, has b i -> cs t i = CDone;
    g_link : on t = true -> forall old ins, ls t = LRun old ins -> old = f (prodp b) /\ ins = parts b f;
    g_ldone : on t = true -> ls t = LDone -> f (prodp b) = bound b None (parts b f) /\ f (prodp b) <> None;
    g_lfail : on t = true -> ls t = LFail -> bound b None (parts b f) = None
  }.
  Definition fine (s : ostate) : Prop := forall n b, nth_error bs n = Some b -> good (fs s) b (sts s n).

  (** The same files, for what the call has to do with. *)
  Definition agree (b : build) (f g : files) : Prop :=
    (forall l, In l (inputs cwd b) -> f l = g l) /\ (forall i, has b i -> f (objp b i) = g (objp b i)) /\ f (prodp b) = g (prodp b).
  Lemma parts_eq b f : parts b f = map (fun p => f (place cwd p)) (b_objs b) ++ map (fun i => f (objp b i)) (each b).
  Proof.
    unfold OwnModel.parts, objects. rewrite map_app, map_map. f_equal.
    unfold each. apply nth_ext with (d := f (place cwd (snd (compiled root dep b [])))) (d' := f (objp b 0%nat)).
    - rewrite !map_length, seq_length. reflexivity.
    - intros k Hk. rewrite map_length in Hk. rewrite map_nth with (f := fun p => f (place cwd (snd (compiled root dep b p)))) (d := @nil chr).
      rewrite map_nth with (f := fun i => f (objp b i)). rewrite seq_nth by exact Hk. reflexivity.
  Qed.
  Lemma each_has b i : In i (each b) <-> has b i.
  Proof. unfold each, has. rewrite in_seq. lia. Qed.
  Lemma agree_parts b f g : agree b f g -> parts b f = parts b g.
  Proof.
    intros (H1 & H2 & _). rewrite !parts_eq. f_equal; apply map_ext_in.
    - intros p Hp. apply H1. unfold inputs. apply in_or_app. right. apply in_map. exact Hp.
    - intros i Hi. apply H2. apply each_has. exact Hi.
  Qed.
  Lemma good_agree b f g t : agree b f g -> good f b t -> good g b t.
  Proof.
    intros H K. pose proof (agree_parts b f g H) as Hp. destruct H as (H1 & H2 & H3). split.
    - intros i c x Hi Hc Hx. rewrite <- (H2 i Hi) in Hx. exact (g_rec _ _ _ K i c x Hi Hc Hx).
    - intros Ho i c Hi Hc. rewrite <- (H1 _ (src_input b i Hi)). exact (g_run _ _ _ K Ho i c Hi Hc).
    - intros Ho i Hi Hc. rewrite <- (H1 _ (src_input b i Hi)), <- (H2 i Hi). exact (g_done _ _ _ K Ho i Hi Hc).
    - intros Ho i Hi Hc. rewrite <- (H1 _ (src_input b i Hi)). exact (g_fail _ _ _ K Ho i Hi Hc).
    - intros ins. rewrite <- H3. apply (g_old _ _ _ K).
    - intros ins x Hl Hx. rewrite <- H3 in Hx. exact (g_lrec _ _ _ K ins x Hl Hx).
    - apply (g_all _ _ _ K).
    - intros Ho old ins Hl. rewrite <- H3, <- Hp. exact (g_link _ _ _ K Ho old ins Hl).
    - intros Ho Hl. rewrite <- H3, <- Hp. exact (g_ldone _ _ _ K Ho Hl).
    - intros Ho Hl. rewrite <- Hp. exact (g_lfail _ _ _ K Ho Hl).
  Qed.

  Lemma upd_same {A} (f : nat -> A) n x : upd f n x n = x.
  Proof. unfold upd. rewrite Nat.eqb_refl. reflexivity. Qed.
  Lemma upd_other {A} (f : nat -> A) n x m : m <> n -> upd f n x m = f m.
  Proof. intros H. unfold upd. apply Nat.eqb_neq in H. rewrite H. reflexivity. Qed.

  (** Steps of one call leave the files of the others alone. *)
  Lemma advance_files b f t a g t' : advance_b cwd root dep b f t a = Some (g, t') ->
    g = f \/ (exists i c, has b i /\ g = put f (objp b i) c) \/ (exists c, g = put f (prodp b) c).
  Proof.
    unfold advance_b. destruct a as [n|n i|n i|n i|n|n|n|n|l c]; intros H.
    - destruct (on t); [discriminate|]. injection H as <- _. auto.
    - destruct (cs t i); try discriminate. destruct (on t && (i <? length (b_srcs b))%nat); [|discriminate]. injection H as <- _. auto.
    - destruct (cs t i); try discriminate. destruct (on t && (i <? length (b_srcs b))%nat) eqn:E; [|discriminate]. injection H as <- _.
      apply andb_true_iff in E as [_ E]. apply Nat.ltb_lt in E. right. left. eauto.
    - destruct (cs t i); try discriminate. destruct (crec t i); [|discriminate]. destruct (f (objp b i)); [|discriminate].
      destruct (on t && (i <? length (b_srcs b))%nat && _); [|discriminate]. injection H as <- _. auto.
    - destruct (ls t); try discriminate. destruct (on t && _); [|discriminate]. injection H as <- _. auto.
    - destruct (ls t); try discriminate. destruct (on t); [|discriminate]. injection H as <- _. right. right. eauto.
    - destruct (ls t); try discriminate. destruct (lrec t); [|discriminate]. destruct (f (prodp b)); [|discriminate].
      destruct (on t && _ && _); [|discriminate]. injection H as <- _. auto.
    - destruct (on t && _); [|discriminate]. injection H as <- _. auto.
    - discriminate.
  Qed.
  Lemma advance_agree m n b c f t a g t' : m <> n -> nth_error bs m = Some b -> nth_error bs n = Some c ->
    advance_b cwd root dep b f t a = Some (g, t') -> agree c f g.
  Proof.
    intros Hne Hb Hc H. pose proof (nth_error_In _ _ Hb) as Ib. pose proof (nth_error_In _ _ Hc) as Ic.
    destruct (advance_files b f t a g t' H) as [->|[(i & x & Hi & ->)|(x & ->)]].
    - repeat split.
    - split; [|split].
      + intros l Hl. symmetry. apply put_other. intros <-. exact (input_obj c b _ i Ic Ib Hi Hl eq_refl).
      + intros j Hj. symmetry. apply put_other. exact (obj_ne m n b c i j Hne Hb Hc Hi Hj).
      + symmetry. apply put_other. exact (obj_prod b c i Ib Ic Hi).
    - split; [|split].
      + intros l Hl. symmetry. apply put_other. intros <-. exact (input_prod c b _ Ic Ib Hl eq_refl).
      + intros j Hj. symmetry. apply put_other. intros E. exact (obj_prod c b j Ic Ib Hj (eq_sym E)).
      + symmetry. apply put_other. exact (prod_ne m n b c Hne Hb Hc).
  Qed.

  Lemma all_done t b : forallb (fun i => is_done (cs t i)) (each b) = true -> forall i, has b i -> cs t i = CDone.
  Proof.
    intros H i Hi. rewrite forallb_forall in H. specialize (H i (proj2 (each_has b i) Hi)). destruct (cs t i); try discriminate. reflexivity.
  Qed.
  Lemma fresh_old b ins x ins' : In b bs -> bound b None ins = Some x -> bound b (Some x) ins' = bound b None ins'.
  Proof. intros Hb H. exact (proj2 (Hfresh b Hb) ins x ins' H). Qed.

  Lemma advance_good b f t a g t' : In b bs -> good f b t -> advance_b cwd root dep b f t a = Some (g, t') -> good g b t'.
  Proof.
    intros Hb K H. unfold advance_b in H. destruct a as [n|n i|n i|n i|n|n|n|n|l c].
    - destruct (on t) eqn:Ho; [discriminate|]. injection H as <- <-. split; cbn; try discriminate; try apply K; try (intros; discriminate).
      intros _ Hx. destruct (Hx eq_refl).
    - destruct (cs t i) eqn:Ei; try discriminate. destruct (on t && (i <? length (b_srcs b))%nat) eqn:E; [|discriminate]. injection H as <- <-.
      apply andb_true_iff in E as [Eo Ei']. apply Nat.ltb_lt in Ei'. split; cbn; try apply K.
      + intros Ho j c Hj. unfold upd. destruct (Nat.eqb_spec j i) as [->|Hn]; [|apply (g_run _ _ _ K Ho); exact Hj].
        intros E. injection E as <-. reflexivity.
      + intros Ho j Hj. unfold upd. destruct (Nat.eqb_spec j i) as [->|Hn]; [discriminate|]. apply (g_done _ _ _ K Ho). exact Hj.
      + intros Ho j Hj. unfold upd. destruct (Nat.eqb_spec j i) as [->|Hn]; [discriminate|]. apply (g_fail _ _ _ K Ho). exact Hj.
      + intros Ho Hl j Hj. pose proof (g_all _ _ _ K Ho Hl i Ei') as X. rewrite X in Ei. discriminate.
    - destruct (cs t i) as [|c| |] eqn:Ei; try discriminate. destruct (on t && (i <? length (b_srcs b))%nat) eqn:E; [|discriminate]. injection H as <- <-.
      apply andb_true_iff in E as [Eo Ei']. apply Nat.ltb_lt in Ei'. fold (has b i) in Ei'. pose proof (g_run _ _ _ K Eo i c Ei' Ei) as Hc.
      set (r := made b i c). set (g := put f (objp b i) r).
      assert (g (objp b i) = r) as Gi by apply put_same.
      assert (forall j, has b j -> j <> i -> g (objp b j) = f (objp b j)) as Gj.
      { intros j Hj Hn. apply put_other. apply obj_ne_same; auto. }
      assert (forall l, In l (inputs cwd b) -> g l = f l) as Gl.
      { intros l Hl. apply put_other. intros <-. exact (input_obj b b _ i Hb Hb Ei' Hl eq_refl). }
      assert (g (prodp b) = f (prodp b)) as Gp by (apply put_other, obj_prod; assumption).
      assert (ls t = LWait) as Ew.
      { destruct (ls t) eqn:E; [reflexivity| | |]; (pose proof (g_all _ _ _ K Eo) as X; rewrite E in X;
          specialize (X ltac:(discriminate) i Ei'); congruence). }
      assert (forall t', on t' = true -> lrec t' = lrec t -> ls t' = LWait ->
        (forall j, j <> i -> cs t' j = cs t j) -> (forall j, j <> i -> crec t' j = crec t j) ->
        (cs t' i = CDone /\ r <> None /\ crec t' i = Some c \/ cs t' i = CFail /\ r = None /\ crec t' i = crec t i) -> good g b t') as Goal.
      { intros t' Ho Hlr Hls Hcs Hcr Hi. split.
        - intros j d x Hj. destruct (Nat.eq_dec j i) as [->|Hn].
          + rewrite Gi. destruct Hi as [(_ & _ & ->)|(_ & -> & _)]; [|discriminate]. intros E. injection E as <-. intros E. exact E.
          + rewrite (Hcr j Hn), (Gj j Hj Hn). apply (g_rec _ _ _ K). exact Hj.
        - intros _ j d Hj. destruct (Nat.eq_dec j i) as [->|Hn]; [destruct Hi as [(-> & _)|(-> & _)]; discriminate|].
          rewrite (Hcs j Hn), (Gl _ (src_input b j Hj)). apply (g_run _ _ _ K Eo). exact Hj.
        - intros _ j Hj. destruct (Nat.eq_dec j i) as [->|Hn].
          + intros E. destruct Hi as [(_ & Hr & _)|(E' & _)]; [|congruence]. rewrite Gi, (Gl _ (src_input b i Hj)), <- Hc. split; [reflexivity|exact Hr].
          + rewrite (Hcs j Hn), (Gl _ (src_input b j Hj)), (Gj j Hj Hn). apply (g_done _ _ _ K Eo). exact Hj.
        - intros _ j Hj. destruct (Nat.eq_dec j i) as [->|Hn].
          + intros E. destruct Hi as [(E' & _)|(_ & Hr & _)]; [congruence|]. rewrite (Gl _ (src_input b i Hj)), <- Hc. exact Hr.
          + rewrite (Hcs j Hn), (Gl _ (src_input b j Hj)). apply (g_fail _ _ _ K Eo). exact Hj.
        - rewrite Gp. apply (g_old _ _ _ K).
        - rewrite Gp, Hlr. apply (g_lrec _ _ _ K).
        - intros _ X. rewrite Hls in X. contradiction.
        - intros _ old ins. rewrite Hls. discriminate.
        - intros _. rewrite Hls. discriminate.
        - intros _. rewrite Hls. discriminate. }
      destruct r as [x|] eqn:Er; apply Goal; cbn; auto.
      all: try (intros j Hj; apply upd_other; exact Hj).
      + left. rewrite !upd_same. repeat split; discriminate.
      + right. rewrite upd_same. auto.
    - destruct (cs t i) eqn:Ei; try discriminate. destruct (crec t i) as [c|] eqn:Ec; [|discriminate].
      destruct (f (objp b i)) as [x|] eqn:Ex; [|discriminate].
      destruct (on t && (i <? length (b_srcs b))%nat && _) eqn:E; [|discriminate]. injection H as <- <-.
      apply andb_true_iff in E as [E Eq]. apply andb_true_iff in E as [Eo Ei']. apply Nat.ltb_lt in Ei'. apply contents_eqb_true in Eq.
      split; cbn; try apply K.
      + intros Ho j d Hj. unfold upd. destruct (Nat.eqb_spec j i) as [->|Hn]; [discriminate|apply (g_run _ _ _ K Ho); exact Hj].
      + intros Ho j Hj. unfold upd. destruct (Nat.eqb_spec j i) as [->|Hn]; [|apply (g_done _ _ _ K Ho); exact Hj].
        intros _. rewrite <- Eq, Ex. split; [symmetry; exact (g_rec _ _ _ K i c x Hj Ec Ex)|discriminate].
      + intros Ho j Hj. unfold upd. destruct (Nat.eqb_spec j i) as [->|Hn]; [discriminate|]. apply (g_fail _ _ _ K Ho). exact Hj.
      + intros Ho Hl j Hj. unfold upd. destruct (Nat.eqb_spec j i) as [->|Hn]; [reflexivity|]. apply (g_all _ _ _ K Ho Hl). exact Hj.
    - destruct (ls t) eqn:El; try discriminate. destruct (on t && _) eqn:E; [|discriminate]. injection H as <- <-.
      apply andb_true_iff in E as [Eo E]. pose proof (all_done t b E) as Ha. split; cbn; try apply K.
      + intros _ _. exact Ha.
      + intros _ old ins X. injection X as <- <-. split; reflexivity.
      + intros _ X. discriminate.
      + intros _ X. discriminate.
    - destruct (ls t) as [|old ins| |] eqn:El; try discriminate. destruct (on t) eqn:Eo; [|discriminate]. injection H as <- <-.
      destruct (g_link _ _ _ K Eo old ins El) as [-> ->]. rewrite (g_old _ _ _ K). set (r := bound b None (parts b f)).
      set (g := put f (prodp b) r).
      assert (g (prodp b) = r) as Gp by apply put_same.
      assert (forall l, In l (inputs cwd b) -> g l = f l) as Gl.
      { intros l Hl. apply put_other. intros <-. exact (input_prod b b _ Hb Hb Hl eq_refl). }
      assert (forall j, has b j -> g (objp b j) = f (objp b j)) as Gj.
      { intros j Hj. apply put_other. intros E. exact (obj_prod b b j Hb Hb Hj (eq_sym E)). }
      assert (parts b g = parts b f) as Gq.
      { rewrite !parts_eq. f_equal; apply map_ext_in.
        - intros p Hp. apply Gl. unfold inputs. apply in_or_app. right. apply in_map. exact Hp.
        - intros i Hi. apply Gj. apply each_has. exact Hi. }
      assert (forall t', on t' = true -> cs t' = cs t -> crec t' = crec t ->
        (ls t' = LDone /\ r <> None /\ lrec t' = Some (parts b f) \/ ls t' = LFail /\ r = None /\ lrec t' = lrec t) -> good g b t') as Goal.
      { intros t' Ho Hcs Hcr Hi. split; rewrite ?Hcs, ?Hcr, ?Gp, ?Gq.
        - intros j d x Hj. rewrite (Gj j Hj). apply (g_rec _ _ _ K). exact Hj.
        - intros _ j d Hj. rewrite (Gl _ (src_input b j Hj)). apply (g_run _ _ _ K Eo). exact Hj.
        - intros _ j Hj. rewrite (Gl _ (src_input b j Hj)), (Gj j Hj). apply (g_done _ _ _ K Eo). exact Hj.
        - intros _ j Hj. rewrite (Gl _ (src_input b j Hj)). apply (g_fail _ _ _ K Eo). exact Hj.
        - intros ins. destruct r as [x|] eqn:Er; [|reflexivity]. apply (fresh_old b (parts b f)); [exact Hb|exact Er].
        - intros ins x. destruct Hi as [(_ & _ & ->)|(_ & -> & _)]; [|discriminate]. intros E. injection E as <-. intros E. exact E.
        - intros _ _. apply (g_all _ _ _ K Eo). rewrite El. discriminate.
        - intros _ old ins E. destruct Hi as [(X & _)|(X & _)]; congruence.
        - intros _ E. destruct Hi as [(_ & X & _)|(X & _)]; [|congruence]. split; [reflexivity|exact X].
        - intros _ E. destruct Hi as [(X & _)|(_ & X & _)]; [congruence|exact X]. }
      destruct r as [x|] eqn:Er; apply Goal; cbn; auto.
      left. repeat split. discriminate.
    - destruct (ls t) eqn:El; try discriminate. destruct (lrec t) as [ins|] eqn:Er; [|discriminate].
      destruct (f (prodp b)) as [x|] eqn:Ex; [|discriminate]. destruct (on t && _ && _) eqn:E; [|discriminate]. injection H as <- <-.
      apply andb_true_iff in E as [E Eq]. apply andb_true_iff in E as [Eo E]. apply all_eqb_true in Eq. pose proof (all_done t b E) as Ha.
      split; cbn; try apply K.
      + intros _ _. exact Ha.
      + intros _ old ins' X. discriminate.
      + intros _ _. rewrite <- Eq, Ex. split; [symmetry; exact (g_lrec _ _ _ K ins x Er Ex)|discriminate].
      + intros _ X. discriminate.
    - destruct (on t && _) eqn:E; [|discriminate]. injection H as <- <-. split; cbn; try discriminate; try apply K; intros; discriminate.
    - discriminate.
  Qed.

  Lemma combine_seq {A} (l : list A) : forall k n x, nth_error l n = Some x -> In ((k + n)%nat, x) (combine (seq k (length l)) l).
  Proof.
    induction l as [|y l IH]; intros k [|n] x H; try discriminate; cbn.
    - injection H as ->. left. rewrite Nat.add_0_r. reflexivity.
    - right. specialize (IH (S k) n x H). rewrite Nat.add_succ_r. exact IH.
  Qed.
  Lemma others_good s l c : others_may cwd root dep bs s l c = true -> fine s -> fine (OState (put (fs s) l c) (sts s)).
  Proof.
    intros H K n b Hb. cbn [fs sts]. pose proof (K n b Hb) as G. unfold others_may in H. apply andb_true_iff in H as [H1 H2].
    pose proof (nth_error_In _ _ Hb) as Ib. rewrite forallb_forall in H1. specialize (H1 (n, b) (combine_seq bs 0 n b Hb)). cbn [fst snd] in H1.
    set (t := sts s n) in *. set (f := fs s) in *.
    assert (on t = true -> forall p, In p (inputs cwd b) -> l <> p) as Hin.
    { intros Ho p Hp ->. rewrite Ho in H1. cbn in H1. apply negb_true_iff in H1.
      assert (existsb (loc_eqb p) (inputs cwd b) = true) as X by (apply existsb_exists; exists p; split; [exact Hp|apply loc_eqb_iff; reflexivity]).
      congruence. }
    destruct (starts l (R ++ [s_obj]) || existsb (fun b => loc_eqb l (prodp b)) bs) eqn:E.
    - apply andb_true_iff in H2 as [H2 H3]. destruct c; [discriminate|]. clear H2. rewrite forallb_forall in H3.
      assert (on t = false) as Ho.
      { specialize (H3 n). rewrite in_seq in H3. apply negb_true_iff. apply H3. split; [lia|]. cbn. apply nth_error_Some. congruence. }
      assert (forall p, put f l None p = None \/ put f l None p = f p) as Hput.
      { intros p. unfold put. destruct (loc_eqb l p); auto. }
      split; try (intros Ho'; congruence).
      + intros i d x Hi Hd Hx. destruct (Hput (objp b i)) as [E'|E']; rewrite E' in Hx; [discriminate|]. exact (g_rec _ _ _ G i d x Hi Hd Hx).
      + intros ins. destruct (Hput (prodp b)) as [->| ->]; [reflexivity|]. apply (g_old _ _ _ G).
      + intros ins x Hl Hx. destruct (Hput (prodp b)) as [E'|E']; rewrite E' in Hx; [discriminate|]. exact (g_lrec _ _ _ G ins x Hl Hx).
    - clear H2. apply orb_false_iff in E as [E1 E2].
      assert (forall i, has b i -> put f l c (objp b i) = f (objp b i)) as Ho.
      { intros i Hi. apply put_other. intros ->. rewrite (obj_starts b i Ib Hi) in E1. discriminate. }
      assert (put f l c (prodp b) = f (prodp b)) as Hp.
      { apply put_other. intros ->. assert (existsb (fun b0 => loc_eqb (prodp b) (prodp b0)) bs = true) as X.
        { apply existsb_exists. exists b. split; [exact Ib|apply loc_eqb_iff; reflexivity]. }
        congruence. }
      destruct (on t) eqn:Eo.
      + apply (good_agree b f); [|exact G]. split; [|split; [intros i Hi; symmetry; exact (Ho i Hi)|symmetry; exact Hp]].
        intros p Hp'. symmetry. apply put_other. exact (Hin eq_refl p Hp').
      + split; try (intros Ho'; congruence).
        * intros i d x Hi. rewrite (Ho i Hi). apply (g_rec _ _ _ G). exact Hi.
        * rewrite Hp. apply (g_old _ _ _ G).
        * rewrite Hp. apply (g_lrec _ _ _ G).
  Qed.

  Lemma step_fine s a s' : fine s -> ostep cwd root dep bs s a = Some s' -> fine s'.
  Proof.
    intros K H. assert ((exists l c, a = OOther l c) \/ (match nth_error bs (who a) with
        | Some b => match advance_b cwd root dep b (fs s) (sts s (who a)) a with
                    | Some (f, t) => Some (OState f (upd (sts s) (who a) t)) | None => None end
        | None => None end = Some s')) as [(l & c & ->)|H'].
    { destruct a; auto. left. eauto. }
    - cbn in H. destruct (others_may cwd root dep bs s l c) eqn:E; [|discriminate]. injection H as <-. apply others_good; assumption.
    - clear H. destruct (nth_error bs (who a)) as [b|] eqn:Eb; [|discriminate].
      destruct (advance_b cwd root dep b (fs s) (sts s (who a)) a) as [[f t]|] eqn:Ea; [|discriminate]. injection H' as <-.
      intros n c Hc. cbn [fs sts]. destruct (Nat.eq_dec n (who a)) as [->|Hn].
      + rewrite upd_same. rewrite Eb in Hc. injection Hc as <-. exact (advance_good b _ _ a _ _ (nth_error_In _ _ Eb) (K _ b Eb) Ea).
      + rewrite upd_other by exact Hn. apply (good_agree c (fs s)); [|exact (K n c Hc)].
        apply (advance_agree (who a) n b c (fs s) (sts s (who a)) a f t); auto.
  Qed.
  Lemma init_fine : fine (oinit f0).
  Proof. intros n b Hb. split; cbn; try discriminate. intros ins. exact (proj1 (Hfresh b (nth_error_In _ _ Hb)) ins). Qed.
  Lemma steps_fine l : forall s s', fine s -> osteps cwd root dep bs s l = Some s' -> fine s'.
  Proof.
    induction l as [|a l IH]; intros s s' K H; cbn in H; [injection H as <-; exact K|].
    destruct (ostep cwd root dep bs s a) as [s1|] eqn:E; [|discriminate]. exact (IH s1 s' (step_fine s a s1 K E) H).
  Qed.

  (** What is linked is what stands by itself. *)
  Lemma own_parts s n b : fine s -> nth_error bs n = Some b -> on (sts s n) = true -> (forall i, has b i -> cs (sts s n) i = CDone) ->
    parts b (fs s) = map (contents cwd (fs s)) (b_objs b) ++ own_objects root dep cwd b (fs s).
  Proof.
    intros K Hb Ho Ha. rewrite parts_eq. unfold own_objects. f_equal.
    assert (map (fun p => b_cc b (fst (compiled root dep b p)) (contents cwd (fs s) p)) (b_srcs b) =
      map (fun i => made b i (fs s (srcp b i))) (each b)) as ->.
    { apply nth_ext with (d := b_cc b (fst (compiled root dep b [])) (contents cwd (fs s) [])) (d' := made b 0%nat (fs s (srcp b 0%nat))).
      - rewrite !map_length. unfold each. rewrite seq_length. reflexivity.
      - intros k Hk. rewrite map_length in Hk. rewrite map_nth with (f := fun p => b_cc b (fst (compiled root dep b p)) (contents cwd (fs s) p)) (d := @nil chr).
        rewrite map_nth with (f := fun i => made b i (fs s (srcp b i))). unfold each. rewrite seq_nth by exact Hk. reflexivity. }
    apply map_ext_in. intros i Hi. apply each_has in Hi. exact (proj1 (g_done _ _ _ (K n b Hb) Ho i Hi (Ha i Hi))).
  Qed.
End Own.
