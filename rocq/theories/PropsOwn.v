(** C88: programs and libraries are made of their own sources. *)
From Coq Require Import Ascii String List NArith Bool Arith Lia.
From Verif Require Import FnModel PathModel PathSpec PathFacts LinkModel GccModel GccSpec GccFacts TryModel TrySpec TryFacts TryPlaces OwnModel OwnSpec OwnPlaces OwnFacts.
Import ListNotations.
Open Scope N_scope.
Open Scope string_scope.
Open Scope list_scope.

(** Whenever a call of build_lib or build_exe is about to return, its product is what its sources, compiled
    each by itself as they are now, and the given objects make; and it fails only if one of its
    sources, or the linking of just these, fails. *)
Definition all_afresh (cwd root dep : str) (bs : list build) (f0 : files) : Prop := forall c, In c bs -> afresh root dep f0 cwd c.
Definition always_own (cond : str -> str -> str -> list build -> files -> list olabel -> Prop) : Prop :=
  forall cwd root dep bs f0 l s n b,
    cond cwd root dep bs f0 l ->
    osteps cwd root dep bs (oinit f0) l = Some s -> nth_error bs n = Some b -> on (sts s n) = true ->
    (ls (sts s n) = LDone ->
       contents cwd (fs s) (snd (linked root dep b)) = own_product root dep cwd b (fs s) /\
       own_product root dep cwd b (fs s) <> None) /\
    (ls (sts s n) = LFail -> own_product root dep cwd b (fs s) = None) /\
    (forall i p, nth_error (b_srcs b) i = Some p -> cs (sts s n) i = CFail ->
       b_cc b (fst (compiled root dep b p)) (contents cwd (fs s) p) = None).

Theorem C88_own : always_own (fun cwd root dep bs f0 _ => harmonious cwd root bs /\ all_afresh cwd root dep bs f0).
Proof.
  intros cwd root dep bs f0 l s n b (Hh & Hf) Hl Hb Ho.
  pose proof (steps_fine cwd root dep bs Hh f0 Hf l _ _ (init_fine cwd root dep bs f0 Hf) Hl) as K.
  pose proof (K n b Hb) as G. split; [|split].
  - intros E. destruct (g_ldone _ _ _ _ _ _ G Ho E) as [H1 H2]. unfold own_product, contents at 1. unfold prodp in H1, H2.
    assert (forall i, has b i -> cs (sts s n) i = CDone) as Ha by (apply (g_all _ _ _ _ _ _ G Ho); rewrite E; discriminate).
    rewrite (own_parts cwd root dep bs s n b K Hb Ho Ha) in H1. unfold bound in H1. rewrite H1 in H2. split; [exact H1|exact H2].
  - intros E. pose proof (g_lfail _ _ _ _ _ _ G Ho E) as H1.
    assert (forall i, has b i -> cs (sts s n) i = CDone) as Ha by (apply (g_all _ _ _ _ _ _ G Ho); rewrite E; discriminate).
    rewrite (own_parts cwd root dep bs s n b K Hb Ho Ha) in H1. exact H1.
  - intros i p Hp Hc. assert (has b i) as Hi by (apply nth_error_Some; congruence).
    pose proof (g_fail _ _ _ _ _ _ G Ho i Hi Hc) as H1. unfold made, srcp in H1.
    assert (src_at b i = p) as <- by (apply nth_error_nth; exact Hp). exact H1.
Qed.

(** Where the files are: objects in obj/DST of the build root, under the names of their sources with the
    extension replaced; the product in the build root, prefix and suffix around its name. *)
Theorem C88_placed cwd root dep b : isabs cwd = true -> tidy root b ->
  (forall p ds ns n r, In p (b_srcs b) -> relative (b_dst b) ds -> kept p ns n -> stem n r ->
     place cwd (snd (compiled root dep b p)) = place cwd root ++ [obj_dir] ++ ds ++ ns ++ [r ++ b_osuffix b]) /\
  (forall ds n, product_names b ds n -> place cwd (snd (linked root dep b)) = place cwd root ++ ds ++ [n]).
Proof.
  intros Hc Ht. split; [intros p ds ns n r; apply obj_place; assumption|intros ds n; apply prod_place; assumption].
Qed.
(** No two compilations write the same object, no object is a product, and no two products are the same. *)
Theorem C88_apart cwd root dep bs m n b c : harmonious cwd root bs -> nth_error bs m = Some b -> nth_error bs n = Some c ->
  (forall i j p q, nth_error (b_srcs b) i = Some p -> nth_error (b_srcs c) j = Some q ->
     place cwd (snd (compiled root dep b p)) = place cwd (snd (compiled root dep c q)) -> m = n /\ i = j) /\
  (forall p, In p (b_srcs b) -> place cwd (snd (compiled root dep b p)) <> place cwd (snd (linked root dep c))) /\
  (place cwd (snd (linked root dep b)) = place cwd (snd (linked root dep c)) -> m = n).
Proof.
  intros Hh Hb Hc. split; [|split].
  - intros i j p q Hp Hq E.
    assert (has b i) as Hi by (apply nth_error_Some; congruence). assert (has c j) as Hj by (apply nth_error_Some; congruence).
    assert (src_at b i = p) as Ep by (apply nth_error_nth; exact Hp). assert (src_at c j = q) as Eq by (apply nth_error_nth; exact Hq).
    rewrite <- Ep, <- Eq in E. destruct (Nat.eq_dec m n) as [->|Hne].
    + split; [reflexivity|]. rewrite Hb in Hc. injection Hc as <-. destruct (Nat.eq_dec i j) as [|Hn]; [assumption|].
      destruct (obj_ne_same cwd root dep bs Hh b i j (nth_error_In _ _ Hb) Hi Hj Hn E).
    + destruct (obj_ne cwd root dep bs Hh m n b c i j Hne Hb Hc Hi Hj E).
  - intros p Hp E. apply In_nth_error in Hp as (i & Hp). assert (has b i) as Hi by (apply nth_error_Some; congruence).
    assert (src_at b i = p) as Ep by (apply nth_error_nth; exact Hp). rewrite <- Ep in E.
    exact (obj_prod cwd root dep bs Hh b c i (nth_error_In _ _ Hb) (nth_error_In _ _ Hc) Hi E).
  - intros E. destruct (Nat.eq_dec m n) as [|Hne]; [assumption|]. destruct (prod_ne cwd root dep bs Hh m n b c Hne Hb Hc E).
Qed.
(** What others do leaves a product as it is; it may be removed while nothing is running. *)
Theorem C88_stays cwd root dep bs s a s' n b : harmonious cwd root bs -> nth_error bs n = Some b ->
  ostep cwd root dep bs s a = Some s' -> ((forall l c, a <> OOther l c) -> who a <> n) ->
  contents cwd (fs s') (snd (linked root dep b)) = contents cwd (fs s) (snd (linked root dep b)) \/
  (contents cwd (fs s') (snd (linked root dep b)) = None /\ forall m, (m < length bs)%nat -> on (sts s m) = false).
Proof.
  intros Hh Hb H Ha. unfold contents. fold (prodp cwd root dep b).
  assert ((exists l c, a = OOther l c) \/ ((forall l c, a <> OOther l c) /\ match nth_error bs (who a) with
      | Some b => match advance_b cwd root dep b (fs s) (sts s (who a)) a with
                  | Some (f, t) => Some (OState f (upd (sts s) (who a) t)) | None => None end
      | None => None end = Some s')) as [(l & c & ->)|[Hn H']].
  { destruct a; try (right; split; [intros; discriminate|exact H]). left. eauto. }
  - cbn in H. destruct (others_may cwd root dep bs s l c) eqn:E; [|discriminate]. injection H as <-. cbn [fs].
    destruct (loc_eqb l (prodp cwd root dep b)) eqn:El.
    + apply loc_eqb_iff in El. subst l. right. unfold others_may in E. apply andb_true_iff in E as [_ E].
      assert (existsb (fun b0 => loc_eqb (prodp cwd root dep b) (prodp cwd root dep b0)) bs = true) as X.
      { apply existsb_exists. exists b. split; [exact (nth_error_In _ _ Hb)|apply loc_eqb_iff; reflexivity]. }
      rewrite X, orb_true_r in E. apply andb_true_iff in E as [E1 E2]. destruct c; [discriminate|]. split; [apply put_same|].
      intros m Hm. rewrite forallb_forall in E2. apply negb_true_iff, E2, in_seq. lia.
    + left. apply put_other. intros ->. rewrite (proj2 (loc_eqb_iff _ _) eq_refl) in El. discriminate.
  - left. destruct (nth_error bs (who a)) as [c|] eqn:Ec; [|discriminate].
    destruct (advance_b cwd root dep c (fs s) (sts s (who a)) a) as [[f t]|] eqn:Ea; [|discriminate]. injection H' as <-. cbn [fs].
    assert (who a <> n) as Hne by exact (Ha Hn).
    symmetry. exact (proj2 (proj2 (advance_agree cwd root dep bs Hh (who a) n c b _ _ a _ _ Hne Ec Hb Ea))).
Qed.

(** *** A call comes to its end *)
Definition own_label (n : nat) (a : olabel) : Prop := who a = n /\ (forall l c, a <> OOther l c) /\ a <> OBuild n.
Theorem C88_goes_on cwd root dep bs s n b : nth_error bs n = Some b -> on (sts s n) = true ->
  exists a s', own_label n a /\ ostep cwd root dep bs s a = Some s'.
Proof.
  intros Hb Ho. set (t := sts s n) in *. destruct (ls t) as [|old ins| |] eqn:El.
  - destruct (existsb (fun i => is_run (cs t i)) (each b)) eqn:Er.
    { apply existsb_exists in Er as (i & Hi & Er). apply each_has in Hi. destruct (cs t i) as [|c| |] eqn:Ei; try discriminate.
      exists (OCompiled n i). unfold ostep. cbn [who]. rewrite Hb. unfold advance_b. fold t. rewrite Ei, Ho. apply Nat.ltb_lt in Hi. rewrite Hi. cbn [andb].
      eexists. split; [repeat split; intros; discriminate|reflexivity]. }
    destruct (forallb (fun i => is_done (cs t i)) (each b)) eqn:Ed.
    { exists (OLink n). unfold ostep. cbn [who]. rewrite Hb. unfold advance_b. fold t. rewrite El, Ho, Ed. cbn. eexists. split; [repeat split; intros; discriminate|reflexivity]. }
    destruct (existsb (fun i => is_fail (cs t i)) (each b)) eqn:Ef.
    { exists (OReturn n). unfold ostep. cbn [who]. rewrite Hb. unfold advance_b. fold t. rewrite El, Ho, Ef, Er. cbn. eexists. split; [repeat split; intros; discriminate|reflexivity]. }
    assert (exists i, In i (each b) /\ is_done (cs t i) = false) as (i & Hi & Ei).
    { clear -Ed. induction (each b) as [|j l IH]; [discriminate|]. cbn in Ed. destruct (is_done (cs t j)) eqn:E; [|exists j; split; [left; reflexivity|exact E]].
      destruct (IH Ed) as (i & Hi & Hd). exists i. split; [right; exact Hi|exact Hd]. }
    destruct (cs t i) eqn:Ec; try discriminate.
    + exists (OCompile n i). unfold ostep. cbn [who]. rewrite Hb. unfold advance_b. fold t. apply each_has in Hi. rewrite Ec, Ho. apply Nat.ltb_lt in Hi. rewrite Hi. cbn [andb].
      eexists. split; [repeat split; intros; discriminate|reflexivity].
    + exfalso. assert (existsb (fun i => is_run (cs t i)) (each b) = true) as X by (apply existsb_exists; exists i; rewrite Ec; auto). congruence.
    + exfalso. assert (existsb (fun i => is_fail (cs t i)) (each b) = true) as X by (apply existsb_exists; exists i; rewrite Ec; auto). congruence.
  - exists (OLinked n). unfold ostep. cbn [who]. rewrite Hb. unfold advance_b. fold t. rewrite El, Ho. eexists. split; [repeat split; intros; discriminate|reflexivity].
  - exists (OReturn n). unfold ostep. cbn [who]. rewrite Hb. unfold advance_b. fold t. rewrite El, Ho. cbn. eexists. split; [repeat split; intros; discriminate|reflexivity].
  - exists (OReturn n). unfold ostep. cbn [who]. rewrite Hb. unfold advance_b. fold t. rewrite El, Ho. cbn. eexists. split; [repeat split; intros; discriminate|reflexivity].
Qed.
(** The steps left. *)
Definition c_left (c : cstat) : nat := match c with CWait => 2 | CRun _ => 1 | _ => 0 end.
Definition l_left (l : lstat) : nat := match l with LWait => 2 | LRun _ _ => 1 | _ => 0 end.
Definition steps_left (b : build) (t : bst) : nat :=
  (list_sum (map (fun i => c_left (cs t i)) (each b)) + l_left (ls t) + if on t then 1 else 0)%nat.
Lemma sum_upd f i x l : NoDup l -> In i l ->
  (list_sum (map (fun j => c_left (upd f i x j)) l) + c_left (f i) = list_sum (map (fun j => c_left (f j)) l) + c_left x)%nat.
Proof.
  induction l as [|j l IH]; intros Hn Hi; [destruct Hi|]. inversion Hn as [|? ? Hj Hn']; subst. cbn. destruct Hi as [->|Hi].
  - unfold upd at 1. rewrite Nat.eqb_refl.
    replace (map (fun j => c_left (upd f i x j)) l) with (map (fun j => c_left (f j)) l); [unfold list_sum; lia|].
    apply map_ext_in. intros j Hj'. unfold upd. destruct (Nat.eqb_spec j i) as [->|]; [contradiction|reflexivity].
  - unfold upd at 1. destruct (Nat.eqb_spec j i) as [->|_]; [contradiction|]. specialize (IH Hn' Hi). unfold list_sum in *. lia.
Qed.
Lemma sum_set b f i x : has b i ->
  (list_sum (map (fun j => c_left (upd f i x j)) (each b)) + c_left (f i) = list_sum (map (fun j => c_left (f j)) (each b)) + c_left x)%nat.
Proof. intros Hi. apply sum_upd; [apply seq_NoDup|apply each_has; exact Hi]. Qed.
Lemma advance_left cwd root dep b f t a g t' : advance_b cwd root dep b f t a = Some (g, t') -> (forall n, a <> OBuild n) ->
  (S (steps_left b t') <= steps_left b t)%nat.
Proof.
  unfold advance_b, steps_left. intros H Hn. destruct a as [n|n i|n i|n i|n|n|n|n|l c]; [destruct (Hn n eq_refl)|..].
  - destruct (cs t i) eqn:Ei; try discriminate. destruct (on t && (i <? length (b_srcs b))%nat) eqn:E; [|discriminate]. injection H as _ <-.
    apply andb_true_iff in E as [_ E]. apply Nat.ltb_lt in E. pose proof (sum_set b (cs t) i (CRun (f (srcp cwd b i))) E) as X.
    rewrite Ei in X. cbn in X |- *. lia.
  - destruct (cs t i) eqn:Ei; try discriminate. destruct (on t && (i <? length (b_srcs b))%nat) eqn:E; [|discriminate]. injection H as _ <-.
    apply andb_true_iff in E as [_ E]. apply Nat.ltb_lt in E. pose proof (sum_set b (cs t) i CDone E) as X. pose proof (sum_set b (cs t) i CFail E) as Y.
    rewrite Ei in X, Y. destruct (made root dep b i c); cbn in X, Y |- *; lia.
  - destruct (cs t i) eqn:Ei; try discriminate. destruct (crec t i); [|discriminate]. destruct (f (objp cwd root dep b i)); [|discriminate].
    destruct (on t && (i <? length (b_srcs b))%nat && _) eqn:E; [|discriminate]. injection H as _ <-.
    apply andb_true_iff in E as [E _]. apply andb_true_iff in E as [_ E]. apply Nat.ltb_lt in E. pose proof (sum_set b (cs t) i CDone E) as X.
    rewrite Ei in X. cbn in X |- *. lia.
  - destruct (ls t) eqn:El; try discriminate. destruct (on t && _); [|discriminate]. injection H as _ <-. cbn. lia.
  - destruct (ls t) eqn:El; try discriminate. destruct (on t) eqn:Eo; [|discriminate]. injection H as _ <-. destruct (bound root dep b old ins); cbn; rewrite Eo; lia.
  - destruct (ls t) eqn:El; try discriminate. destruct (lrec t); [|discriminate]. destruct (f (prodp cwd root dep b)); [|discriminate].
    destruct (on t && _ && _); [|discriminate]. injection H as _ <-. cbn. lia.
  - destruct (on t) eqn:Eo; [|discriminate]. cbn in H. destruct (match ls t with LWait => _ | _ => _ end); [|discriminate]. injection H as _ <-. cbn. lia.
  - discriminate.
Qed.
(** After it has begun, a call takes at most two steps for each source and three more. *)
Definition own_labelb (n : nat) (a : olabel) : bool := match a with OOther _ _ => false | _ => Nat.eqb (who a) n end.
Lemma steps_bound cwd root dep bs n b : nth_error bs n = Some b -> forall l s s', osteps cwd root dep bs s l = Some s' -> ~ In (OBuild n) l ->
  (length (filter (own_labelb n) l) + steps_left b (sts s' n) <= steps_left b (sts s n))%nat.
Proof.
  intros Hb l. induction l as [|a l IH]; intros s s' H Hn; cbn in H; [injection H as <-; cbn; lia|].
  destruct (ostep cwd root dep bs s a) as [s1|] eqn:E; [|discriminate].
  specialize (IH s1 s' H ltac:(intros K; apply Hn; right; exact K)). cbn [filter].
  assert ((if own_labelb n a then 1 else 0) + steps_left b (sts s1 n) <= steps_left b (sts s n))%nat as X.
  { assert ((exists x c, a = OOther x c) \/ ((own_labelb n a = Nat.eqb (who a) n) /\ match nth_error bs (who a) with
        | Some b => match advance_b cwd root dep b (fs s) (sts s (who a)) a with
                    | Some (f, t) => Some (OState f (upd (sts s) (who a) t)) | None => None end
        | None => None end = Some s1)) as [(x & c & ->)|[El E']].
    { destruct a; try (right; split; [reflexivity|exact E]). left. eauto. }
    - cbn in *. destruct (others_may cwd root dep bs s x c); [|discriminate]. injection E as <-. cbn. lia.
    - rewrite El. destruct (nth_error bs (who a)) as [c|] eqn:Ec; [|discriminate].
      destruct (advance_b cwd root dep c (fs s) (sts s (who a)) a) as [[f t]|] eqn:Ea; [|discriminate]. injection E' as <-. cbn [sts].
      destruct (Nat.eqb_spec (who a) n) as [Ew|Hw].
      + rewrite Ew in *. rewrite upd_same. rewrite Hb in Ec. injection Ec as <-. apply advance_left in Ea; [lia|].
        intros m ->. cbn in Ew. subst m. apply Hn. left. reflexivity.
      + rewrite upd_other by congruence. lia. }
  destruct (own_labelb n a); cbn [length]; lia.
Qed.
Theorem C88_ends cwd root dep bs n b s s0 l s' : nth_error bs n = Some b -> ostep cwd root dep bs s (OBuild n) = Some s0 ->
  osteps cwd root dep bs s0 l = Some s' -> ~ In (OBuild n) l ->
  (length (filter (own_labelb n) l) <= 2 * length (b_srcs b) + 3)%nat.
Proof.
  intros Hb H0 H Hn. pose proof (steps_bound cwd root dep bs n b Hb l s0 s' H Hn) as X.
  cbn in H0. rewrite Hb in H0. destruct (on (sts s n)); [discriminate|]. injection H0 as <-. cbn [sts] in X. rewrite upd_same in X.
  unfold steps_left in X at 2. cbn [cs ls on c_left l_left] in X. assert (forall l : list nat, list_sum (map (fun _ => 2%nat) l) = (2 * length l)%nat) as Y.
  { intros k. induction k as [|x k IH]; [reflexivity|].
    change (list_sum (map (fun _ => 2%nat) (x :: k))) with (2 + list_sum (map (fun _ => 2%nat) k))%nat. rewrite IH. cbn [length]. lia. }
  rewrite Y in X. unfold each in X. rewrite seq_length in X. lia.
Qed.

(** *** What is passed on to whom *)
(** What a command says: the options, then where to, flags and the files in order, and then the libraries,
    unless it only compiles. *)
Record says (a : list str) (g : gcc) (srcs : list str) (dst : str) (includes macros warnings flags : list str)
  (libs : list lib) (externals ldlibs : list str) : Prop := Says {
  sy_includes : forall x, In x includes -> x <> [] -> In (w_I ++ x) a;
  sy_macros : forall x, In x macros -> In (w_D ++ x) a;
  sy_warnings : forall x, In x warnings -> In (w_W ++ x) a;
  sy_files : exists pre fl post, a = pre ++ [w_o; dst] ++ fl ++ srcs ++ post /\ forall x, In x flags -> In x fl;
  sy_libs : ~ In w_c a -> g_exe g <> w_c -> LinkSpec.distinct_names (o_libs (g_self g) ++ libs) ->
    forall l, In l libs -> In (w_l ++ LinkSpec.named l) a;
  sy_externals : ~ In w_c a -> g_exe g <> w_c -> forall x, In x externals -> In (w_l ++ x) a;
  sy_ldlibs : ~ In w_c a -> g_exe g <> w_c -> forall x, In x ldlibs -> In x a
}.
Lemma gcc_says g srcs dst o dirs :
  says (gcc_args g srcs (Some dst) o dirs) g srcs dst (o_includes o) (o_macros o) (o_warnings o) (o_flags o) (o_libs o) (o_externals o) (o_ldlibs o).
Proof.
  unfold gcc_args. assert (map (fun s => path_new [s]) srcs = srcs) as ->.
  { rewrite (map_ext _ (fun s => s)) by apply path_new_one. apply map_id. }
  set (r := link _ _ _ _ _ _). cbv zeta.
  match goal with |- context [mem w_c (g_exe g :: ?c)] => set (cmd := c) end.
  assert (forall x, In x cmd -> In x (if mem w_c (g_exe g :: cmd) then cmd
    else cmd ++ map (app w_l) (r_libs r) ++ map (app w_l) (r_externals r) ++ o_ldlibs (g_self g) ++ o_ldlibs o)) as Hin.
  { intros x Hx. destruct (mem w_c (g_exe g :: cmd)); [exact Hx|]. apply in_or_app. left. exact Hx. }
  assert (forall a, (if mem w_c (g_exe g :: cmd) then cmd
    else cmd ++ map (app w_l) (r_libs r) ++ map (app w_l) (r_externals r) ++ o_ldlibs (g_self g) ++ o_ldlibs o) = a ->
    ~ In w_c a -> g_exe g <> w_c -> a = cmd ++ map (app w_l) (r_libs r) ++ map (app w_l) (r_externals r) ++ o_ldlibs (g_self g) ++ o_ldlibs o) as Hlink.
  { intros a <- Hc He. destruct (mem w_c (g_exe g :: cmd)) eqn:E; [|reflexivity].
    exfalso. apply existsb_exists in E as (y & Hy & Ey). apply str_eqb_true in Ey. subst y. destruct Hy as [Hy|Hy]; contradiction. }
  split.
  - intros x Hx Hne. apply Hin. unfold cmd. do 6 (apply in_or_app; right). apply in_or_app. left.
    apply in_map. apply filter_In. split; [|apply nonempty_ok; exact Hne]. apply sorted_in. apply (set_of_in _ x).
    apply in_or_app. right. apply in_or_app. left. exact Hx.
  - intros x Hx. apply Hin. unfold cmd. do 7 (apply in_or_app; right). apply in_or_app. left.
    apply in_map. apply sorted_in. apply set_of_in. apply in_or_app. left. exact Hx.
  - intros x Hx. apply Hin. unfold cmd. do 8 (apply in_or_app; right). apply in_or_app. left.
    apply in_map. apply sorted_in. apply set_of_in. apply in_or_app. left. exact Hx.
  - assert (exists pre, cmd = pre ++ [w_o; dst] ++ fold_left add_new (o_flags (g_self g) ++ o_flags o) [] ++ srcs) as (pre & Ec).
    { unfold cmd. eexists. rewrite !app_assoc. do 3 f_equal. }
    exists pre, (fold_left add_new (o_flags (g_self g) ++ o_flags o) []).
    exists (if mem w_c (g_exe g :: cmd) then [] else map (app w_l) (r_libs r) ++ map (app w_l) (r_externals r) ++ o_ldlibs (g_self g) ++ o_ldlibs o).
    split.
    + destruct (mem w_c (g_exe g :: cmd)); rewrite Ec, ?app_nil_r, <- ?app_assoc; reflexivity.
    + intros x Hx. apply (set_of_in _ x). apply in_or_app. right. exact Hx.
  - intros Hc He Hd l Hl. rewrite (Hlink _ eq_refl Hc He). apply in_or_app. right. apply in_or_app. left. apply in_map.
    apply (proj1 (LinkFacts.link_order (o_libpaths (g_self g)) (o_libpaths o) (o_externals (g_self g)) (o_externals o) (o_libs (g_self g)) (o_libs o) Hd)).
    exists l. split; [|reflexivity]. exists l. split; [apply in_or_app; right; exact Hl|constructor].
  - intros Hc He x Hx. rewrite (Hlink _ eq_refl Hc He). do 2 (apply in_or_app; right). apply in_or_app. left. apply in_map.
    apply link_exts. right. left. exact Hx.
  - intros Hc He x Hx. rewrite (Hlink _ eq_refl Hc He). do 4 (apply in_or_app; right). exact Hx.
Qed.
(** Every source is compiled with the includes, macros, warnings and flags for compiling, to its object; then
    the given objects and these are linked, in this order, with the libraries and the flags for linking. *)
Theorem C88_told root dep b :
  (forall p, In p (b_srcs b) -> exists L E X,
     says (fst (compiled root dep b p)) (b_gcc b) [p] (snd (compiled root dep b p)) (b_includes b) (b_macros b) (b_warnings b) (b_cf b) L E X /\
     In w_c (fst (compiled root dep b p))) /\
  (b_static b = false -> exists I D W,
     says (fst (linked root dep b)) (b_gcc b) (b_objs b ++ map (fun p => snd (compiled root dep b p)) (b_srcs b)) (snd (linked root dep b))
       I D W (b_lf b) (b_libs b) (b_externals b) (b_ldlibs b)) /\
  (b_static b = true -> fst (linked root dep b) =
     b_lflags b ++ b_lf b ++ snd (linked root dep b) :: b_objs b ++ map (fun p => snd (compiled root dep b p)) (b_srcs b)).
Proof.
  split; [|split].
  - intros p _. unfold compiled, compile, compiler. cbn [fst snd].
    match goal with |- context [gcc_args ?g ?s (Some ?d) ?o ?q] => pose proof (gcc_says g s d o q) as H; set (a := gcc_args g s (Some d) o q) in * end.
    cbn in H. eexists _, _, _. split.
    + destruct H as [H1 H2 H3 H4 H5 H6 H7]. split; try eassumption. destruct H4 as (pre & fl & post & E & Hf).
      exists pre, fl, post. split; [exact E|]. intros x Hx. apply Hf. do 3 right. exact Hx.
    + unfold a, gcc_args. cbn. match goal with |- context [if ?c then _ else _ ++ _] => destruct c end;
        repeat first [apply in_or_app; right; left; reflexivity | apply in_or_app; left].
      all: apply in_or_app; right; left; reflexivity.
  - intros Hs. unfold linked. rewrite Hs. unfold linker. cbn [fst snd].
    match goal with |- context [gcc_args ?g ?s (Some ?d) ?o ?q] => pose proof (gcc_says g s d o q) as H end.
    cbn in H. eexists _, _, _. exact H.
  - intros Hs. unfold linked. rewrite Hs. reflexivity.
Qed.
(** What is for the one is not passed on to the other. *)
Theorem C88_only root dep b c :
  b_gcc b = b_gcc c -> b_dst b = b_dst c -> b_osuffix b = b_osuffix c ->
  (b_cflags b = b_cflags c -> b_includes b = b_includes c -> b_macros b = b_macros c -> b_warnings b = b_warnings c -> b_cf b = b_cf c ->
   b_ckw b = b_ckw c -> b_dirs b = b_dirs c -> forall p, compiled root dep b p = compiled root dep c p) /\
  (b_static b = b_static c -> b_lflags b = b_lflags c -> b_prefix b = b_prefix c -> b_lsuffix b = b_lsuffix c -> b_srcs b = b_srcs c -> b_objs b = b_objs c ->
   b_libs b = b_libs c -> b_externals b = b_externals c -> b_lf b = b_lf c -> b_ldlibs b = b_ldlibs c -> b_lkw b = b_lkw c ->
   linked root dep b = linked root dep c).
Proof.
  intros E1 E2 E3. split.
  - intros F1 F2 F3 F4 F5 F6 F7 p. unfold compiled, copts, obj_root. rewrite E1, E2, E3, F1, F2, F3, F4, F5, F6, F7. reflexivity.
  - intros F1 F2 F3 F4 F5 F6 F7 F8 F9 F10 F11. unfold linked.
    assert (objects root dep b = objects root dep c) as ->.
    { unfold objects, compiled, compile, compiler, obj_root. cbn [snd]. rewrite E2, E3, F5, F6. reflexivity. }
    unfold lopts. rewrite E1, E2, F1, F2, F3, F4, F7, F8, F9, F10, F11. reflexivity.
Qed.

(** *** Examples *)
Lemma kept_inj p ns n ms m : kept p ns n -> kept p ms m -> ns = ms /\ n = m.
Proof.
  intros H1 H2. set (cwd := [47] : str). assert (isabs cwd = true) as Hc by reflexivity.
  assert (no_prefix (p ++ [0]) p) as Hp.
  { intros r E. apply (f_equal (@length N)) in E. rewrite !app_length in E. cbn [length] in E. clear - E. unfold chr in E. lia. }
  destruct (addroot_kept cwd Hc p (p ++ [0]) ns n H1 Hp) as (G1 & h1 & A1 & D1 & P1).
  destruct (addroot_kept cwd Hc p (p ++ [0]) ms m H2 Hp) as (G2 & h2 & A2 & D2 & P2).
  apply Forall_app in G1 as [_ G1]. apply Forall_app in G2 as [_ G2]. inversion G1; inversion G2; subst.
  assert (place cwd (h1 ++ n) = place cwd (h2 ++ m)) as E by (rewrite <- A1, <- A2; reflexivity).
  rewrite (place_dir cwd Hc h1 n D1), (place_dir cwd Hc h2 m D2) in E by assumption. rewrite P1, P2 in E.
  apply app_inj_tail in E as [E ->]. apply app_inv_head in E. auto.
Qed.
Lemma rel_inj p ns ms : relative p ns -> relative p ms -> ns = ms.
Proof. apply (relative_inj [47] eq_refl [47]). Qed.
Definition text (s : string) : str := map N_of_ascii (list_ascii_of_string s).
Definition no_options : options := Options [] [] [] [] [] [] [] [] [] None None None None [].
Definition a_gcc : gcc := Gcc (text "gcc") no_options [text "-g"] [text "-pg"] [text "-O2"].
(** A compiler that marks what it compiles with -DX, and refuses empty sources. *)
Definition a_cc (a : list str) (c : option str) : option str :=
  match c with Some (x :: c) => Some ((if existsb (str_eqb (text "-DX")) a then 88 else 111) :: x :: c) | _ => None end.
(** A linker that writes its input one after the other, unless something is missing. *)
Fixpoint all_of (l : list (option str)) : option str :=
  match l with
  | [] => Some []
  | Some x :: l' => match all_of l' with Some y => Some (x ++ y) | None => None end
  | None :: _ => None
  end.
Definition a_ld (_ : list str) (_ : option str) (ins : list (option str)) : option str := all_of ins.
Definition a_build (static : bool) (osuffix prefix lsuffix dst : string) (srcs : list string) (macros : list string) : build :=
  Build a_gcc [] (text osuffix) static [] (text prefix) (text lsuffix) (text dst) (map text srcs) [] [] (map text macros) [] []
    no_options true [] [] [] [] no_options a_cc a_ld.
Ltac good := unfold good_name; repeat split; try discriminate; let K := fresh in intros K; cbn in K; repeat (destruct K as [K|K]; [discriminate|]); destruct K.
Ltac rels := split; [discriminate|]; split; [repeat (apply Forall_cons; [good|]); apply Forall_nil|reflexivity].

Definition the_lib : build := a_build false ".os" "lib" ".so" "foo" ["a.c"; "sub/b.c"] [].
Definition the_exe : build := a_build false ".o" "" "" "foo" ["a.c"; "main.c"; "/gen/b.c"] ["X"].
Definition the_test : build := a_build true ".o" "lib" ".a" "t/foo" ["a.c"] [].
Definition some_builds : list build := [the_lib; the_exe; the_test].
Definition w_cwd : str := text "/w".
Definition w_root : str := text "build".
Definition w_dep : str := text "dep.d".
Definition names (l : list string) : list str := map text l.

Lemma kept_rel_of p ns n : relative p (ns ++ [n]) -> kept p ns n.
Proof. left. assumption. Qed.
Ltac nopre := let r := fresh in let E := fresh in intros r E; vm_compute in E; discriminate E.

Lemma k_a : kept (text "a.c") [] (text "a.c").
Proof. apply kept_rel_of. rels. Qed.
Lemma k_b : kept (text "sub/b.c") [text "sub"] (text "b.c").
Proof. apply kept_rel_of. rels. Qed.
Lemma k_main : kept (text "main.c") [] (text "main.c").
Proof. apply kept_rel_of. rels. Qed.
Lemma k_gen : kept (text "/gen/b.c") [] (text "b.c").
Proof. right. split; [reflexivity|]. split; [good|]. exists [text "gen"]. split; [repeat (apply Forall_cons; [good|]); apply Forall_nil|reflexivity]. Qed.
Lemma r_foo : relative (text "foo") [text "foo"].
Proof. rels. Qed.
Lemma r_tfoo : relative (text "t/foo") [text "t"; text "foo"].
Proof. rels. Qed.

Lemma tidy_by root b ds : relative (b_dst b) ds -> hd [] ds <> obj_dir -> no_prefix root (b_dst b) ->
  ~ In 47 (b_osuffix b) /\ ~ In 47 (b_prefix b) /\ ~ In 47 (b_lsuffix b) ->
  forall ks, Forall2 (fun p k => kept p (fst k) (snd k)) (b_srcs b) ks ->
  Forall (no_prefix (obj_root root b)) (b_srcs b) ->
  NoDup (map (fun k => (fst k, fst (splitext (snd k)))) ks) -> tidy root b.
Proof.
  intros H1 H2 H3 H4 ks H5 H6 H7. split; try assumption.
  - exists ds. auto.
  - intros p Hp. destruct (In_nth_error _ _ Hp) as [i Hi]. clear - H5 Hi. revert i Hi.
    induction H5 as [|x k l ks Hk _ IH]; intros [|i] Hi; try discriminate.
    + injection Hi as <-. eauto.
    + exact (IH i Hi).
  - intros p Hp. exact (proj1 (Forall_forall _ _) H6 p Hp).
  - intros i j p q ns n m r Hne Hi Hj K1 K2 S1 S2.
    assert (forall i p, nth_error (b_srcs b) i = Some p -> exists k, nth_error ks i = Some k /\ kept p (fst k) (snd k)) as Hall.
    { clear - H5. induction H5 as [|x k l ks Hk _ IH]; intros [|i] p Hi; try discriminate.
      - injection Hi as <-. exists k. auto.
      - exact (IH i p Hi). }
    destruct (Hall _ _ Hi) as (k & Hk & Kk). destruct (Hall _ _ Hj) as (k' & Hk' & Kk').
    destruct (kept_inj _ _ _ _ _ K1 Kk) as [-> ->]. destruct (kept_inj _ _ _ _ _ K2 Kk') as [E ->].
    apply stem_split in S1, S2.
    apply Hne. apply (proj1 (NoDup_nth_error _) H7).
    + apply nth_error_Some. rewrite nth_error_map, Hk. discriminate.
    + rewrite !nth_error_map, Hk, Hk'. cbn. congruence.
Qed.
Lemma prod_names b ds m : relative (b_dst b) (ds ++ [m]) -> forall es n, product_names b es n -> es = ds /\ n = b_prefix b ++ m ++ b_lsuffix b.
Proof.
  intros H es n (m' & H1 & ->). pose proof (rel_inj _ _ _ H H1) as E. apply app_inj_tail in E as [-> ->]. auto.
Qed.
Ltac plain := repeat split; let K := fresh in intros K; cbn in K; repeat (destruct K as [K|K]; [discriminate|]); destruct K.
Ltac distinct := repeat (apply NoDup_cons; [let K := fresh in intros K; vm_compute in K; repeat (destruct K as [K|K]; [discriminate|]); destruct K|]); apply NoDup_nil.

Lemma lib_tidy : tidy w_root the_lib.
Proof.
  apply (tidy_by w_root the_lib [text "foo"] r_foo ltac:(discriminate) ltac:(nopre) ltac:(plain) [([], text "a.c"); ([text "sub"], text "b.c")]).
  - apply Forall2_cons; [apply k_a|]. apply Forall2_cons; [apply k_b|]. apply Forall2_nil.
  - repeat (apply Forall_cons; [nopre|]); apply Forall_nil.
  - distinct.
Qed.
Lemma exe_tidy : tidy w_root the_exe.
Proof.
  apply (tidy_by w_root the_exe [text "foo"] r_foo ltac:(discriminate) ltac:(nopre) ltac:(plain) [([], text "a.c"); ([], text "main.c"); ([], text "b.c")]).
  - apply Forall2_cons; [apply k_a|]. apply Forall2_cons; [apply k_main|]. apply Forall2_cons; [apply k_gen|]. apply Forall2_nil.
  - repeat (apply Forall_cons; [nopre|]); apply Forall_nil.
  - distinct.
Qed.
Lemma test_tidy : tidy w_root the_test.
Proof.
  apply (tidy_by w_root the_test [text "t"; text "foo"] r_tfoo ltac:(discriminate) ltac:(nopre) ltac:(plain) [([], text "a.c")]).
  - apply Forall2_cons; [apply k_a|]. apply Forall2_nil.
  - repeat (apply Forall_cons; [nopre|]); apply Forall_nil.
  - distinct.
Qed.
Lemma builds_products : forall b, In b some_builds -> exists ds m, relative (b_dst b) (ds ++ [m]) /\
  (b = the_lib /\ ds = [] /\ m = text "foo" \/ b = the_exe /\ ds = [] /\ m = text "foo" \/ b = the_test /\ ds = [text "t"] /\ m = text "foo").
Proof.
  intros b [<-|[<-|[<-|[]]]].
  - exists [], (text "foo"). split; [apply r_foo|auto].
  - exists [], (text "foo"). split; [apply r_foo|auto].
  - exists [text "t"], (text "foo"). split; [apply r_tfoo|auto].
Qed.
Lemma builds_harmonious : harmonious w_cwd w_root some_builds.
Proof.
  split.
  - reflexivity.
  - intros b [<-|[<-|[<-|[]]]]; [apply lib_tidy|apply exe_tidy|apply test_tidy].
  - intros m n b c Hne Hb Hc. split.
    + assert (forall d e, relative (text "foo") d -> relative (text "t/foo") e -> no_prefix d e /\ no_prefix e d) as A.
      { intros d e Hd He. rewrite (rel_inj _ _ _ Hd r_foo), (rel_inj _ _ _ He r_tfoo). split; nopre. }
      assert (no_suffix (text ".os") (text ".o") /\ no_suffix (text ".o") (text ".os")) as S.
      { split; intros r E; apply (f_equal (@rev N)) in E; rewrite rev_app_distr in E; vm_compute in E; discriminate E. }
      destruct m as [|[|[|m]]]; destruct n as [|[|[|n]]]; try (destruct m; discriminate); try (destruct n; discriminate); try contradiction;
        injection Hb as <-; injection Hc as <-;
        first [right; exact S | right; split; apply S | left; intros ds es H1 H2; exact (A ds es H1 H2)
              | left; intros ds es H1 H2; split; apply (A es ds H2 H1)].
    + intros ds k P1 P2. assert (In b some_builds) as Ib by (eapply nth_error_In; eassumption). assert (In c some_builds) as Ic by (eapply nth_error_In; eassumption).
      destruct (builds_products _ Ib) as (d1 & m1 & R1 & C1). destruct (builds_products _ Ic) as (d2 & m2 & R2 & C2).
      destruct (prod_names _ _ _ R1 _ _ P1) as [E1 F1]. destruct (prod_names _ _ _ R2 _ _ P2) as [E2 F2].
      assert (b = c) as E.
      { destruct C1 as [(-> & -> & ->)|[(-> & -> & ->)|(-> & -> & ->)]]; destruct C2 as [(-> & -> & ->)|[(-> & -> & ->)|(-> & -> & ->)]];
          try reflexivity; subst; vm_compute in E2, F2; discriminate. }
      subst c. destruct m as [|[|[|m]]]; destruct n as [|[|[|n]]]; try (destruct m; discriminate); try (destruct n; discriminate); try contradiction;
        rewrite <- Hb in Hc; discriminate Hc.
  - intros b p Hb Hp. assert (In p (names ["a.c"; "sub/b.c"; "main.c"; "/gen/b.c"])) as Ip.
    { destruct Hb as [<-|[<-|[<-|[]]]]; vm_compute in Hp |- *; tauto. }
    split.
    + repeat (destruct Ip as [<-|Ip]; [nopre|]). destruct Ip.
    + intros c ds n Ic Pc. destruct (builds_products _ Ic) as (d2 & m2 & R2 & C2). destruct (prod_names _ _ _ R2 _ _ Pc) as [-> ->].
      destruct C2 as [(-> & -> & ->)|[(-> & -> & ->)|(-> & -> & ->)]]; repeat (destruct Ip as [<-|Ip]; [vm_compute; discriminate|]); destruct Ip.
Qed.
Definition file0 (l : list (string * string)) : files :=
  fun p => match find (fun e => loc_eqb p (place w_cwd (text (fst e)))) l with Some e => Some (text (snd e)) | None => None end.
Definition sources0 : files := file0 [("a.c", "1"); ("sub/b.c", "2"); ("main.c", "3"); ("/gen/b.c", "4")].
Lemma builds_afresh : all_afresh w_cwd w_root w_dep some_builds sources0.
Proof. intros c [<-|[<-|[<-|[]]]]; split; reflexivity. Qed.
(** The library and the program are made at the same time from the same source with other macros; then the
    source is changed, and only what depends on it is made again. *)
Definition a_history : list olabel :=
  [OBuild 0; OBuild 1; OCompile 0 0; OCompile 1 0; OCompile 1 2; OCompiled 1 0; OBuild 2; OCompile 0 1; OCompiled 0 0; OCompile 1 1; OCompile 2 0;
   OCompiled 1 2; OCompiled 2 0; OCompiled 0 1; OLink 0; OCompiled 1 1; OLink 2; OLink 1; OLinked 0; OLinked 1; OLinked 2; OReturn 0; OReturn 1; OReturn 2;
   OOther (place w_cwd (text "main.c")) (Some (text "5"));
   OBuild 0; OBuild 1; OBuild 2; OAnswer 0 0; OAnswer 1 0; OAnswer 1 2; OAnswer 0 1; OCompile 1 1; OAnswer 2 0; OLinkAnswer 0; OLinkAnswer 2; OCompiled 1 1;
   OLink 1; OLinked 1].
Definition seen (l : list olabel) (s : ostate) : list (bool * lstat) * list (option str) * bool :=
  (map (fun n => (on (sts s n), ls (sts s n))) [0; 1; 2]%nat,
   map (fun p => contents w_cwd (fs s) (text p)) ["build/libfoo.so"; "build/foo"; "build/t/libfoo.a"; "build/obj/foo/sub/b.os"],
   match osteps w_cwd w_root w_dep some_builds s l with Some _ => true | None => false end).
Example C88_example : option_map (seen [OReturn 1; OReturn 2]) (osteps w_cwd w_root w_dep some_builds (oinit sources0) a_history) =
  Some ([(true, LDone); (true, LDone); (true, LDone)], map (fun c => Some (text c)) ["o1o2"; "X1X5X4"; "o1"; "o2"], true).
Proof. vm_compute. reflexivity. Qed.

(** *** When it does not hold *)
(** As [harmonious], with other conditions on one call and on two. *)
Definition roughly (one : str -> build -> Prop) (two : build -> build -> Prop) (cwd root : str) (bs : list build) : Prop :=
  isabs cwd = true /\ (forall b, In b bs -> one root b) /\
  (forall m n b c, m <> n -> nth_error bs m = Some b -> nth_error bs n = Some c -> two b c) /\
  apart_inputs cwd root bs.
Definition other_products (b c : build) : Prop := forall ds n, product_names b ds n -> ~ product_names c ds n.
Definition result (n : nat) (b : build) (s : ostate) : bool * lstat * option str * option str :=
  (on (sts s n), ls (sts s n), contents w_cwd (fs s) (snd (linked w_root w_dep b)), own_product w_root w_dep w_cwd b (fs s)).
Lemma not_own (cond : str -> str -> str -> list build -> files -> list olabel -> Prop) bs f0 l n b x y :
  cond w_cwd w_root w_dep bs f0 l -> nth_error bs n = Some b ->
  option_map (result n b) (osteps w_cwd w_root w_dep bs (oinit f0) l) = Some (true, LDone, x, y) -> x <> y -> ~ always_own cond.
Proof.
  intros Hc Hb Hs Hd H. destruct (osteps w_cwd w_root w_dep bs (oinit f0) l) as [s|] eqn:E; [|discriminate].
  cbn [option_map] in Hs. apply (f_equal (fun o => match o with Some x => x | None => (true, LDone, x, y) end)) in Hs. cbn beta iota in Hs.
  unfold result in Hs. injection Hs as H1 H2 H3 H4.
  destruct (H _ _ _ _ _ _ _ _ _ Hc E Hb H1) as (K & _). destruct (K H2) as [K1 _]. congruence.
Qed.
Lemma two_by (P : build -> build -> Prop) b c : (forall x y, P x y -> P y x) -> P b c ->
  forall m n x y, m <> n -> nth_error [b; c] m = Some x -> nth_error [b; c] n = Some y -> P x y.
Proof.
  intros Hs Hp m n x y Hne Hx Hy. destruct m as [|[|m]]; destruct n as [|[|n]]; try (destruct m; discriminate); try (destruct n; discriminate); try contradiction;
    injection Hx as <-; injection Hy as <-; auto.
Qed.
Lemma other_sym b c : other_products b c -> other_products c b.
Proof. intros H ds n H1 H2. exact (H ds n H2 H1). Qed.
Lemma other_by b c ds m es k : relative (b_dst b) (ds ++ [m]) -> relative (b_dst c) (es ++ [k]) ->
  ds <> es \/ b_prefix b ++ m ++ b_lsuffix b <> b_prefix c ++ k ++ b_lsuffix c -> other_products b c.
Proof.
  intros H1 H2 H es' n P1 P2. destruct (prod_names _ _ _ H1 _ _ P1) as [E1 F1]. destruct (prod_names _ _ _ H2 _ _ P2) as [E2 F2].
  destruct H as [H|H]; apply H; congruence.
Qed.
Lemma inputs_by cwd root bs : Forall (fun b => Forall (fun p => no_prefix (place cwd root ++ [obj_dir]) (place cwd p) /\
    Forall (fun c => exists ds m, relative (b_dst c) (ds ++ [m]) /\ place cwd p <> place cwd root ++ ds ++ [b_prefix c ++ m ++ b_lsuffix c]) bs)
    (b_srcs b ++ b_objs b)) bs -> apart_inputs cwd root bs.
Proof.
  intros H b p Hb Hp. apply in_or_app in Hp. pose proof (proj1 (Forall_forall _ _) (proj1 (Forall_forall _ _) H b Hb) p Hp) as [H1 H2].
  split; [exact H1|]. intros c ds n Hc Pc. destruct (proj1 (Forall_forall _ _) H2 c Hc) as (ds' & m & R & Hne).
  destruct (prod_names _ _ _ R _ _ Pc) as [-> ->]. exact Hne.
Qed.
Ltac all_inputs := apply inputs_by; repeat first [apply Forall_nil | apply Forall_cons]; cbn;
  (split; [nopre|]); repeat first [apply Forall_nil | apply Forall_cons].

(** Not if one destination is below another: their objects may be the same file, even though all
    destinations and all products are different. *)
Definition nested_1 : build := a_build false ".o" "" "" "p" ["q/x.c"] [].
Definition nested_2 : build := a_build false ".o" "" "" "p/q" ["x.c"] [].
Definition nested_files : files := file0 [("q/x.c", "1"); ("x.c", "2")].
Theorem C88_nested_refuted : ~ always_own (fun cwd root dep bs f0 _ =>
  roughly tidy (fun b c => b_dst b <> b_dst c /\ other_products b c) cwd root bs /\ all_afresh cwd root dep bs f0).
Proof.
  assert (relative (text "p") ([] ++ [text "p"])) as R1 by rels. assert (relative (text "p/q") ([text "p"] ++ [text "q"])) as R2 by rels.
  apply (not_own _ [nested_1; nested_2] nested_files
    [OBuild 0; OBuild 1; OCompile 0 0; OCompile 1 0; OCompiled 0 0; OCompiled 1 0; OLink 0; OLinked 0]%nat 0%nat nested_1 (Some (text "o2")) (Some (text "o1"))).
  - split; [split; [reflexivity|split; [|split]]|].
    + intros b [<-|[<-|[]]].
      * apply (tidy_by w_root nested_1 [text "p"] R1 ltac:(discriminate) ltac:(nopre) ltac:(plain) [([text "q"], text "x.c")]).
        -- apply Forall2_cons; [apply kept_rel_of; rels|]. apply Forall2_nil.
        -- repeat (apply Forall_cons; [nopre|]); apply Forall_nil.
        -- distinct.
      * apply (tidy_by w_root nested_2 [text "p"; text "q"] R2 ltac:(discriminate) ltac:(nopre) ltac:(plain) [([], text "x.c")]).
        -- apply Forall2_cons; [apply kept_rel_of; rels|]. apply Forall2_nil.
        -- repeat (apply Forall_cons; [nopre|]); apply Forall_nil.
        -- distinct.
    + apply two_by; [intros x y (H1 & H2); split; [auto|apply other_sym; exact H2]|]. split; [discriminate|].
      apply (other_by nested_1 nested_2 [] (text "p") [text "p"] (text "q") R1 R2). left. discriminate.
    + all_inputs; first [exists [], (text "p"); split; [exact R1|vm_compute; discriminate] | exists [text "p"], (text "q"); split; [exact R2|vm_compute; discriminate]].
    + intros c [<-|[<-|[]]]; split; reflexivity.
  - reflexivity.
  - vm_compute. reflexivity.
  - discriminate.
Qed.

(** Not if a library and a program with the same destination have objects with the same suffix, not even if
    one is made after the other: the object of the one is taken for the other. *)
Definition same_1 : build := a_build true ".o" "lib" ".a" "p" ["x.c"] ["X"].
Definition same_2 : build := a_build false ".o" "" "" "p" ["x.c"] [].
Definition same_files : files := file0 [("x.c", "1")].
Fixpoint one_by_one (now : option nat) (l : list olabel) : bool :=
  match l, now with
  | [], _ => true
  | OBuild n :: l', None => one_by_one (Some n) l'
  | OReturn n :: l', Some m => Nat.eqb n m && one_by_one None l'
  | OOther _ _ :: l', None => one_by_one None l'
  | (OCompile n _ | OCompiled n _ | OAnswer n _ | OLink n | OLinked n | OLinkAnswer n) :: l', Some m => Nat.eqb n m && one_by_one now l'
  | _, _ => false
  end.
Theorem C88_same_refuted : ~ always_own (fun cwd root dep bs f0 l =>
  roughly tidy other_products cwd root bs /\ all_afresh cwd root dep bs f0 /\ one_by_one None l = true).
Proof.
  assert (relative (text "p") ([] ++ [text "p"])) as R1 by rels.
  apply (not_own _ [same_1; same_2] same_files
    [OBuild 0; OCompile 0 0; OCompiled 0 0; OLink 0; OLinked 0; OReturn 0; OBuild 1; OCompile 1 0; OCompiled 1 0; OLink 1; OLinked 1; OReturn 1;
     OBuild 0; OAnswer 0 0; OLink 0; OLinked 0]%nat 0%nat same_1 (Some (text "o1")) (Some (text "X1"))).
  - split; [split; [reflexivity|split; [|split]]|split].
    + intros b [<-|[<-|[]]].
      * apply (tidy_by w_root same_1 [text "p"] R1 ltac:(discriminate) ltac:(nopre) ltac:(plain) [([], text "x.c")]).
        -- apply Forall2_cons; [apply kept_rel_of; rels|]. apply Forall2_nil.
        -- repeat (apply Forall_cons; [nopre|]); apply Forall_nil.
        -- distinct.
      * apply (tidy_by w_root same_2 [text "p"] R1 ltac:(discriminate) ltac:(nopre) ltac:(plain) [([], text "x.c")]).
        -- apply Forall2_cons; [apply kept_rel_of; rels|]. apply Forall2_nil.
        -- repeat (apply Forall_cons; [nopre|]); apply Forall_nil.
        -- distinct.
    + apply two_by; [exact other_sym|]. apply (other_by same_1 same_2 [] (text "p") [] (text "p") R1 R1). right. vm_compute. discriminate.
    + all_inputs; exists [], (text "p"); (split; [exact R1|vm_compute; discriminate]).
    + intros c [<-|[<-|[]]]; split; reflexivity.
    + reflexivity.
  - reflexivity.
  - vm_compute. reflexivity.
  - discriminate.
Qed.

(** Not if sources differ only in directories of absolute paths. *)
Record tidy_but (root : str) (b : build) : Prop := TidyBut {
  tb_dst : exists ds, relative (b_dst b) ds /\ hd [] ds <> obj_dir;
  tb_outside : no_prefix root (b_dst b);
  tb_plain : ~ In 47 (b_osuffix b) /\ ~ In 47 (b_prefix b) /\ ~ In 47 (b_lsuffix b);
  tb_kept : forall p, In p (b_srcs b) -> exists ns n, kept p ns n;
  tb_srcs : forall p, In p (b_srcs b) -> no_prefix (obj_root root b) p;
  tb_distinct : forall i j p q r, i <> j -> nth_error (b_srcs b) i = Some p -> nth_error (b_srcs b) j = Some q -> stem p r -> ~ stem q r
}.
Definition absolute_1 : build := a_build false ".o" "" "" "p" ["/q/x.c"; "/r/x.c"] [].
Definition absolute_files : files := file0 [("/q/x.c", "1"); ("/r/x.c", "2")].
Theorem C88_absolute_refuted : ~ always_own (fun cwd root dep bs f0 l =>
  roughly tidy_but other_products cwd root bs /\ all_afresh cwd root dep bs f0).
Proof.
  assert (relative (text "p") ([] ++ [text "p"])) as R1 by rels.
  apply (not_own _ [absolute_1] absolute_files
    [OBuild 0; OCompile 0 0; OCompiled 0 0; OCompile 0 1; OCompiled 0 1; OLink 0; OLinked 0]%nat 0%nat absolute_1 (Some (text "o2o2")) (Some (text "o1o2"))).
  - split; [split; [reflexivity|split; [|split]]|].
    + intros b [<-|[]]. split.
      * exists [text "p"]. split; [exact R1|discriminate].
      * nopre.
      * plain.
      * intros p [<-|[<-|[]]]; exists [], (text "x.c"); right; (split; [reflexivity|]; split; [good|]).
        -- exists [text "q"]. split; [repeat (apply Forall_cons; [good|]); apply Forall_nil|reflexivity].
        -- exists [text "r"]. split; [repeat (apply Forall_cons; [good|]); apply Forall_nil|reflexivity].
      * intros p [<-|[<-|[]]]; nopre.
      * intros i j p q r Hne Hi Hj S1 S2. apply stem_split in S1, S2. destruct i as [|[|i]]; destruct j as [|[|j]]; try (destruct i; discriminate); try (destruct j; discriminate);
          try contradiction; injection Hi as <-; injection Hj as <-; rewrite <- S1 in S2; vm_compute in S2; discriminate.
    + intros m n b c Hne Hb Hc. destruct m as [|m]; [|destruct m; discriminate]. destruct n as [|n]; [contradiction|destruct n; discriminate].
    + all_inputs; exists [], (text "p"); (split; [exact R1|vm_compute; discriminate]).
    + intros c [<-|[]]; split; reflexivity.
  - reflexivity.
  - vm_compute. reflexivity.
  - discriminate.
Qed.

(** Not if there is an archive already: ar keeps the members it is not given, such as those of sources that
    were removed from the call. *)
Definition keeping_ld (_ : list str) (old : option str) (ins : list (option str)) : option str :=
  match all_of ins, old with Some x, Some y => Some (x ++ y) | r, _ => r end.
Definition archive_1 : build :=
  Build a_gcc [] (text ".o") true [] (text "lib") (text ".a") (text "p") [text "x.c"] [] [] [] [] [] no_options true [] [] [] [] no_options a_cc keeping_ld.
Definition archive_files : files := file0 [("x.c", "1"); ("build/libp.a", "o2")].
Theorem C88_archive_refuted : ~ always_own (fun cwd root dep bs f0 l => harmonious cwd root bs).
Proof.
  assert (relative (text "p") ([] ++ [text "p"])) as R1 by rels.
  apply (not_own _ [archive_1] archive_files
    [OBuild 0; OCompile 0 0; OCompiled 0 0; OLink 0; OLinked 0]%nat 0%nat archive_1 (Some (text "o1o2")) (Some (text "o1"))).
  - split.
    + reflexivity.
    + intros b [<-|[]].
      apply (tidy_by w_root archive_1 [text "p"] R1 ltac:(discriminate) ltac:(nopre) ltac:(plain) [([], text "x.c")]).
      * apply Forall2_cons; [apply kept_rel_of; rels|]. apply Forall2_nil.
      * repeat (apply Forall_cons; [nopre|]); apply Forall_nil.
      * distinct.
    + intros m n b c Hne Hb Hc. destruct m as [|m]; [|destruct m; discriminate]. destruct n as [|n]; [contradiction|destruct n; discriminate].
    + all_inputs; exists [], (text "p"); (split; [exact R1|vm_compute; discriminate]).
  - reflexivity.
  - vm_compute. reflexivity.
  - discriminate.
Qed.

Print Assumptions C88_own.
Print Assumptions C88_placed.
Print Assumptions C88_apart.
Print Assumptions C88_stays.
Print Assumptions C88_goes_on.
Print Assumptions C88_ends.
Print Assumptions C88_told.
Print Assumptions C88_only.
Print Assumptions C88_nested_refuted.
Print Assumptions C88_same_refuted.
Print Assumptions C88_absolute_refuted.
Print Assumptions C88_archive_refuted.
