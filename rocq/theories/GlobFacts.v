(** Proofs about globbing. *)
From Coq Require Import List NArith Bool Arith Lia.
From Verif Require Import FnModel FnSpec FnFacts PathModel PathSpec PathFacts GlobModel GlobSpec.
Import ListNotations.
Open Scope N_scope.

(** * Trees *)
Lemma entry_in es x n : NoDup (map fst es) -> (entry es x = Some n <-> In (x, n) es).
Proof.
  intros Hn. unfold entry. induction es as [|[y m] es IH]; [split; [discriminate|intros []]|].
  cbn [map fst] in Hn. apply NoDup_cons_iff in Hn. destruct Hn as [Hy Hn]. cbn [find fst].
  destruct (str_eqb y x) eqn:E.
  - apply str_eqb_true in E. subst y. cbn. split.
    + intros H. injection H as ->. left. reflexivity.
    + intros [H|H]; [injection H as ->; reflexivity|]. destruct Hy. apply (in_map fst) in H. exact H.
  - rewrite (IH Hn). split; [intros H; right; exact H|]. intros [H|H]; [|exact H].
    injection H as -> _. rewrite str_eqb_refl in E. discriminate.
Qed.
Lemma node_at_app n a : forall b, node_at n (a ++ b) = match node_at n a with Some n' => node_at n' b | None => None end.
Proof.
  revert n. induction a as [|x a IH]; intros n b; [reflexivity|]. cbn. destruct n as [|es]; [reflexivity|].
  destruct (entry es x); [apply IH|reflexivity].
Qed.
Lemma tree_ok_at n loc : forall n', tree_ok n -> node_at n loc = Some n' -> tree_ok n'.
Proof.
  revert n. induction loc as [|x loc IH]; intros n n' Hn E; [injection E as <-; exact Hn|].
  cbn in E. destruct n as [|es]; [discriminate|]. destruct (entry es x) as [m|] eqn:Ex; [|discriminate].
  inversion Hn as [|es' Hd He]; subst. apply (entry_in es x m Hd) in Ex. destruct (He x m Ex) as (_ & _ & _ & _ & _ & Hm).
  exact (IH m n' Hm E).
Qed.
Lemma leads_at n loc n' : tree_ok n -> (leads n loc n' <-> node_at n loc = Some n').
Proof.
  intros Hn. split.
  - induction 1 as [|loc es x n' Hl IH Hi]; [reflexivity|]. rewrite node_at_app, IH. cbn.
    pose proof (tree_ok_at n loc _ Hn IH) as Ht. inversion Ht as [|es' Hd He]; subst.
    rewrite (proj2 (entry_in es x n' Hd) Hi). reflexivity.
  - revert n'. induction loc as [|x loc IH] using rev_ind; intros n' E; [injection E as <-; constructor|].
    rewrite node_at_app in E. destruct (node_at n loc) as [m|] eqn:El; [|discriminate]. cbn in E.
    destruct m as [|es]; [discriminate|]. destruct (entry es x) as [m'|] eqn:Ex; [|discriminate]. injection E as <-.
    pose proof (tree_ok_at n loc _ Hn El) as Ht. inversion Ht as [|es' Hd He]; subst.
    apply (leads_snoc n loc es x m'); [apply IH; reflexivity|]. apply entry_in; assumption.
Qed.

Section World.
  Variable w : world.
  Hypothesis w_ok : world_ok w.
  Let root_ok : tree_ok (w_root w) := proj1 w_ok.

  Lemma is_dir_at loc : is_dir w loc <-> exists es, node_at (w_root w) loc = Some (NDir es).
  Proof. split; intros [es H]; exists es; apply (leads_at _ _ _ root_ok); exact H. Qed.
  Lemma child_at loc x : child w loc x <-> exists es n, node_at (w_root w) loc = Some (NDir es) /\ In (x, n) es.
  Proof.
    split.
    - intros [Hd [n Hn]]. apply is_dir_at in Hd. destruct Hd as [es Hd]. exists es. apply (leads_at _ _ _ root_ok) in Hn.
      rewrite node_at_app, Hd in Hn. cbn in Hn. destruct (entry es x) as [m|] eqn:E; [|discriminate]. exists m.
      split; [exact Hd|]. pose proof (tree_ok_at _ _ _ root_ok Hd) as Ht. inversion Ht; subst. apply entry_in; assumption.
    - intros (es & n & Hd & Hi). split; [apply is_dir_at; exists es; exact Hd|]. exists n.
      apply (leads_snoc _ loc es); [apply (leads_at _ _ _ root_ok); exact Hd|exact Hi].
  Qed.
  Lemma child_name loc x : child w loc x -> x <> [] /\ ~ In c_sep x /\ ~ In c_nl x /\ x <> str_dot /\ x <> str_dotdot.
  Proof.
    intros H. apply child_at in H. destruct H as (es & n & Hd & Hi).
    pose proof (tree_ok_at _ _ _ root_ok Hd) as Ht. inversion Ht as [|es' Hd' He]; subst.
    destruct (He x n Hi) as (H1 & H2 & H3 & H4 & H5 & _). repeat split; assumption.
  Qed.
  Lemma enter_spec loc x loc' :
    enter w loc x = Some loc' <-> (x = [] /\ is_dir w loc /\ loc' = loc) \/ enters w loc x loc'.
  Proof.
    unfold enter. split.
    - destruct (node_at (w_root w) loc) as [[|es]|] eqn:E; [discriminate| |discriminate].
      assert (is_dir w loc) as Hd by (apply is_dir_at; exists es; exact E).
      destruct (str_eqb x []) eqn:E1; cbn [orb].
      { intros H. injection H as <-. left. apply str_eqb_true in E1. split; [exact E1|]. split; [exact Hd|reflexivity]. }
      right. destruct (str_eqb x str_dot) eqn:E2.
      { injection H as <-. apply str_eqb_true in E2. apply enters_dot; assumption. }
      destruct (str_eqb x str_dotdot) eqn:E3.
      { injection H as <-. apply str_eqb_true in E3. apply enters_up; assumption. }
      destruct (entry es x) as [n|] eqn:Ex; [|discriminate]. injection H as <-. apply enters_child.
      apply child_at. exists es, n. split; [exact E|]. pose proof (tree_ok_at _ _ _ root_ok E) as Ht. inversion Ht; subst.
      apply entry_in; assumption.
    - intros [(-> & Hd & ->)|H].
      { apply is_dir_at in Hd. destruct Hd as [es ->]. reflexivity. }
      destruct H as [Hc|Hd Hs|Hd Hs].
      + destruct (child_name _ _ Hc) as (H1 & _ & _ & H2 & H3). apply child_at in Hc. destruct Hc as (es & n & E & Hi). rewrite E.
        destruct (str_eqb x []) eqn:E1; [apply str_eqb_true in E1; contradiction|].
        destruct (str_eqb x str_dot) eqn:E2; [apply str_eqb_true in E2; contradiction|].
        destruct (str_eqb x str_dotdot) eqn:E3; [apply str_eqb_true in E3; contradiction|]. cbn [orb].
        pose proof (tree_ok_at _ _ _ root_ok E) as Ht. inversion Ht; subst.
        rewrite (proj2 (entry_in es x n ltac:(assumption)) Hi). reflexivity.
      + apply is_dir_at in Hd. destruct Hd as [es ->]. rewrite Hs. reflexivity.
      + apply is_dir_at in Hd. destruct Hd as [es ->]. rewrite Hs. reflexivity.
  Qed.
  Lemma enter_child loc es x n : node_at (w_root w) loc = Some (NDir es) -> In (x, n) es -> enter w loc x = Some (loc ++ [x]).
  Proof. intros E Hi. apply enter_spec. right. apply enters_child. apply child_at. exists es, n. split; assumption. Qed.
  Lemma enter_name loc x loc' : x <> [] -> (enter w loc x = Some loc' <-> enters w loc x loc').
  Proof. intros Hx. rewrite enter_spec. split; [intros [(H & _)|H]; [contradiction|exact H]|intros H; right; exact H]. Qed.
  Lemma enter_empty loc loc' : enter w loc [] = Some loc' <-> is_dir w loc /\ loc' = loc.
  Proof.
    rewrite enter_spec. split.
    - intros [(_ & H)|H]; [exact H|]. inversion H as [Hc|Hd E|Hd E]; subst; [|discriminate E|discriminate E].
      destruct (child_name _ _ Hc) as [Hn _]. congruence.
    - intros H. left. split; [reflexivity|exact H].
  Qed.
  Lemma enter_exists loc x loc' : enter w loc x = Some loc' -> exists n, node_at (w_root w) loc' = Some n.
  Proof.
    intros E. apply enter_spec in E. destruct E as [(_ & Hd & ->)|H].
    - apply is_dir_at in Hd. destruct Hd as [es Hd]. exists (NDir es). exact Hd.
    - destruct H as [Hc|Hd _|Hd _].
      + destruct Hc as [_ [n Hn]]. exists n. apply (leads_at _ _ _ root_ok). exact Hn.
      + apply is_dir_at in Hd. destruct Hd as [es Hd]. exists (NDir es). exact Hd.
      + apply is_dir_at in Hd. destruct Hd as [es Hd]. destruct loc as [|x0 loc0] using rev_ind; [exists (NDir es); exact Hd|].
        rewrite removelast_last. rewrite node_at_app in Hd. destruct (node_at (w_root w) loc0) as [m|]; [|discriminate].
        exists m. reflexivity.
  Qed.
  Lemma walk_app a : forall loc b, walk w loc (a ++ b) = match walk w loc a with Some loc' => walk w loc' b | None => None end.
  Proof. induction a as [|x a IH]; intros loc b; [reflexivity|]. cbn. destruct (enter w loc x); [apply IH|reflexivity]. Qed.
  Lemma walk_spec loc xs : forall loc', walk w loc xs = Some loc' <-> walks w loc xs loc'.
  Proof.
    induction xs as [|x xs IH] using rev_ind; intros loc'.
    - cbn. split; [intros H; injection H as <-; constructor|].
      intros H. inversion H as [|xs loc1 H1 H2 E|xs x loc1 loc2 H1 H2 E]; subst; [reflexivity| |]; destruct xs; discriminate E.
    - rewrite walk_app. split.
      + destruct (walk w loc xs) as [loc1|] eqn:E; [|discriminate]. cbn. destruct (enter w loc1 x) as [loc2|] eqn:E2; [|discriminate].
        intros H. injection H as <-. pose proof (proj1 (IH loc1) eq_refl) as Hw. apply enter_spec in E2.
        destruct E2 as [(-> & Hd & ->)|E2]; [apply walks_skip; assumption|exact (walks_snoc w loc xs x loc1 loc2 Hw E2)].
      + intros H. inversion H as [E|ys loc1 H1 H2 E|ys y loc1 loc2 H1 H2 E]; subst.
        * symmetry in E. apply app_eq_nil in E. destruct E. discriminate.
        * apply app_inj_tail in E. destruct E as [-> <-]. rewrite (proj2 (IH loc') H1). cbn.
          rewrite (proj2 (enter_empty loc' loc') (conj H2 eq_refl)). reflexivity.
        * apply app_inj_tail in E. destruct E as [-> ->]. rewrite (proj2 (IH loc1) H1). cbn.
          rewrite (proj2 (enter_spec loc1 x loc') (or_intror H2)). reflexivity.
  Qed.

  (** * Where a directory name leads *)
  Definition dwalk (d : str) : option (list str) := match d with [] => Some (w_cwd w) | _ => resolve w d end.
  Definition dir_only (l : option (list str)) : option (list str) :=
    match l with Some loc => enter w loc [] | None => None end.
  Lemma starts_dwalk b loc : starts w b loc <-> dwalk b = Some loc.
  Proof.
    unfold starts, dwalk, resolve. destruct b as [|c b]; [split; [intros ->; reflexivity|intros H; injection H as <-; reflexivity]|].
    symmetry. apply walk_spec.
  Qed.
  Lemma rel_name s : s <> [] -> ~ In c_sep s -> isabs s = false.
  Proof. intros Hs Hn. destruct s as [|c s]; [congruence|]. apply is_sep_false. intros ->. apply Hn. left. reflexivity. Qed.
  Lemma resolve_join d s : s <> [] -> ~ In c_sep s ->
    resolve w (pjoin d s) = match dwalk d with Some loc => enter w loc s | None => None end.
  Proof.
    intros Hs Hn. pose proof (rel_name s Hs Hn) as Hr.
    assert (forall loc, walk w loc [s] = enter w loc s) as H1 by (intros loc; cbn; destruct (enter w loc s); reflexivity).
    unfold pjoin. rewrite Hr. destruct d as [|c d].
    - cbn [dwalk]. unfold resolve. destruct s as [|c s]; [congruence|]. rewrite Hr, (names_nosep _ Hn). apply H1.
    - destruct (ends_sep (c :: d)) eqn:E.
      + destruct (ends_sep_true _ E) as [d' Ed]. unfold dwalk, resolve. change ((c :: d) ++ s) with (c :: (d ++ s)).
        cbv iota. change (c :: (d ++ s)) with ((c :: d) ++ s). rewrite isabs_app by discriminate.
        set (st := if isabs (c :: d) then [] else w_cwd w). rewrite Ed. rewrite <- app_assoc. cbn [app].
        rewrite !names_app, (names_nosep s Hn). cbn [names]. rewrite !walk_app. destruct (walk w st (names d')) as [loc|]; [|reflexivity].
        rewrite H1. cbn [walk]. destruct (enter w loc []) as [loc1|] eqn:E1.
        * apply enter_empty in E1. destruct E1 as [_ ->]. reflexivity.
        * unfold enter in *. destruct (node_at (w_root w) loc) as [[|es]|]; [reflexivity|discriminate E1|reflexivity].
      + unfold dwalk, resolve. change ((c :: d) ++ c_sep :: s) with (c :: (d ++ c_sep :: s)). cbv iota.
        change (c :: (d ++ c_sep :: s)) with ((c :: d) ++ c_sep :: s). rewrite isabs_app by discriminate.
        rewrite names_app, (names_nosep s Hn), walk_app. destruct (walk w _ (names (c :: d))); [apply H1|reflexivity].
  Qed.
  Lemma pjoin_nonnil d s : s <> [] -> pjoin d s <> [].
  Proof.
    intros Hs. unfold pjoin. destruct (isabs s); [exact Hs|]. destruct d; [exact Hs|]. destruct (ends_sep _); discriminate.
  Qed.
  Lemma dwalk_nonnil d : d <> [] -> dwalk d = resolve w d.
  Proof. destruct d; [congruence|reflexivity]. Qed.
  Lemma dwalk_join d s : s <> [] -> ~ In c_sep s ->
    dwalk (pjoin d s) = match dwalk d with Some loc => enter w loc s | None => None end.
  Proof. intros Hs Hn. rewrite dwalk_nonnil by (apply pjoin_nonnil; exact Hs). apply resolve_join; assumption. Qed.
  Lemma dwalk_slash d : dwalk (pjoin d []) = dir_only (dwalk d).
  Proof.
    unfold pjoin. cbn [isabs]. destruct d as [|c d].
    - cbn [dwalk dir_only]. symmetry. apply enter_empty. split; [exact (proj2 w_ok)|reflexivity].
    - destruct (ends_sep (c :: d)) eqn:E.
      + rewrite app_nil_r. destruct (ends_sep_true _ E) as [d' Ed]. unfold dwalk, resolve, dir_only.
        set (st := if isabs (c :: d) then [] else w_cwd w). rewrite Ed, names_app. cbn [names]. rewrite walk_app.
        destruct (walk w st (names d')) as [loc|]; [|reflexivity]. cbn [walk].
        destruct (enter w loc []) as [loc1|] eqn:E1; [|reflexivity]. apply enter_empty in E1. destruct E1 as [Hd ->].
        symmetry. apply enter_empty. split; [exact Hd|reflexivity].
      + unfold dwalk, resolve, dir_only. change ((c :: d) ++ [c_sep]) with (c :: (d ++ [c_sep])). cbv iota.
        change (c :: (d ++ [c_sep])) with ((c :: d) ++ [c_sep]). rewrite isabs_app by discriminate. rewrite names_app, walk_app.
        destruct (walk w _ (names (c :: d))); [|reflexivity]. cbn. destruct (enter w l []); reflexivity.
  Qed.
  Lemma dwalk_or_dot d : dwalk (or_dot d) = dwalk d.
  Proof.
    destruct d as [|c d]; [|reflexivity]. cbn [or_dot dwalk resolve str_dot isabs]. cbn.
    destruct (proj2 w_ok) as [es He]. apply (leads_at _ _ _ root_ok) in He. unfold enter. rewrite He. reflexivity.
  Qed.
  Lemma or_dot_nonnil d : or_dot d <> [].
  Proof. destruct d; discriminate. Qed.
  Definition node_of (l : option (list str)) : option node :=
    match l with Some loc => node_at (w_root w) loc | None => None end.
  Lemma stat_or_dot d : stat w (or_dot d) = node_of (dwalk d).
  Proof. unfold stat. rewrite <- (dwalk_or_dot d), (dwalk_nonnil (or_dot d) (or_dot_nonnil d)). reflexivity. Qed.
  Definition entries_of (n : option node) : list (str * node) := match n with Some (NDir es) => es | _ => [] end.

  (** * Ways down *)
  Fixpoint descents (fuel : nat) (n : node) : list (list str) :=
    match fuel with
    | O => []
    | S fuel => match n with
                | NFile => []
                | NDir es => flat_map (fun e => if ishidden (fst e) then []
                                                else [fst e] :: map (cons (fst e)) (descents fuel (snd e))) es
                end
    end.
  Lemma descents_nonnil fuel n xs : In xs (descents fuel n) -> xs <> [].
  Proof.
    destruct fuel; [intros []|]. destruct n as [|es]; [intros []|]. cbn. intros H. apply in_flat_map in H.
    destruct H as (e & _ & H). destruct (ishidden (fst e)); [destruct H|]. destruct H as [<-|H]; [discriminate|].
    apply in_map_iff in H. destruct H as (y & <- & _). discriminate.
  Qed.
  Lemma pjoin_assoc d x y : x <> [] -> isabs x = false -> isabs y = false -> pjoin d (pjoin x y) = pjoin (pjoin d x) y.
  Proof.
    intros Hx Hxa Hy. destruct d as [|c d]; [rewrite !pjoin_nil; reflexivity|].
    assert (forall a : str, a <> [] -> pjoin a y = if ends_sep a then a ++ y else a ++ c_sep :: y) as Hj.
    { intros a Ha. unfold pjoin. rewrite Hy. destruct a; [congruence|reflexivity]. }
    assert (forall a : str, a ++ x <> [] /\ ends_sep (a ++ x) = ends_sep x) as He.
    { intros a. destruct x as [|x0 x] using rev_ind; [congruence|]. rewrite app_assoc, !ends_sep_snoc. split; [|reflexivity].
      intros H. apply app_eq_nil in H. destruct H. discriminate. }
    rewrite (Hj x Hx). assert (forall z, isabs (x ++ z) = false) as Ha by (intros z; rewrite isabs_app by exact Hx; exact Hxa).
    unfold pjoin at 1 3. rewrite Hxa. destruct (ends_sep (c :: d)) eqn:Ed.
    - destruct (He (c :: d)) as [H1 H2]. rewrite (Hj _ H1), H2. destruct (ends_sep x); rewrite Ha, <- app_assoc; reflexivity.
    - assert ((c :: d) ++ c_sep :: x = ((c :: d) ++ [c_sep]) ++ x) as Es by (rewrite <- app_assoc; reflexivity).
      rewrite Es. destruct (He ((c :: d) ++ [c_sep])) as [H1 H2]. rewrite (Hj _ H1), H2.
      destruct (ends_sep x); rewrite Ha, <- !app_assoc; reflexivity.
  Qed.
  Definition name_ok (x : str) : Prop := x <> [] /\ ~ In c_sep x.
  Lemma put_snoc b xs x : put b (xs ++ [x]) = pjoin (put b xs) x.
  Proof. unfold put. rewrite fold_left_app. reflexivity. Qed.
  Lemma put_app b xs ys : put b (xs ++ ys) = put (put b xs) ys.
  Proof. apply fold_left_app. Qed.
  Lemma put_rel xs : xs <> [] -> Forall name_ok xs -> put [] xs <> [] /\ isabs (put [] xs) = false.
  Proof.
    intros Hx H. destruct xs as [|x xs]; [congruence|]. apply Forall_cons_iff in H. destruct H as [[H1 H2] H].
    unfold put. cbn [fold_left]. rewrite pjoin_nil.
    assert (forall a, a <> [] -> isabs a = false -> fold_left pjoin xs a <> [] /\ isabs (fold_left pjoin xs a) = false) as Hf.
    { clear Hx. induction xs as [|y xs IH]; intros a Ha Hb; [split; assumption|]. apply Forall_cons_iff in H. destruct H as [[H3 H4] H].
      cbn. apply (IH H).
      - apply pjoin_nonnil. exact H3.
      - unfold pjoin. rewrite (rel_name y H3 H4). destruct a as [|c a]; [congruence|]. destruct (ends_sep (c :: a)); exact Hb. }
    apply Hf; [exact H1|exact (rel_name x H1 H2)].
  Qed.
  Lemma pjoin_put d xs : xs <> [] -> Forall name_ok xs -> pjoin d (put [] xs) = put d xs.
  Proof.
    induction xs as [|x xs IH] using rev_ind; [congruence|]. intros _ H. apply Forall_app in H. destruct H as [H Hx].
    apply Forall_cons_iff in Hx. destruct Hx as [[H1 H2] _]. rewrite !put_snoc. destruct xs as [|x0 xs].
    - cbn. rewrite pjoin_nil. reflexivity.
    - destruct (put_rel (x0 :: xs)) as [Hn Ha]; [discriminate|exact H|].
      rewrite pjoin_assoc; [|exact Hn|exact Ha|exact (rel_name x H1 H2)]. rewrite IH; [reflexivity|discriminate|exact H].
  Qed.
  Lemma descents_names fuel n : forall xs, tree_ok n -> In xs (descents fuel n) -> Forall name_ok xs.
  Proof.
    revert n. induction fuel as [|fuel IH]; intros n xs Hn H; [destruct H|]. destruct n as [|es]; [destruct H|]. cbn in H.
    apply in_flat_map in H. destruct H as ([x m] & Hi & H). cbn [fst snd] in H. destruct (ishidden x); [destruct H|].
    inversion Hn as [|es' Hd He]; subst. destruct (He x m Hi) as (H1 & H2 & _ & _ & _ & Hm).
    destruct H as [<-|H]; [repeat constructor; assumption|]. apply in_map_iff in H. destruct H as (ys & <- & H).
    constructor; [split; assumption|]. exact (IH m ys Hm H).
  Qed.
  Lemma rlistdir_spec fuel : forall d, rlistdir fuel w d =
    match node_of (dwalk d) with Some n => map (put []) (descents fuel n) | None => [] end.
  Proof.
    induction fuel as [|fuel IH]; intros d; [cbn; destruct (node_of _); reflexivity|].
    cbn [rlistdir]. unfold listdir. rewrite stat_or_dot. destruct (node_of (dwalk d)) as [n|] eqn:En; [|reflexivity].
    cbn [descents]. destruct n as [|es]; [reflexivity|].
    unfold node_of in En. destruct (dwalk d) as [loc|] eqn:Ed; [|discriminate].
    pose proof (tree_ok_at _ _ _ root_ok En) as Ht. inversion Ht as [|es' Hd He]; subst.
    assert (forall es0, incl es0 es -> flat_map (fun x => if ishidden x then [] else x :: map (pjoin x) (rlistdir fuel w (pjoin (or_dot d) x))) (map fst es0)
      = map (put []) (flat_map (fun e => if ishidden (fst e) then [] else [fst e] :: map (cons (fst e)) (descents fuel (snd e))) es0)) as H;
      [|apply H; apply incl_refl].
    induction es0 as [|[x m] es0 IH0]; intros Hi; [reflexivity|]. cbn [map fst snd flat_map]. rewrite map_app. rewrite IH0.
    2: intros e0 He0; apply Hi; right; exact He0.
    f_equal. assert (In (x, m) es) as Hx by (apply Hi; left; reflexivity). destruct (He x m Hx) as (H1 & H2 & _ & _ & _ & Hm).
    destruct (ishidden x); [reflexivity|]. cbn [map]. f_equal; [cbn; rewrite pjoin_nil; reflexivity|].
    rewrite IH, (dwalk_join _ _ H1 H2), dwalk_or_dot, Ed, (enter_child loc es x m En Hx). cbn [node_of].
    rewrite node_at_app, En. cbn [node_at]. rewrite (proj2 (entry_in es x m Hd) Hx). rewrite !map_map. apply map_ext_in.
    intros ys Hys. rewrite pjoin_put; [|exact (descents_nonnil _ _ _ Hys)|exact (descents_names _ _ _ Hm Hys)].
    unfold put. cbn [fold_left]. rewrite pjoin_nil. reflexivity.
  Qed.

  (** Which ways down there are. *)
  Lemma ishidden_iff x : ishidden x = true <-> hidden x.
  Proof.
    split.
    - destruct x as [|c x]; [discriminate|]. cbn. intros H. apply N.eqb_eq in H. subst c. exists x. reflexivity.
    - intros [x' ->]. reflexivity.
  Qed.
  Lemma height_entry es e : In e es -> (height (snd e) < height (NDir es))%nat.
  Proof.
    intros H. cbn. apply le_n_S. induction es as [|e' es IH]; [destruct H|]. cbn. destruct H as [->|H]; [lia|]. specialize (IH H). lia.
  Qed.
  Lemma descents_spec fuel n : forall xs, tree_ok n -> (height n < fuel)%nat ->
    (In xs (descents fuel n) <-> xs <> [] /\ (exists n', node_at n xs = Some n') /\ Forall (fun x => ~ hidden x) xs).
  Proof.
    revert n. induction fuel as [|fuel IH]; intros n xs Hn Hf; [lia|]. destruct n as [|es]; cbn [descents].
    - split; [intros []|]. intros (Hx & [n' E] & _). destruct xs; [congruence|]. discriminate E.
    - inversion Hn as [|es' Hd He]; subst. rewrite in_flat_map. split.
      + intros ([x m] & Hi & H). cbn [fst snd] in H. destruct (ishidden x) eqn:Eh; [destruct H|].
        assert (~ hidden x) as Hh by (rewrite <- ishidden_iff, Eh; discriminate).
        destruct (He x m Hi) as (_ & _ & _ & _ & _ & Hm). pose proof (height_entry es _ Hi) as Hhe. cbn [snd] in Hhe.
        destruct H as [<-|H].
        * split; [discriminate|]. split; [|repeat constructor; exact Hh]. exists m. cbn. rewrite (proj2 (entry_in es x m Hd) Hi). reflexivity.
        * apply in_map_iff in H. destruct H as (ys & <- & H). apply (IH m ys Hm ltac:(lia)) in H. destruct H as (_ & [n' E] & Hv).
          split; [discriminate|]. split; [|constructor; assumption]. exists n'. cbn. rewrite (proj2 (entry_in es x m Hd) Hi). exact E.
      + intros (Hx & [n' E] & Hv). destruct xs as [|x xs]; [congruence|]. cbn in E. destruct (entry es x) as [m|] eqn:Ex; [|discriminate].
        apply (entry_in es x m Hd) in Ex. exists (x, m). split; [exact Ex|]. cbn [fst snd]. apply Forall_cons_iff in Hv. destruct Hv as [Hh Hv].
        destruct (ishidden x) eqn:Eh; [apply ishidden_iff in Eh; contradiction|].
        destruct (He x m Ex) as (_ & _ & _ & _ & _ & Hm). pose proof (height_entry es _ Ex) as Hhe. cbn [snd] in Hhe.
        destruct xs as [|y xs]; [left; reflexivity|]. right. apply in_map. apply (IH m _ Hm ltac:(lia)).
        split; [discriminate|]. split; [exists n'; exact E|exact Hv].
  Qed.
  Lemma height_at n loc : forall n', node_at n loc = Some n' -> (height n' <= height n)%nat.
  Proof.
    revert n. induction loc as [|x loc IH]; intros n n' E; [injection E as <-; lia|]. cbn in E. destruct n as [|es]; [discriminate|].
    destruct (entry es x) as [m|] eqn:Ex; [|discriminate]. specialize (IH m n' E).
    unfold entry in Ex. destruct (find _ es) as [e|] eqn:Ef; [|discriminate]. injection Ex as <-. apply find_some in Ef. destruct Ef as [Ef _].
    pose proof (height_entry es e Ef). lia.
  Qed.
  Lemma descends_spec loc xs : descends w loc xs <->
    xs = [] \/ exists n', node_at (w_root w) (loc ++ xs) = Some n' /\ Forall (fun x => ~ hidden x) xs.
  Proof.
    split.
    - induction 1 as [|xs x H IH Hc Hh]; [left; reflexivity|]. right. destruct Hc as [_ [n Hn]]. apply (leads_at _ _ _ root_ok) in Hn.
      exists n. rewrite app_assoc. split; [exact Hn|]. apply Forall_app. split; [|repeat constructor; exact Hh].
      destruct IH as [->|(_ & _ & Hv)]; [constructor|exact Hv].
    - intros [->|(n' & E & Hv)]; [constructor|]. revert n' E. induction xs as [|x xs IH] using rev_ind; intros n' E; [constructor|].
      apply Forall_app in Hv. destruct Hv as [Hv Hx]. apply Forall_cons_iff in Hx. destruct Hx as [Hx _].
      rewrite app_assoc, node_at_app in E. destruct (node_at (w_root w) (loc ++ xs)) as [m|] eqn:Em; [|discriminate].
      apply descends_snoc; [exact (IH Hv m eq_refl)| |exact Hx]. cbn in E. destruct m as [|es]; [discriminate|].
      split; [apply is_dir_at; exists es; exact Em|]. exists n'. apply (leads_at _ _ _ root_ok). rewrite node_at_app, Em. exact E.
  Qed.

  (** * The results with the names and the location each stands for *)
  Definition result : Type := str * list str * option (list str).
  Definition top : nat := S (height (w_root w)).
  Definition keeps (g : glob) (x : str) : bool :=
    (ishidden (show g) || negb (ishidden x)) && match fnmatch x (show g) with Some b => b | None => false end.
  Definition extend (c : comp) (r : result) : list result :=
    let '(d, xs, l) := r in
    match c with
    | CName s => match l with
                 | Some loc => match enter w loc s with
                               | Some loc' => [(pjoin d s, xs ++ [s], Some loc')]
                               | None => []
                               end
                 | None => []
                 end
    | CGlob g => map (fun x => (pjoin d x, xs ++ [x], option_map (fun loc => loc ++ [x]) l))
                   (filter (keeps g) (map fst (entries_of (node_of l))))
    | CDeep => (pjoin d [], xs, dir_only l) ::
               map (fun ys => (put d ys, xs ++ ys, option_map (fun loc => loc ++ ys) l))
                 (match node_of l with Some n => descents top n | None => [] end)
    end.
  Fixpoint results (b : str) (rcs : list comp) : list result :=   (* components, last one first *)
    match rcs with
    | [] => [(b, [], dwalk b)]
    | c :: rcs' => flat_map (extend c) (results b rcs')
    end.
  Definition path_of (r : result) : str := fst (fst r).
  Definition names_of (r : result) : list str := snd (fst r).
  Definition loc_of (r : result) : option (list str) := snd r.

  Lemma pjoin_slash_name d x : name_ok x -> pjoin (pjoin d []) x = pjoin d x.
  Proof.
    intros [Hx Hn]. pose proof (rel_name x Hx Hn) as Hr. unfold pjoin at 2. cbn [isabs]. destruct d as [|c d]; [reflexivity|].
    destruct (ends_sep (c :: d)) eqn:E; [rewrite app_nil_r; reflexivity|].
    assert (forall a, a <> [] -> ends_sep a = true -> pjoin a x = a ++ x) as Hj.
    { intros a Ha Ea. unfold pjoin. rewrite Hr, Ea. destruct a; [congruence|reflexivity]. }
    rewrite (Hj ((c :: d) ++ [c_sep])); [|discriminate|rewrite ends_sep_snoc; reflexivity].
    unfold pjoin. rewrite Hr, E, <- app_assoc. reflexivity.
  Qed.
  Lemma dwalk_put d xs : Forall name_ok xs -> dwalk (put d xs) = match dwalk d with Some loc => walk w loc xs | None => None end.
  Proof.
    induction xs as [|x xs IH] using rev_ind; intros H; [cbn; destruct (dwalk d); reflexivity|].
    apply Forall_app in H. destruct H as [H Hx]. apply Forall_cons_iff in Hx. destruct Hx as [[H1 H2] _].
    rewrite put_snoc, (dwalk_join _ _ H1 H2), (IH H). destruct (dwalk d) as [loc|]; [|reflexivity]. rewrite walk_app.
    destruct (walk w loc xs); [|reflexivity]. cbn. destruct (enter w l x); reflexivity.
  Qed.
  Lemma walk_down loc n xs : node_at (w_root w) loc = Some n -> (exists n', node_at n xs = Some n') -> walk w loc xs = Some (loc ++ xs).
  Proof.
    revert loc n. induction xs as [|x xs IH]; intros loc n E [n' E']; [rewrite app_nil_r; reflexivity|].
    cbn in E'. destruct n as [|es]; [discriminate|]. destruct (entry es x) as [m|] eqn:Ex; [|discriminate].
    pose proof (tree_ok_at _ _ _ root_ok E) as Ht. inversion Ht as [|es' Hd He]; subst. pose proof (proj1 (entry_in es x m Hd) Ex) as Hi.
    cbn. rewrite (enter_child loc es x m E Hi). rewrite (IH (loc ++ [x]) m).
    - rewrite <- app_assoc. reflexivity.
    - rewrite node_at_app, E. cbn. rewrite Ex. reflexivity.
    - exists n'. exact E'.
  Qed.
  (** The location belongs to the path, and all names are names. *)
  Definition good (r : result) : Prop := dwalk (path_of r) = loc_of r /\ Forall name_ok (names_of r).
  Lemma entries_names n x m : tree_ok n -> In (x, m) (entries_of (Some n)) -> name_ok x.
  Proof. intros Hn H. destruct n as [|es]; [destruct H|]. inversion Hn as [|es' Hd He]; subst. destruct (He x m H) as (H1 & H2 & _). split; assumption. Qed.
  Lemma extend_good rec c r : comp_ok rec c -> good r -> Forall good (extend c r).
  Proof.
    intros Hc [Hd Hx]. destruct r as [[d xs] l]. cbn [path_of names_of loc_of fst snd] in Hd, Hx. destruct Hc as (Hn & Hs & Hc).
    destruct c as [s|g|]; cbn [extend].
    - destruct l as [loc|]; [|constructor]. destruct (enter w loc s) as [loc'|] eqn:E; [|constructor]. constructor; [|constructor].
      split; cbn [path_of names_of loc_of fst snd].
      + rewrite (dwalk_join _ _ Hn Hs), Hd. exact E.
      + apply Forall_app. split; [exact Hx|]. repeat constructor; assumption.
    - apply Forall_forall. intros r Hr. apply in_map_iff in Hr. destruct Hr as (x & <- & Hi). apply filter_In in Hi. destruct Hi as [Hi _].
      apply in_map_iff in Hi. destruct Hi as ([x' m] & E & Hi). cbn in E. subst x'.
      destruct l as [loc|]; [|destruct Hi]. cbn [node_of] in Hi. destruct (node_at (w_root w) loc) as [n|] eqn:En; [|destruct Hi].
      pose proof (entries_names n x m (tree_ok_at _ _ _ root_ok En) Hi) as [H1 H2]. split; cbn [path_of names_of loc_of fst snd option_map].
      + rewrite (dwalk_join _ _ H1 H2), Hd. destruct n as [|es]; [destruct Hi|]. exact (enter_child loc es x m En Hi).
      + apply Forall_app. split; [exact Hx|]. repeat constructor; assumption.
    - constructor.
      + split; [|exact Hx]. cbn [path_of loc_of fst snd]. rewrite dwalk_slash, Hd. reflexivity.
      + apply Forall_forall. intros r Hr. apply in_map_iff in Hr. destruct Hr as (ys & <- & Hi).
        destruct l as [loc|]; [|destruct Hi]. cbn [node_of] in Hi. destruct (node_at (w_root w) loc) as [n|] eqn:En; [|destruct Hi].
        pose proof (tree_ok_at _ _ _ root_ok En) as Ht. pose proof (descents_names _ _ _ Ht Hi) as Hy.
        split; cbn [path_of names_of loc_of fst snd option_map]; [|apply Forall_app; split; assumption].
        rewrite (dwalk_put d ys Hy), Hd. apply (walk_down loc n ys En).
        apply descents_spec in Hi; [exact (proj1 (proj2 Hi))|exact Ht|]. pose proof (height_at _ _ _ En). unfold top. lia.
  Qed.
  Lemma results_good rec b rcs : Forall (comp_ok rec) rcs -> Forall good (results b rcs).
  Proof.
    induction rcs as [|c rcs IH]; intros H; [repeat constructor|]. apply Forall_cons_iff in H. destruct H as [Hc H].
    apply Forall_forall. intros r Hr. apply in_flat_map in Hr. destruct Hr as (r0 & H0 & Hr).
    pose proof (proj1 (Forall_forall _ _) (IH H) r0 H0) as Hg. pose proof (extend_good rec c r0 Hc Hg) as He.
    exact (proj1 (Forall_forall _ _) He r Hr).
  Qed.
End World.
