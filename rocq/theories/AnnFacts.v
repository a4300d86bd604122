(** Proofs about the files of a cached call. *)
From stdpp Require Import base list strings gmap.
From Verif Require Import PyMonad DbModel DbSpec ArgsModel ArgsSpec ArgsFacts IdModel IdSpec AnnModel AnnSpec.
Local Open Scope list_scope.

Section Facts.
  Context {V : Type} (is_none : V -> bool) (elems : V -> option (list V)) (hashable : V -> bool)
    (str : name -> V) (path : bvalue V -> name).
  Notation convert := (convert is_none elems str).
  Notation filenames := (filenames is_none elems hashable str).
  Notation names_file := (names_file is_none elems str path).
  Notation declares := (declares is_none elems str path).
  Notation convertible := (convertible is_none elems hashable str).
  Notation well_annotated := (well_annotated is_none elems hashable str).

  Lemma convert_files a v l f : role_of a = Source \/ role_of a = Target ->
    convert a v = Some l -> f ∈ path <$> l <-> names_file a v f.
  Proof.
    intros Hr H. rewrite elem_of_list_fmap.
    assert (l = [v] -> (exists y, f = path y /\ y ∈ l) <-> f = path v) as Hone.
    { intros ->. split; [by intros (y & -> & ->%elem_of_list_singleton)|]. intros ->. exists v. split; [done|by left]. }
    destruct a; simpl in H; try (by destruct Hr).
    - injection H as <-. by apply Hone.
    - destruct v as [x|xs|m]; simpl.
      + destruct (elems x) as [xs|]; [|done]. injection H as <-. split.
        * intros (y & -> & (z & -> & Hz)%elem_of_list_fmap). by exists xs, z.
        * intros (? & z & [= <-] & Hz & ->). exists (BVal z). split; [done|]. by apply elem_of_list_fmap_1.
      + injection H as <-. split.
        * intros (y & -> & (z & -> & Hz)%elem_of_list_fmap). by exists z.
        * intros (z & Hz & ->). exists (BVal z). split; [done|]. by apply elem_of_list_fmap_1.
      + injection H as <-. split.
        * intros (y & -> & ((k & w) & -> & Hk%elem_of_map_to_list)%elem_of_list_fmap). by exists k.
        * intros (k & [w Hk] & ->). exists (BVal (str k)). split; [done|].
          apply elem_of_list_fmap. exists (k, w). split; [done|]. by apply elem_of_map_to_list.
    - destruct v as [x|xs|m]; simpl; [|injection H as <-; by apply Hone..].
      destruct (is_none x); injection H as <-.
      + split; [by intros (y & _ & ?%elem_of_nil)|by intros [? _]].
      + rewrite Hone by done. split; [done|by intros [_ ?]].
    - injection H as <-. by apply Hone.
    - destruct v as [x|xs|m]; simpl.
      + destruct (elems x) as [xs|]; [|done]. injection H as <-. split.
        * intros (y & -> & (z & -> & Hz)%elem_of_list_fmap). by exists xs, z.
        * intros (? & z & [= <-] & Hz & ->). exists (BVal z). split; [done|]. by apply elem_of_list_fmap_1.
      + injection H as <-. split.
        * intros (y & -> & (z & -> & Hz)%elem_of_list_fmap). by exists z.
        * intros (z & Hz & ->). exists (BVal z). split; [done|]. by apply elem_of_list_fmap_1.
      + injection H as <-. split.
        * intros (y & -> & ((k & w) & -> & Hk%elem_of_map_to_list)%elem_of_list_fmap). by exists k.
        * intros (k & [w Hk] & ->). exists (BVal (str k)). split; [done|].
          apply elem_of_list_fmap. exists (k, w). split; [done|]. by apply elem_of_map_to_list.
    - destruct v as [x|xs|m]; simpl; [|injection H as <-; by apply Hone..].
      destruct (is_none x); injection H as <-.
      + split; [by intros (y & _ & ?%elem_of_nil)|by intros [? _]].
      + rewrite Hone by done. split; [done|by intros [_ ?]].
  Qed.

  Lemma forallb_elem {A} (p : A -> bool) l : forallb p l = true <-> forall x, x ∈ l -> p x = true.
  Proof. rewrite forallb_forall. by setoid_rewrite elem_of_list_In. Qed.

  Lemma convert_ok a v : role_of a = Source \/ role_of a = Target ->
    convertible a v <-> exists l, convert a v = Some l /\ forallb (hash_ok hashable) l = true.
  Proof.
    intros Hr.
    assert (convert a v = Some [v] -> (exists l, convert a v = Some l /\ forallb (hash_ok hashable) l = true) <->
      hash_ok hashable v = true) as Hone.
    { intros ->. split.
      - intros (l & [= <-] & H). simpl in H. by rewrite andb_true_r in H.
      - intros H. eexists. split; [done|]. simpl. by rewrite H. }
    assert (forall xs, forallb (hash_ok hashable) (BVal <$> xs) = true <-> forall y, y ∈ xs -> hashable y = true) as Hl.
    { intros xs. rewrite forallb_elem. split.
      - intros H y Hy. apply (H (BVal y)). by apply elem_of_list_fmap_1.
      - intros H y (z & -> & Hz)%elem_of_list_fmap. by apply H. }
    assert (forall x, elems x = None \/ exists xs, elems x = Some xs) as He.
    { intros x. destruct (elems x); eauto. }
    assert (forall m : gmap name V, forallb (hash_ok hashable) ((fun kv => BVal (str kv.1)) <$> map_to_list m) = true <->
      forall k, is_Some (m !! k) -> hashable (str k) = true) as Hm.
    { intros m. rewrite forallb_elem. split.
      - intros H k [w Hk]. apply (H (BVal (str k))). apply elem_of_list_fmap. exists (k, w). split; [done|].
        by apply elem_of_map_to_list.
      - intros H y ((k & w) & -> & Hk%elem_of_map_to_list)%elem_of_list_fmap. simpl. apply H. by exists w. }
    destruct a; try (by destruct Hr).
    - rewrite Hone by done. destruct v as [x|xs|m]; simpl; [done| |done]. by rewrite forallb_elem.
    - destruct v as [x|xs|m]; simpl.
      + destruct (elems x) as [xs|]; split.
        * intros (? & [= <-] & H). eexists. split; [done|]. by apply Hl.
        * intros (? & [= <-] & H). eexists. split; [done|]. by apply Hl.
        * by intros (? & ? & _).
        * by intros (? & ? & _).
      + rewrite <- Hl. split; [intros H; by eexists|by intros (? & [= <-] & ?)].
      + rewrite <- Hm. split; [intros H; by eexists|by intros (? & [= <-] & ?)].
    - destruct v as [x|xs|m]; simpl.
      + destruct (is_none x); split.
        * intros _. by eexists.
        * intros _. by left.
        * intros [?|H]; [done|]. eexists. split; [done|]. simpl. by rewrite H.
        * intros (? & [= <-] & H). right. simpl in H. by rewrite andb_true_r in H.
      + rewrite <- forallb_elem. split; [intros H; eexists; split; [done|]; simpl; by rewrite H|].
        intros (? & [= <-] & H). simpl in H. by rewrite andb_true_r in H.
      + split; [done|]. by intros (? & [= <-] & ?).
    - rewrite Hone by done. destruct v as [x|xs|m]; simpl; [done| |done]. by rewrite forallb_elem.
    - destruct v as [x|xs|m]; simpl.
      + destruct (elems x) as [xs|]; split.
        * intros (? & [= <-] & H). eexists. split; [done|]. by apply Hl.
        * intros (? & [= <-] & H). eexists. split; [done|]. by apply Hl.
        * by intros (? & ? & _).
        * by intros (? & ? & _).
      + rewrite <- Hl. split; [intros H; by eexists|by intros (? & [= <-] & ?)].
      + rewrite <- Hm. split; [intros H; by eexists|by intros (? & [= <-] & ?)].
    - destruct v as [x|xs|m]; simpl.
      + destruct (is_none x); split.
        * intros _. by eexists.
        * intros _. by left.
        * intros [?|H]; [done|]. eexists. split; [done|]. simpl. by rewrite H.
        * intros (? & [= <-] & H). right. simpl in H. by rewrite andb_true_r in H.
      + rewrite <- forallb_elem. split; [intros H; eexists; split; [done|]; simpl; by rewrite H|].
        intros (? & [= <-] & H). simpl in H. by rewrite andb_true_r in H.
      + split; [done|]. by intros (? & [= <-] & ?).
  Qed.

  Lemma role_kind a : role_of a = kind a.
  Proof. by destruct a. Qed.
  Lemma declares_cons r p a anns b f :
    declares r ((p, a) :: anns) b f <->
    (p <> "return"%string /\ kind a = r /\ exists v, b !! p = Some v /\ names_file a v f) \/ declares r anns b f.
  Proof.
    split.
    - intros (p' & a' & v & [[= -> ->]|Hin]%elem_of_cons & Hp & Hr & Hb & Hf).
      + left. split; [done|]. split; [done|]. by exists v.
      + right. by exists p', a', v.
    - intros [(Hp & Hr & v & Hb & Hf)|(p' & a' & v & Hin & H)].
      + exists p, a, v. split; [by left|]. done.
      + exists p', a', v. split; [by right|]. done.
  Qed.

  (** What _find_call_filenames returns. *)
  Lemma filenames_exact anns b srcs dsts ret srcs' dsts' ret' :
    filenames anns b srcs dsts ret = Some (srcs', dsts', ret') ->
    (forall f, f ∈ path <$> srcs' <-> f ∈ path <$> srcs \/ declares Source anns b f) /\
    (forall f, f ∈ path <$> dsts' <-> f ∈ path <$> dsts \/ declares Target anns b f).
  Proof.
    assert (forall r f, declares r [] b f <-> False) as Hnil.
    { intros r f. split; [|done]. by intros (? & ? & ? & ?%elem_of_nil & _). }
    revert srcs dsts ret. induction anns as [|[p a] anns IH]; intros srcs dsts ret; simpl.
    { intros [= <- <- <-]. split; intros f; rewrite Hnil; tauto. }
    setoid_rewrite declares_cons. destruct (decide (p = "return"%string)) as [Hp|Hp].
    { intros H. apply IH in H as [H1 H2]. split; intros f; [rewrite H1|rewrite H2]; tauto. }
    rewrite role_kind. destruct (kind a) eqn:Hr; [| | |done]; pose proof (eq_trans (role_kind a) Hr) as Hr'.
    - destruct (b !! p) as [v|] eqn:Hb; [|done]. destruct (convert a v) as [l|] eqn:Hc; [|done].
      unfold update. destruct (forallb _ l); [|done]. intros H. apply IH in H as [H1 H2].
      assert (forall f, f ∈ path <$> l <-> names_file a v f) as Hf.
      { intros f. apply convert_files; [left; exact Hr'|done]. }
      split; intros f; [rewrite H1, fmap_app, elem_of_app, Hf|rewrite H2]; split.
      + intros [[?|?]|?]; eauto 10.
      + intros [?|[(_ & _ & ? & [= <-] & ?)|?]]; tauto.
      + tauto.
      + intros [?|[(_ & ? & _)|?]]; [tauto|done|tauto].
    - destruct (b !! p) as [v|] eqn:Hb; [|done]. destruct (convert a v) as [l|] eqn:Hc; [|done].
      unfold update. destruct (forallb _ l); [|done]. intros H. apply IH in H as [H1 H2].
      assert (forall f, f ∈ path <$> l <-> names_file a v f) as Hf.
      { intros f. apply convert_files; [right; exact Hr'|done]. }
      split; intros f; [rewrite H1|rewrite H2, fmap_app, elem_of_app, Hf]; split.
      + tauto.
      + intros [?|[(_ & ? & _)|?]]; [tauto|done|tauto].
      + intros [[?|?]|?]; eauto 10.
      + intros [?|[(_ & _ & ? & [= <-] & ?)|?]]; tauto.
    - intros H. apply IH in H as [H1 H2]. split; intros f; [rewrite H1|rewrite H2].
      + split; [tauto|]. intros [?|[(_ & ? & _)|?]]; [tauto|done|tauto].
      + split; [tauto|]. intros [?|[(_ & ? & _)|?]]; [tauto|done|tauto].
  Qed.

  Lemma well_annotated_cons p a anns b :
    well_annotated ((p, a) :: anns) b <->
    (p <> "return"%string -> match kind a with
       | NoClass => False | Neither => True | _ => exists v, b !! p = Some v /\ convertible a v end) /\
    well_annotated anns b.
  Proof.
    split.
    - intros H. split; [intros Hp; apply (H p a); [by left|done]|]. intros p' a' Hin. apply H. by right.
    - intros [H1 H2] p' a' [[= -> ->]|Hin]%elem_of_cons; [done|by apply H2].
  Qed.

  Lemma filenames_ok anns b srcs dsts ret :
    is_Some (filenames anns b srcs dsts ret) <-> well_annotated anns b.
  Proof.
    revert srcs dsts ret. induction anns as [|[p a] anns IH]; intros srcs dsts ret; simpl.
    { split; [intros _ p a H; by apply elem_of_nil in H|by eexists]. }
    rewrite well_annotated_cons. destruct (decide (p = "return"%string)) as [Hp|Hp].
    { rewrite IH. split; [done|by intros [_ ?]]. }
    rewrite role_kind. destruct (kind a) eqn:Hr; pose proof (eq_trans (role_kind a) Hr) as Hr'.
    - pose proof (fun v => convert_ok a v (or_introl Hr')) as Hok. destruct (b !! p) as [v|] eqn:Hb.
      + destruct (convert a v) as [l|] eqn:Hc.
        * unfold update. destruct (forallb (hash_ok hashable) l) eqn:Hh.
          -- rewrite IH. split; [|by intros [_ ?]]. intros H. split; [|done]. intros _. exists v. split; [done|].
             apply Hok. by exists l.
          -- split; [by intros [? ?]|]. intros [H _]. destruct (H Hp) as (v' & [= <-] & Hv).
             apply Hok in Hv as (l' & Hl' & Hh'). congruence.
        * split; [by intros [? ?]|]. intros [H _]. destruct (H Hp) as (v' & [= <-] & Hv).
          apply Hok in Hv as (l' & Hl' & Hh'). congruence.
      + split; [by intros [? ?]|]. intros [H _]. by destruct (H Hp) as (v' & ? & Hv).
    - pose proof (fun v => convert_ok a v (or_intror Hr')) as Hok. destruct (b !! p) as [v|] eqn:Hb.
      + destruct (convert a v) as [l|] eqn:Hc.
        * unfold update. destruct (forallb (hash_ok hashable) l) eqn:Hh.
          -- rewrite IH. split; [|by intros [_ ?]]. intros H. split; [|done]. intros _. exists v. split; [done|].
             apply Hok. by exists l.
          -- split; [by intros [? ?]|]. intros [H _]. destruct (H Hp) as (v' & [= <-] & Hv).
             apply Hok in Hv as (l' & Hl' & Hh'). congruence.
        * split; [by intros [? ?]|]. intros [H _]. destruct (H Hp) as (v' & [= <-] & Hv).
          apply Hok in Hv as (l' & Hl' & Hh'). congruence.
      + split; [by intros [? ?]|]. intros [H _]. by destruct (H Hp) as (v' & ? & Hv).
    - rewrite IH. split; [done|by intros [_ ?]].
    - split; [by intros [? ?]|]. intros [H _]. by destruct (H Hp).
  Qed.

  (** The annotation of the result. *)
  Lemma filenames_ret anns b srcs dsts ret srcs' dsts' ret' : NoDup anns.*1 ->
    filenames anns b srcs dsts ret = Some (srcs', dsts', ret') ->
    (forall a, ("return"%string, a) ∈ anns -> ret' = Some a) /\
    ((forall a, ("return"%string, a) ∉ anns) -> ret' = ret).
  Proof.
    revert srcs dsts ret. induction anns as [|[p a] anns IH]; intros srcs dsts ret Hnd; simpl.
    { intros [= <- <- <-]. split; [by intros a ?%elem_of_nil|done]. }
    apply NoDup_cons in Hnd as [Hp Hnd]. destruct (decide (p = "return"%string)) as [->|Hne].
    - intros H. destruct (IH _ _ _ Hnd H) as [_ H2]. assert (ret' = Some a) as Hret.
      { apply H2. intros a' Hin. apply Hp. apply elem_of_list_fmap. by exists ("return"%string, a'). }
      split; [|intros Hno; exfalso; apply (Hno a); by left].
      intros a' [[= ->]|Hin]%elem_of_cons; [done|]. exfalso. apply Hp. apply elem_of_list_fmap. by exists ("return"%string, a').
    - assert (forall s d, filenames anns b s d ret = Some (srcs', dsts', ret') ->
        (forall a0, ("return"%string, a0) ∈ (p, a) :: anns -> ret' = Some a0) /\
        ((forall a0, ("return"%string, a0) ∉ (p, a) :: anns) -> ret' = ret)) as Hgo.
      { intros s d H. destruct (IH _ _ _ Hnd H) as [H1 H2]. split.
        - intros a' [[= Hx]|Hin]%elem_of_cons; [congruence|by apply H1].
        - intros Hno. apply H2. intros a' Hin. apply (Hno a'). by right. }
      destruct (role_of a); [| |by apply Hgo|done].
      + destruct (b !! p); [|done]. destruct (convert a _); [|done]. destruct (update _ _ _); [|done]. apply Hgo.
      + destruct (b !! p); [|done]. destruct (convert a _); [|done]. destruct (update _ _ _); [|done]. apply Hgo.
  Qed.
  Lemma result_files_spec ret r f : f ∈ result_files is_none elems str path ret r <->
    exists a, ret = Some a /\ kind a = Target /\ names_file a (BVal r) f.
  Proof.
    unfold result_files. destruct ret as [a|]; [|split; [by intros ?%elem_of_nil|by intros (? & ? & _)]].
    rewrite role_kind. destruct (kind a) eqn:Hk.
    1,3,4: (split; [by intros ?%elem_of_nil|intros (? & [= <-] & ? & _); congruence]).
    pose proof (eq_trans (role_kind a) Hk) as Hr. destruct (convert a (BVal r)) as [l|] eqn:Hc.
    - rewrite (convert_files a (BVal r) l f (or_intror Hr) Hc). split; [eauto|]. by intros (? & [= <-] & _ & ?).
    - split; [by intros ?%elem_of_nil|]. intros (? & [= <-] & _ & Hn). destruct a; simpl in *; try done.
      + destruct (elems r); [done|]. by destruct Hn as (? & ? & ? & _).
      + by destruct (is_none r).
  Qed.
End Facts.
