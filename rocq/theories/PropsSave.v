(** C22 and C23: saving the pickle database, and databases of other versions. *)
From Coq Require Import List Bool Arith Lia.
From Verif Require Import SaveModel.
Import ListNotations.

Section Facts.
  Context {T : Type} (empty : T) (pickle : nat -> T -> list nat) (unpickle : nat -> list nat -> unpickled T).

  Lemma do_app f l1 l2 : do_ops f (l1 ++ l2) = do_ops (do_ops f l1) l2.
  Proof. apply fold_left_app. Qed.
  Lemma do_writes s : forall p l o, do_ops (Files p (Some l) o) (map Write s) = Files p (Some (l ++ s)) o.
  Proof.
    induction s as [|b s IH]; intros p l o; [cbn; rewrite app_nil_r; reflexivity|].
    change (do_ops (Files p (Some (l ++ [b])) o) (map Write s) = Files p (Some (l ++ b :: s)) o). rewrite IH, <- app_assoc. reflexivity.
  Qed.
  (** The state after any number of operations of saving. *)
  Lemma save_prefix f s k :
    let f' := do_ops f (firstn k (save_ops s)) in
    k = 0 /\ f' = f \/
    1 <= k <= length s + 1 /\ f' = Files (f_path f) (Some (firstn (k - 1) s)) (f_old f) \/
    k = length s + 2 /\ f' = do_op (Files (f_path f) (Some s) (f_old f)) MoveOld \/
    k = length s + 3 /\ f' = Files (Some s) None (match f_path f with Some l => Some l | None => f_old f end) \/
    length s + 4 <= k /\ f' = Files (Some s) None None.
  Proof.
    cbn zeta. unfold save_ops. destruct k as [|k]; [left; auto|right]. cbn [firstn do_ops fold_left]. fold (do_ops (do_op f Open) (firstn k (map Write s ++ [MoveOld; MoveNew; DropOld]))).
    rewrite firstn_app, map_length, firstn_map, do_app. cbn [do_op]. rewrite do_writes. cbn [app].
    destruct (Nat.le_gt_cases k (length s)) as [Hle|Hgt].
    - left. split; [lia|]. replace (k - length s) with 0 by lia. cbn. replace (k - 0) with k by lia. reflexivity.
    - right. rewrite firstn_all2 by lia. destruct (k - length s) as [|[|[|j]]] eqn:Ek; [lia| | |].
      + left. split; [lia|]. reflexivity.
      + right. left. split; [lia|]. cbn. destruct (f_path f); reflexivity.
      + right. right. split; [lia|]. replace (firstn (S (S (S j))) [MoveOld; MoveNew; DropOld]) with [MoveOld; MoveNew; DropOld] by (cbn; destruct j; reflexivity).
        cbn. destruct (f_path f); reflexivity.
  Qed.
  Lemma save_all f s : do_ops f (save_ops s) = Files (Some s) None None.
  Proof.
    pose proof (save_prefix f s (length s + 4)) as H. cbn zeta in H. rewrite firstn_all2 in H.
    - destruct H as [H|[H|[H|[H|H]]]]; destruct H as [H1 H2]; try lia. exact H2.
    - unfold save_ops. cbn. rewrite app_length, map_length. cbn. lia.
  Qed.
End Facts.

(** ** C22: the process may die at any point of saving *)

(** pickle and unpickle fit: a program loads what a program of its version has written, and
    recognises the version of what another version has written. *)
Definition fits {T} (pickle : nat -> T -> list nat) (unpickle : nat -> list nat -> unpickled T) : Prop :=
  forall v v' t, unpickle v (pickle v' t) = Loaded v' t.

(** A database with tables [t0] has been saved; a program saves [t1] and dies after [k]
    file-system operations.  The next start of the program loads [t0] or [t1]. *)
Definition C22_claim : Prop := forall T (empty : T) pickle unpickle v f t0 t1 k, fits pickle unpickle ->
  f_path f = Some (pickle v t0) ->
  let f' := do_ops f (firstn k (save_ops (pickle v t1))) in
  load empty unpickle v f' = Loaded v t0 \/ load empty unpickle v f' = Loaded v t1.

Definition ex_pickle (v t : nat) : list nat := [v; t].
Definition ex_unpickle (v : nat) (s : list nat) : unpickled nat := match s with [v'; t] => Loaded v' t | _ => Fails end.
Lemma ex_fits : fits ex_pickle ex_unpickle.
Proof. intros v v' t. reflexivity. Qed.
(** Between the two renames there is no database, and the program starts with an empty one. *)
Theorem C22_refuted : ~ C22_claim.
Proof.
  intros H. destruct (H nat 0 ex_pickle ex_unpickle 2 (Files (Some (ex_pickle 2 5)) None None) 5 6 4 ex_fits eq_refl) as [E|E]; discriminate E.
Qed.

(** At every other point the old or the new database is loaded; between the renames both are
    still there, complete, under the names of the old and of the temporary file. *)
Theorem C22_partial T (empty : T) pickle unpickle v f t0 t1 k : fits pickle unpickle ->
  f_path f = Some (pickle v t0) ->
  let f' := do_ops f (firstn k (save_ops (pickle v t1))) in
  (load empty unpickle v f' = Loaded v t0 /\ k <= length (pickle v t1) + 1) \/
  (load empty unpickle v f' = Loaded v t1 /\ length (pickle v t1) + 3 <= k) \/
  (k = length (pickle v t1) + 2 /\ f' = Files None (Some (pickle v t1)) (Some (pickle v t0))).
Proof.
  intros Hf Hp f'. assert (forall f2 v2 t2, f_path f2 = Some (pickle v2 t2) -> load empty unpickle v f2 = Loaded v2 t2) as Hl.
  { intros f2 v2 t2 E. unfold load. rewrite E, (Hf v v2 t2). reflexivity. }
  destruct (save_prefix f (pickle v t1) k) as [[H1 H2]|[[H1 H2]|[[H1 H2]|[[H1 H2]|[H1 H2]]]]]; fold f' in H2.
  - left. split; [apply Hl; rewrite H2; exact Hp|lia].
  - left. split; [apply Hl; rewrite H2; exact Hp|lia].
  - right. right. split; [exact H1|]. rewrite H2. cbn. rewrite Hp. reflexivity.
  - right. left. split; [apply Hl; rewrite H2; reflexivity|lia].
  - right. left. split; [apply Hl; rewrite H2; reflexivity|lia].
Qed.
(** When there is no database yet, saving is safe at every point. *)
Theorem C22_first T (empty : T) pickle unpickle v f t1 k : fits pickle unpickle -> f_path f = None ->
  let f' := do_ops f (firstn k (save_ops (pickle v t1))) in
  load empty unpickle v f' = Loaded v empty \/ load empty unpickle v f' = Loaded v t1.
Proof.
  intros Hf Hp f'. destruct (save_prefix f (pickle v t1) k) as [[H1 H2]|[[H1 H2]|[[H1 H2]|[[H1 H2]|[H1 H2]]]]]; fold f' in H2; rewrite H2; unfold load; cbn; rewrite ?Hp, ?Hf; cbn; rewrite ?Hf; auto.
Qed.
(** A completed save leaves the new database and no other file, whatever an earlier crash left
    behind. *)
Theorem C22_complete T (pickle : nat -> T -> list nat) f v t : do_ops f (save_ops (pickle v t)) = Files (Some (pickle v t)) None None.
Proof. apply save_all. Qed.

(** Over any history of runs, deaths and versions, what is loaded has been handed to a save
    as a whole (never a part of one), or is the empty database. *)
Definition tables_of {T} (e : event T) : list T := match e with Run _ t _ => [t] | _ => [] end.
Section History.
  Context {T : Type} (empty : T) (pickle : nat -> T -> list nat) (unpickle : nat -> list nat -> unpickled T) (Hf : fits pickle unpickle).
  Definition whole (P : nat -> T -> Prop) (f : files) : Prop := forall s, f_path f = Some s -> exists v t, s = pickle v t /\ P v t.

  Lemma load_whole P v f : whole P f -> exists v' t, load empty unpickle v f = Loaded v' t /\ (f_path f = None /\ v' = v /\ t = empty \/ f_path f <> None /\ P v' t).
  Proof.
    intros H. unfold load. destruct (f_path f) as [s|] eqn:E; [|eauto 10]. destruct (H s E) as (v' & t & -> & Hp). rewrite (Hf v v' t).
    exists v', t. split; [reflexivity|]. right. split; [discriminate|exact Hp].
  Qed.
  Lemma save_whole (P : nat -> T -> Prop) f v t k : whole P f -> P v t -> whole P (do_ops f (firstn k (save_ops (pickle v t)))).
  Proof.
    intros H Hp s Hs. destruct (save_prefix f (pickle v t) k) as [[H1 H2]|[[H1 H2]|[[H1 H2]|[[H1 H2]|[H1 H2]]]]]; rewrite H2 in Hs; cbn in Hs.
    - exact (H s Hs).
    - exact (H s Hs).
    - destruct (f_path f) eqn:E; [discriminate|]. cbn in Hs. exact (H s ltac:(congruence)).
    - injection Hs as <-. eauto.
    - injection Hs as <-. eauto.
  Qed.
  Lemma firstn_more {X} k (l1 l2 : list X) : k <= length l1 -> firstn k (l1 ++ l2) = firstn k l1.
  Proof. intros H. rewrite firstn_app. replace (k - length l1) with 0 by lia. cbn. apply app_nil_r. Qed.
  (** Connecting does nothing, or saves under this version what was there and removes it. *)
  Lemma connect_cases P v f : whole P f ->
    (connect_ops empty pickle unpickle v f = [] /\ exists t, connect empty pickle unpickle v f = (f, Some t) /\ (t = empty \/ P v t)) \/
    (exists v' t, v' <> v /\ P v' t /\ connect_ops empty pickle unpickle v f = save_ops (pickle v t) ++ [Remove] /\ connect empty pickle unpickle v f = (Files None None None, Some empty)).
  Proof.
    intros H. destruct (load_whole P v f H) as (v' & t & El & Hor). unfold connect, connect_ops. rewrite El. destruct (Nat.eqb_spec v' v) as [->|Hne].
    - left. split; [reflexivity|]. exists t. split; [reflexivity|]. destruct Hor as [(_ & _ & ->)|[_ Hp]]; auto.
    - right. destruct Hor as [(_ & -> & _)|[_ Hp]]; [congruence|]. exists v', t. split; [exact Hne|]. split; [exact Hp|]. split; [reflexivity|].
      rewrite do_app, save_all. reflexivity.
  Qed.
  Lemma connecting_whole (P : nat -> T -> Prop) v f k : (forall v' t, P v' t -> P v t) -> whole P f -> whole P (do_ops f (firstn k (connect_ops empty pickle unpickle v f))).
  Proof.
    intros Hv H. destruct (connect_cases P v f H) as [[-> _]|(v' & t & _ & Hp & -> & _)]; [rewrite firstn_nil; exact H|].
    destruct (Nat.le_gt_cases k (length (save_ops (pickle v t)))) as [Hle|Hgt].
    - rewrite firstn_more by exact Hle. exact (save_whole P f v t k H (Hv _ _ Hp)).
    - rewrite firstn_all2 by (rewrite app_length; cbn [length]; lia). rewrite do_app, save_all. cbn. intros s Hs. discriminate.
  Qed.
  Lemma happen_whole (P : nat -> T -> Prop) f e : (match e with DieConnecting v _ => forall v' t, P v' t -> P v t | Run v t _ => P v t | _ => True end) ->
    whole P f -> whole P (happen empty pickle unpickle f e).
  Proof.
    intros He H. destruct e as [v t c|v|v k]; cbn [happen].
    - destruct (connect_cases P v f H) as [(_ & t' & -> & _)|(v' & t' & _ & _ & _ & ->)].
      + destruct c as [k|]; [exact (save_whole P f v t k H He)|]. rewrite save_all. intros s [= <-]. eauto.
      + destruct c as [k|]; [|rewrite save_all; intros s [= <-]; eauto]. apply save_whole; [|exact He]. intros s Hs. discriminate.
    - destruct (connect_cases P v f H) as [(_ & t' & -> & _)|(v' & t' & _ & _ & _ & ->)]; [exact H|]. intros s Hs. discriminate.
    - exact (connecting_whole P v f k He H).
  Qed.
  Lemma history_whole (P : nat -> T -> Prop) l : (forall e, In e l -> match e with DieConnecting v _ => forall v' t, P v' t -> P v t | Run v t _ => P v t | _ => True end) ->
    whole P (history empty pickle unpickle l).
  Proof.
    unfold history. assert (forall f, whole P f -> (forall e, In e l -> match e with DieConnecting v _ => forall v' t, P v' t -> P v t | Run v t _ => P v t | _ => True end) ->
      whole P (fold_left (happen empty pickle unpickle) l f)) as Hg.
    { induction l as [|e l IH]; intros f Hw Hl; [exact Hw|]. apply IH; [|intros e' He'; apply Hl; right; exact He'].
      apply happen_whole; [apply Hl; left; reflexivity|exact Hw]. }
    intros Hl. apply Hg; [|exact Hl]. intros s Hs. discriminate.
  Qed.
End History.

Theorem C22_history T (empty : T) pickle unpickle l v : fits pickle unpickle ->
  exists t, snd (connect empty pickle unpickle v (history empty pickle unpickle l)) = Some t /\ (t = empty \/ exists v' c, In (Run v' t c) l).
Proof.
  intros Hf. set (P := fun (v : nat) t => exists v' c, In (Run v' t c) l).
  assert (whole pickle P (history empty pickle unpickle l)) as Hw.
  { apply history_whole; [exact Hf|]. intros [v1 t1 c1|v1|v1 k1] He; [exists v1, c1; exact He|exact I|intros v' t Ht; exact Ht]. }
  destruct (connect_cases empty pickle unpickle Hf P v _ Hw) as [(_ & t & -> & Hor)|(v' & t & _ & _ & _ & ->)]; cbn; eauto.
Qed.
Example C22_ex : exists l, history 0 ex_pickle ex_unpickle l = Files None (Some (ex_pickle 2 6)) (Some (ex_pickle 2 5)) /\ l = [Run 2 5 None; Run 2 6 (Some 4)].
Proof. eexists. split; [|reflexivity]. reflexivity. Qed.

(** ** C23: other versions *)

(** Whatever a program of version [v] loads was saved by a program of that version. *)
Definition C23_claim : Prop := forall T (empty : T) pickle unpickle l v t, fits pickle unpickle ->
  snd (connect empty pickle unpickle v (history empty pickle unpickle l)) = Some t -> t = empty \/ exists c, In (Run v t c) l.
(** Upgrading saves the old tables under the new version before it removes them. *)
Theorem C23_refuted : ~ C23_claim.
Proof.
  intros H. destruct (H nat 0 ex_pickle ex_unpickle [Run 1 5 None; DieConnecting 2 5] 2 5 ex_fits eq_refl) as [E|[c E]]; [discriminate E|].
  destruct E as [E|[E|[]]]; discriminate E.
Qed.
(** It holds when no program dies while connecting, at whatever other points programs die. *)
Theorem C23_partial T (empty : T) pickle unpickle l v t : fits pickle unpickle -> (forall v k, ~ In (DieConnecting v k) l) ->
  snd (connect empty pickle unpickle v (history empty pickle unpickle l)) = Some t -> t = empty \/ exists c, In (Run v t c) l.
Proof.
  intros Hf Hn. set (P := fun v t => exists c, In (Run v t c) l).
  assert (whole pickle P (history empty pickle unpickle l)) as Hw.
  { apply history_whole; [exact Hf|]. intros [v1 t1 c1|v1|v1 k1] He; [exists c1; exact He|exact I|destruct (Hn _ _ He)]. }
  destruct (connect_cases empty pickle unpickle Hf P v _ Hw) as [(_ & t' & -> & Hor)|(v' & t' & _ & _ & _ & ->)]; cbn; intros E; injection E as <-; auto.
Qed.
(** While upgrading only the tables being upgraded can come back, and only when the program
    dies between the second rename and the removal. *)
Theorem C23_window T (empty : T) pickle unpickle v v' f t k : fits pickle unpickle -> v' <> v -> f_path f = Some (pickle v' t) ->
  let r := snd (connect empty pickle unpickle v (do_ops f (firstn k (connect_ops empty pickle unpickle v f)))) in
  r = Some empty \/ r = Some t /\ length (pickle v t) + 3 <= k <= length (pickle v t) + 4.
Proof.
  intros Hf Hne Hp r.
  assert (connect_ops empty pickle unpickle v f = save_ops (pickle v t) ++ [Remove]) as Ho.
  { unfold connect_ops, load. rewrite Hp, (Hf v v' t). destruct (Nat.eqb_spec v' v); [contradiction|reflexivity]. }
  assert (forall f2, f_path f2 = Some (pickle v' t) -> snd (connect empty pickle unpickle v f2) = Some empty) as Hold.
  { intros f2 E. unfold connect, connect_ops, load. rewrite E, (Hf v v' t). destruct (Nat.eqb_spec v' v); [contradiction|]. cbn [snd]. rewrite do_app, save_all. reflexivity. }
  assert (forall f2, f_path f2 = None -> snd (connect empty pickle unpickle v f2) = Some empty) as Hnone.
  { intros f2 E. unfold connect, connect_ops, load. rewrite E. rewrite Nat.eqb_refl. reflexivity. }
  subst r. rewrite Ho.
  assert (length (save_ops (pickle v t)) = length (pickle v t) + 4) as Hlen by (unfold save_ops; cbn; rewrite app_length, map_length; cbn; lia).
  destruct (Nat.le_gt_cases k (length (save_ops (pickle v t)))) as [Hle|Hgt].
  - rewrite firstn_more by exact Hle. destruct (save_prefix f (pickle v t) k) as [[H1 H2]|[[H1 H2]|[[H1 H2]|[[H1 H2]|[H1 H2]]]]]; rewrite H2.
    + left. apply Hold. exact Hp.
    + left. apply Hold. exact Hp.
    + left. apply Hnone. cbn. rewrite Hp. reflexivity.
    + right. split; [|lia]. unfold connect, load. cbn. rewrite (Hf v v t), Nat.eqb_refl. reflexivity.
    + right. split; [|lia]. unfold connect, load. cbn. rewrite (Hf v v t), Nat.eqb_refl. reflexivity.
  - left. rewrite firstn_all2 by (rewrite app_length; cbn [length]; lia). rewrite do_app, save_all. apply Hnone. reflexivity.
Qed.
Example C23_ex : snd (connect 0 ex_pickle ex_unpickle 2 (history 0 ex_pickle ex_unpickle [Run 1 5 None; Run 2 6 (Some 4); Run 2 7 (Some 5)])) = Some 7.
Proof. reflexivity. Qed.

Print Assumptions C22_refuted.
Print Assumptions C22_partial.
Print Assumptions C22_first.
Print Assumptions C22_complete.
Print Assumptions C22_history.
Print Assumptions C23_refuted.
Print Assumptions C23_partial.
Print Assumptions C23_window.
