(** Histories with the SQLite backend that refute claims. *)
From stdpp Require Import base list strings gmap.
From Coq Require Import ZArith Lia.
From Verif Require Import PyMonad DbModel DbSpec DbClaims DbHistory SqlBackend SqlSpec DbRefute.
Local Open Scope string_scope.
Local Open Scope list_scope.

Definition qbk := sql_backend (V := string) (R := string) String.eqb ident.
Notation qsys := (sys string string (conn string string) nat nat nat).
Definition qstart (limit : nat) : qsys := Sys (Env ∅ 0 funs1 limit) conn_empty [] ∅ [].

Lemma qstart_fresh n : fresh conn_empty (qstart n).
Proof. done. Qed.

Ltac qprefixes :=
  match goal with
  | |- forall b1 b2, ?b = b1 ++ b2 -> ?d < depth (runs _ _ ?s (?a ++ ?o :: b1)) ?t =>
      apply (all_prefixes (fun b1 => depth (runs ident qbk s (a ++ o :: b1)) t) d b); by vm_compute
  end.

(** The runs of a concrete history, by computation. *)
Section RanCheck.
  Context (s0 : qsys) (os : list (op string string)) (test : nat -> request string string -> string -> bool).
  Definition at_ (i : nat) : qsys := runs ident qbk s0 (take i os).
  Definition check_pair (i j : nat) : bool :=
    match os !! i, os !! j with
    | Some (OBegin t rq), Some (OEnd t' r) =>
        if (Nat.eqb t t' && Nat.ltb i j && Nat.eqb (depth (at_ j) t) (S (depth (at_ i) t)) &&
            forallb (fun k => Nat.ltb (depth (at_ i) t) (depth (at_ (S i + k)) t)) (seq 0 (j - i)))%bool
        then test i rq r else true
    | _, _ => true
    end.
  Lemma ran_check :
    forallb (fun i => forallb (check_pair i) (seq 0 (length os))) (seq 0 (length os)) = true ->
    forall ru, ran ident qbk s0 os ru ->
    exists i, test i (ru_req ru) (ru_result ru) = true /\ ru_begin ru = s_env (at_ i).
  Proof.
    intros Hc ru (t & a & b & c & Hos & Hsr & Hd & Hb & _).
    set (i := length a). set (j := S (i + length b)).
    assert (os !! i = Some (OBegin t (ru_req ru))) as Hi.
    { rewrite Hos. unfold i. by rewrite list_lookup_middle. }
    assert (os !! j = Some (OEnd t (ru_result ru))) as Hj.
    { rewrite Hos. unfold j, i. rewrite lookup_app_r by lia. replace (S (length a + length b) - length a) with (S (length b)) by lia.
      simpl. by rewrite list_lookup_middle. }
    assert (take i os = a) as Hti by (rewrite Hos; unfold i; by rewrite take_app).
    assert (forall k, k <= length b -> take (S i + k) os = a ++ OBegin t (ru_req ru) :: take k b) as Htk.
    { intros k Hk. rewrite Hos. unfold i. rewrite take_app_ge by lia. replace (S (length a) + k - length a) with (S k) by lia.
      simpl. by rewrite take_app_le. }
    exists i. split; [|unfold at_; by rewrite Hti].
    rewrite forallb_forall in Hc. specialize (Hc i). rewrite forallb_forall in Hc.
    assert (In i (seq 0 (length os))) as Hin1 by (apply in_seq; apply lookup_lt_Some in Hi; lia).
    assert (In j (seq 0 (length os))) as Hin2 by (apply in_seq; apply lookup_lt_Some in Hj; lia).
    specialize (Hc Hin1 j Hin2). unfold check_pair in Hc. rewrite Hi, Hj, Nat.eqb_refl in Hc.
    assert (take j os = a ++ OBegin t (ru_req ru) :: b) as Htj.
    { unfold j. change (S (i + length b)) with (S i + length b). rewrite Htk by lia. by rewrite firstn_all. }
    unfold at_ in Hc. rewrite Hti, Htj, Hd, Nat.eqb_refl in Hc.
    replace (Nat.ltb i j) with true in Hc by (symmetry; apply Nat.ltb_lt; unfold j; lia). simpl in Hc.
    replace (forallb _ _) with true in Hc; [done|]. symmetry. apply forallb_forall. intros k Hk%in_seq.
    apply Nat.ltb_lt. assert (k <= length b) as Hkb by (unfold j in Hk; lia).
    change (S (i + k)) with (S i + k). rewrite Htk by done.
    destruct Hsr as [_ Hsr]. apply (Hsr (take k b) (drop k b)). by rewrite take_drop.
  Qed.
End RanCheck.

(** f has source s.  s is changed, f runs again, and calls g, whose recording fails (f handles the
    error): this rolls back the row of s made for f.  Then f calls h, whose source gets
    the id of that row.  The record of f now pairs its new result with the old content of s. *)
Definition rolled : list (op string string) :=
  [OWrite "s" "old" 1; OWrite "n" "nnn" 2; OBegin 0 (call_src "f" "x" ["s"]); OEnd 0 "F(old)";
   OWrite "s" "new" 3; OBegin 0 (call_src "f" "x" ["s"]);
     OBegin 0 (call "g" "y"); OAddExt 0 ["tmp"] [] false; OEnd 0 "G";
     OWrite "tmp" "t" 4;
     OBegin 0 (call_src "h" "y" ["n"]); OEnd 0 "H";
   OEnd 0 "F(new)"; OWrite "s" "old" 5].
Lemma rolled_hit : snd (step ident qbk (runs ident qbk (qstart 100) rolled) (OBegin 0 (call_src "f" "x" ["s"]))) =
  RHit "F(new)" ["s"; "tmp"] [].
Proof. by vm_compute. Qed.

Definition rolled_F (f : name) (m : Z) : content :=
  if decide (f = "s") then (if decide (m = 3)%Z then "new" else "old")
  else if decide (f = "n") then "nnn" else if decide (f = "tmp") then "t" else "1".
Definition rolled_D (fn b : name) : list name :=
  if decide (fn = "f") then ["s"] else if decide (fn = "h") then ["n"] else [].

Lemma q_not_in_use (s : qsys) f :
  forallb (fun tf : nat * list _ =>
     forallb (fun fr => negb (bool_decide (f ∈ rq_srcs (fr_req fr)))) tf.2) (map_to_list (s_threads s)) = true ->
  ~ in_use s f.
Proof.
  intros H (t & fr & Hin & Hf). unfold thread in Hin.
  destruct (s_threads s !! t) as [frs|] eqn:E; [|by apply elem_of_nil in Hin].
  rewrite forallb_forall in H. specialize (H (t, frs)).
  rewrite <- elem_of_list_In, elem_of_map_to_list in H. specialize (H E). simpl in H.
  rewrite forallb_forall in H. specialize (H fr). rewrite <- elem_of_list_In in H.
  specialize (H Hin). by rewrite bool_decide_true in H.
Qed.
Definition q_wb_check (F : name -> Z -> content) (s : qsys) (o : op string string) : bool :=
  match o with
  | OWrite f c m => bool_decide (c = F f m) &&
      forallb (fun tf : nat * list _ =>
        forallb (fun fr => negb (bool_decide (f ∈ rq_srcs (fr_req fr)))) tf.2) (map_to_list (s_threads s))
  | ORemove f =>
      forallb (fun tf : nat * list _ =>
        forallb (fun fr => negb (bool_decide (f ∈ rq_srcs (fr_req fr)))) tf.2) (map_to_list (s_threads s))
  | ODelFun _ => false
  | _ => true
  end.
Fixpoint q_ok_check (F : name -> Z -> content) (s : qsys) (os : list (op string string)) : bool :=
  match os with
  | [] => true
  | o :: os' => q_wb_check F s o && q_ok_check F (fst (step ident qbk s o)) os'
  end.
Lemma q_ok_check_sound F s os : q_ok_check F s os = true -> history_ok ident qbk F s os.
Proof.
  revert s. induction os as [|o os IH]; intros s; [done|].
  cbn [q_ok_check]. rewrite andb_true_iff. intros [H1 H2].
  cbn [history_ok]. split; [|split; [|by apply IH]].
  - destruct o; simpl in *; try done. apply andb_true_iff in H1 as [H1 _].
    by apply bool_decide_eq_true in H1.
  - destruct o; cbn [q_wb_check well_behaved] in *; try done.
    + apply andb_true_iff in H1 as [_ H1]. by apply q_not_in_use.
    + by apply q_not_in_use.
Qed.
Lemma q_faithful F n : fs_faithful F (s_env (qstart n)).
Proof. intros f m c. simpl. by rewrite lookup_empty. Qed.
Lemma string_equivalence : equivalence_test String.eqb.
Proof.
  split_and!.
  - apply String.eqb_refl.
  - intros a b H. by rewrite String.eqb_sym.
  - intros a b c H1%String.eqb_eq H2%String.eqb_eq. subst. apply String.eqb_refl.
Qed.
Ltac declared :=
  split; [intros t rq Hin; simpl in Hin; rewrite ?elem_of_cons in Hin;
    repeat (destruct Hin as [Hin|Hin]; [first [discriminate Hin | injection Hin as -> ->; reflexivity]|]);
    by apply elem_of_nil in Hin
  |let E := fresh in intros ? ? ? E; apply String.eqb_eq in E as ->; done].

(** All operations happen in one thread. *)
Definition single (t : nat) {S} (s0 : S) (os : list (op string string)) : Prop := Forall (on_thread t) os.
Lemma rolled_refuted : ~ hits_justified (R := string) String.eqb ident (single 0).
Proof.
  intros H.
  destruct (H rolled_F rolled_D (qstart 100) rolled 0 (call_src "f" "x" ["s"]) "F(new)" ["s"; "tmp"] [])
    as (ru & Hran & Hfun & _ & Hres & _ & Hsrc).
  - done.
  - apply q_faithful.
  - apply q_ok_check_sound. by vm_compute.
  - unfold rolled. declared.
  - by repeat constructor.
  - exact rolled_hit.
  - destruct (ran_check (qstart 100) rolled (fun i rq r =>
      if String.eqb r "F(new)" then bool_decide (digest_at ident (s_env (at_ (qstart 100) rolled i)) "s" = Some "new") else true)
      ltac:(by vm_compute) ru Hran) as (i & Hi & Hb).
    rewrite Hres in Hi. simpl in Hi. apply bool_decide_eq_true in Hi.
    destruct (Hsrc "s") as [_ Hd]; [by left|]. rewrite Hb, Hi in Hd. by vm_compute in Hd.
Qed.

(** Histories of one thread in which the function is not called again. *)
Definition others {S} (s0 : S) (a b c : list (op string string)) (rq : request string string) (f : name) : Prop :=
  Forall (on_thread 0) (a ++ b ++ c) /\ not_called (rq_fun rq) c.
Definition hdr (f : name) (m : Z) : content := if decide (m = 1)%Z then "1" else "2".
Ltac external s0 a rq b r c srcs :=
  let H := fresh in intros H;
  refine (H hdr s0 a 0 rq b r c "x.h" srcs [] (qstart_fresh _) (q_faithful _ _) _ _ _ _ _ _ _ 0 _);
  [apply q_ok_check_sound; by vm_compute
  |split; [split; [by vm_compute|qprefixes]|by vm_compute]
  |
  |by vm_compute
  |
  |eexists; by vm_compute
  |by vm_compute
  |eexists _, _, _; by vm_compute].
(** Two calls share a header; checking the first after an edit forgets the dependency of the second. *)
Lemma shared_header_refuted : ~ external_change_detected (R := string) String.eqb ident (fun s0 => others s0).
Proof.
  external (qstart 100)
    [OWrite "x.h" "1" 1; OBegin 0 (call "f" "x"); OAddExt 0 ["x.h"] [] false; OEnd 0 "F"]
    (call "g" "x") [OAddExt (V := string) (R := string) 0 ["x.h"] [] false] "G"
    [OWrite "x.h" "2" 2; OBegin 0 (call "f" "x"); OAddExt 0 ["x.h"] [] false; OEnd 0 "F"] ["x.h"].
  - eexists [], _, _, _, []. split; [done|]. split; [by left|by left].
  - split; [by repeat constructor|]. unfold not_called. not_in.
Qed.
(** Another call, not made before, names the changed file. *)
Lemma other_header_refuted : ~ external_change_detected (R := string) String.eqb ident (fun s0 => others s0).
Proof.
  external (qstart 100) [OWrite (V := string) (R := string) "x.h" "1" 1]
    (call "f" "x") [OAddExt (V := string) (R := string) 0 ["x.h"] [] false] "F"
    [OWrite "x.h" "2" 2; OBegin 0 (call "g" "x"); OAddExt 0 ["x.h"] [] false; OEnd 0 "G"] ["x.h"].
  - eexists [], _, _, _, []. split; [done|]. split; [by left|by left].
  - split; [by repeat constructor|]. unfold not_called. not_in.
Qed.
(** An outer function calls an inner one, which names the file.  After a change the outer function runs again
    and gets the stored result of the inner one. *)
Lemma nested_header_refuted : ~ external_change_detected (R := string) String.eqb ident (fun s0 => others s0).
Proof.
  external (qstart 100) [OWrite "x.h" "1" 1; OBegin 0 (call "f" "x")]
    (call "g" "x") [OAddExt (V := string) (R := string) 0 ["x.h"] [] false] "G"
    [OEnd 0 "F"; OWrite "x.h" "2" 2; OBegin 0 (call "f" "x")] ["x.h"].
  - eexists [], _, _, _, []. split; [done|]. split; [by left|by left].
  - split; [by repeat constructor|]. unfold not_called. not_in.
Qed.
(** The call itself is made again and raises: its own dependency is forgotten. *)
Definition failing_again {S} (_ : S) (_ _ c : list (op string string)) (_ : request string string) (_ : name) : Prop :=
  c = [OWrite "x.h" "2" 2; OBegin 0 (call "f" "x"); ORaise 0].
Lemma failed_rerun_refuted : ~ external_change_detected (R := string) String.eqb ident (fun s0 => failing_again s0).
Proof.
  external (qstart 100) [OWrite (V := string) (R := string) "x.h" "1" 1]
    (call "f" "x") [OAddExt (V := string) (R := string) 0 ["x.h"] [] false] "F"
    [OWrite "x.h" "2" 2; OBegin 0 (call "f" "x"); ORaise 0] ["x.h"].
  - eexists [], _, _, _, []. split; [done|]. split; [by left|by left].
  - done.
Qed.

(** A function that calls itself cannot be recorded: IntegrityError (UNIQUE fun_name). *)
Definition recursive : list (op string string) := [OBegin 0 (call "f" "2"); OBegin 0 (call "f" "1"); OEnd 0 "F1"].
Lemma recursion_refuted : ~ no_internal_error ident qbk conn_empty (Forall (on_thread 0)).
Proof.
  intros H. assert (internal IntegrityErr = false) as [=].
  apply (H (qstart 100) recursive 0 "F2"); [done|by repeat constructor|by vm_compute].
Qed.
