(** C19, C20 and C21, and C17 for the SQLite backend. *)
From stdpp Require Import base list strings gmap.
From Coq Require Import ZArith.
From Verif Require Import PyMonad DbModel DbSpec DbClaims SqlBackend SqlSpec SqlEncode DbRefute SqlRefute SqlStep SqlChange.
Local Open Scope string_scope.
Local Open Scope list_scope.

(** C19: SQLite backend: a hit implies declared sources and function unchanged, in every
    history of one thread. *)
Definition C19_claim : Prop :=
  forall V R (veq : V -> V -> bool) md5 t, equivalence_test veq ->
  hits_justified (R := R) veq md5 (fun _ os => Forall (on_thread t) os).
Theorem C19_refuted : ~ C19_claim.
Proof. intros H. exact (rolled_refuted (H _ _ _ _ 0 string_equivalence)). Qed.

(** For any number of threads, when calls end with an error only while no other cached function
    runs, so that a rollback finds nobody holding ids of uncommitted rows. *)
Theorem C19_partial {V R} (veq : V -> V -> bool) md5 : equivalence_test veq ->
  hits_justified (R := R) veq md5 (errors_alone md5 (sql_backend veq md5)).
Proof. exact (hits_justified_alone veq md5). Qed.
(** Two threads, a nested call, an edit, a failed recording, a rollback and a crash, and still a hit. *)
Definition alone_ex : list (op string string) :=
  [OWrite "s" "old" 1; OBegin 0 (call_src "f" "x" ["s"]); OBegin 1 (call "h" "y"); OEnd 1 "H"; OEnd 0 "F(old)";
   OSave; OWrite "s" "new" 3; OBegin 0 (call_src "f" "x" ["s"]); OEnd 0 "F(new)";
   OBegin 0 (call "g" "y"); OAddExt 0 ["tmp"] [] false; OEnd 0 "G"; ORestart funs1].
Fixpoint alone_check (s : sys string string (conn string string) nat nat nat) (os : list (op string string)) : bool :=
  match os with
  | [] => true
  | o :: os' =>
      let '(s', r) := step ident qbk s o in
      match o, r with
      | OEnd _ _, RErr _ => forallb (fun tf : nat * list _ => match tf.2 with [] => true | _ => false end) (map_to_list (s_threads s'))
      | _, _ => true
      end && alone_check s' os'
  end.
Lemma alone_check_sound s os : alone_check s os = true -> errors_alone ident qbk s os.
Proof.
  revert s. induction os as [|o os IH]; intros s H a t r x b Heq; [by destruct a|].
  cbn [alone_check] in H. destruct (step ident qbk s o) as [s' res] eqn:Es. apply andb_true_iff in H as [H1 H2].
  destruct a as [|o' a]; injection Heq as -> ->.
  - simpl in Es |- *. rewrite Es. simpl. intros ->. intros t'. unfold thread.
    destruct (s_threads s' !! t') as [frs|] eqn:Et; [|done]. rewrite forallb_forall in H1.
    specialize (H1 (t', frs)). rewrite <- elem_of_list_In, elem_of_map_to_list in H1. specialize (H1 Et).
    simpl in H1. by destruct frs.
  - intros Hx. cbn [runs app] in *. rewrite Es in *. cbn [fst] in *. by apply (IH s' H2 a t r x b).
Qed.
Example C19_ex :
  fresh conn_empty (qstart 100) /\ history_ok ident qbk (fun _ m => if decide (m = 1)%Z then "old" else "new") (qstart 100) alone_ex /\
  errors_alone ident qbk (qstart 100) alone_ex /\
  snd (step ident qbk (runs ident qbk (qstart 100) alone_ex) (OBegin 0 (call_src "f" "x" ["s"]))) = RHit "F(new)" ["s"] [] /\
  exists s, snd (step ident qbk (runs ident qbk (qstart 100) (take 11 alone_ex)) (OEnd 0 "G")) = RErr s.
Proof.
  split; [done|]. split; [apply q_ok_check_sound; by vm_compute|].
  split; [apply alone_check_sound; by vm_compute|]. split; [by vm_compute|]. exists OSErr. by vm_compute.
Qed.

(** C20: SQLite backend: a call whose external source changed runs again. *)
Definition C20_claim : Prop :=
  forall V R (veq : V -> V -> bool) md5, equivalence_test veq ->
  external_change_detected (R := R) veq md5 (fun _ _ _ c rq _ => not_called (rq_fun rq) c).
Lemma detected_weaken {V R} (veq : V -> V -> bool) md5 (P Q : _ -> _ -> _ -> _ -> _ -> _ -> Prop) :
  (forall s a b c rq f, Q s a b c rq f -> P s a b c rq f) ->
  external_change_detected (R := R) veq md5 P -> external_change_detected (R := R) veq md5 Q.
Proof.
  intros HPQ H F s0 a t rq b r c f srcs dsts BK H1 H2 H3 H4 H5 s1 H6 H7.
  exact (H F s0 a t rq b r c f srcs dsts H1 H2 H3 H4 H5 H6 (HPQ _ _ _ _ _ _ H7)).
Qed.
Theorem C20_refuted : ~ C20_claim.
Proof.
  intros H. apply shared_header_refuted. eapply detected_weaken; [|exact (H _ _ _ _ string_equivalence)].
  by intros ?????? [].
Qed.
(** Neither does the file have to be known to another call, *)
Theorem C20_refuted_other : ~ C20_claim.
Proof.
  intros H. apply other_header_refuted. eapply detected_weaken; [|exact (H _ _ _ _ string_equivalence)].
  by intros ?????? [].
Qed.
(** and a function calling the one that names the file is another call. *)
Theorem C20_refuted_nested : ~ C20_claim.
Proof.
  intros H. apply nested_header_refuted. eapply detected_weaken; [|exact (H _ _ _ _ string_equivalence)].
  by intros ?????? [].
Qed.
(** The call itself, made again but raising, forgets its dependency. *)
Theorem C20_rerun_refuted :
  ~ external_change_detected (R := string) String.eqb ident (fun s0 => failing_again s0).
Proof. exact failed_rerun_refuted. Qed.

(** When the function of the call neither runs before nor is called again in between, calls
    end with an error only while nothing else runs, and the file is left alone by the other
    calls while its contents are not those of the end of the call, the change is noticed. *)
Theorem C20_partial {V R} (veq : V -> V -> bool) md5 : equivalence_test veq ->
  external_change_detected (R := R) veq md5 (seen_by_itself md5 (sql_backend veq md5)).
Proof. exact (change_noticed veq md5). Qed.
(** Another thread reads the header before it changes, another function runs while it changes and
    again afterwards, and the tables are saved. *)
Definition seen_a : list (op string string) := [OWrite "d.h" "old" 1; OBegin 1 (call_src "h" "z" ["d.h"]); OEnd 1 "K"].
Definition seen_b : list (op string string) := [OAddExt 0 ["d.h"] [] false; OBegin 1 (call_src "h" "y" ["d.h"]); OEnd 1 "K"].
Definition seen_c : list (op string string) := [OBegin 1 (call "g" "y"); OWrite "d.h" "new" 3; OEnd 1 "G"; OSave; OBegin 1 (call "g" "y")].
Definition seen_ex : list (op string string) := seen_a ++ OBegin 0 (call "f" "x") :: seen_b ++ OEnd 0 "F" :: seen_c.
Ltac in_list H := repeat (apply elem_of_cons in H as [H|H]; [try discriminate H|]); [..|by apply elem_of_nil in H].
Example C20_ex :
  fresh conn_empty (qstart 100) /\
  history_ok ident qbk (fun _ m => if decide (m = 1)%Z then "old" else "new") (qstart 100) seen_ex /\
  runs_during ident qbk (qstart 100) 0 (call "f" "x") seen_a seen_b /\
  registered ident qbk (qstart 100) (fun xs _ => xs) 0 (call "f" "x") seen_a seen_b "d.h" /\
  seen_by_itself ident qbk (qstart 100) seen_a (OBegin 0 (call "f" "x") :: seen_b ++ [OEnd 0 "F"]) seen_c (call "f" "x") "d.h" /\
  snd (step ident qbk (runs ident qbk (qstart 100) seen_ex) (OBegin 0 (call "f" "x"))) = RRun.
Proof.
  split; [done|]. split; [apply q_ok_check_sound; by vm_compute|].
  split; [split; [split; [by vm_compute|]|by vm_compute]|].
  { intros b1 b2 Hb. assert (b1 = take (length b1) seen_b) as -> by (by rewrite Hb, take_app).
    assert (length b1 <= 3) as Hl by (change 3 with (length seen_b); rewrite Hb, app_length; lia).
    destruct (length b1) as [|[|[|[|n]]]]; [vm_compute; lia..|lia]. }
  split; [exists [], ["d.h"], [], false, [OBegin 1 (call_src "h" "y" ["d.h"]); OEnd 1 "K"]; split; [done|]; split; [by left|by left]|].
  split; [|by vm_compute].
  split; [apply alone_check_sound; by vm_compute|].
  split; [|split; [|split; [|split]]].
  - intros t a1 rq1 b1 Ha _ Hf.
    assert (OBegin t rq1 ∈ seen_a) as Hin by (rewrite Ha; apply elem_of_app; right; by left).
    in_list Hin. by injection Hin as -> ->.
  - intros t rq1 Hin. in_list Hin. by injection Hin as -> ->.
  - intros t rq1 Hin. in_list Hin; by injection Hin as -> ->.
  - intros Hin. in_list Hin.
  - assert (forall t xs xd o c1 c2, seen_c = c1 ++ c2 ->
      OAddExt t xs xd o ∈ seen_a ++ (OBegin 0 (call "f" "x") :: seen_b ++ [OEnd 0 "F"]) ++ c1 -> t = 0) as Hadd.
    { intros t xs xd o c1 c2 Hc Hin.
      assert (OAddExt t xs xd o ∈ seen_a ++ (OBegin 0 (call "f" "x") :: seen_b ++ [OEnd 0 "F"]) ++ seen_c) as Hin'.
      { rewrite Hc, !app_assoc. apply elem_of_app. left. by rewrite <- app_assoc. }
      in_list Hin'. by injection Hin'. }
    assert (forall t rq c1 c2, seen_c = c1 ++ c2 -> rq_fun rq = "g" ->
      OBegin t rq ∈ seen_a ++ (OBegin 0 (call "f" "x") :: seen_b ++ [OEnd 0 "F"]) ++ c1 -> t = 1) as Hg.
    { intros t rq c1 c2 Hc Hfn Hin.
      assert (OBegin t rq ∈ seen_a ++ (OBegin 0 (call "f" "x") :: seen_b ++ [OEnd 0 "F"]) ++ seen_c) as Hin'.
      { rewrite Hc, !app_assoc. apply elem_of_app. left. by rewrite <- app_assoc. }
      in_list Hin'; injection Hin' as -> ->; done. }
    intros c1 o c2 Hc.
    assert (forall pick a b rq, seen_a ++ (OBegin 0 (call "f" "x") :: seen_b ++ [OEnd 0 "F"]) ++ c1 = a ++ OBegin 1 rq :: b ->
      ~ registered ident qbk (qstart 100) pick 1 rq a b "d.h") as Hreg.
    { intros pick a b rq Heq (b1 & xs & xd & os & b2 & -> & _).
      assert (1 = 0) as H; [|done]. apply (Hadd 1 xs xd os c1 (o :: c2) Hc). rewrite Heq.
      apply elem_of_app. right. right. apply elem_of_app. right. by left. }
    assert (c1 = take (length c1) seen_c) as Hc1 by (by rewrite Hc, take_app).
    assert (seen_c !! length c1 = Some o) as Ho by (by rewrite Hc, list_lookup_middle).
    destruct (length c1) as [|[|[|[|[|n]]]]]; try discriminate Ho; injection Ho as <-; [left|right..].
    + rewrite Hc1. intros d. by vm_compute.
    + exact I.
    + intros a rq b Heq _. split; eapply Hreg; exact Heq.
    + exact I.
    + split; [apply not_elem_of_nil|]. intros ru (t & a & b & c & Heq & _ & _ & _ & _ & _ & Hx & _) Hfn Hin.
      apply Hx in Hin. assert (t = 1) as ->.
      { eapply (Hg t (ru_req ru)); [exact Hc|done|]. rewrite Heq. apply elem_of_app. right. by left. }
      rewrite Heq in Hreg. destruct Hin as (b1 & xs & xd & os & b2 & -> & Hin & _).
      assert (1 = 0) as H; [|done]. eapply (Hadd 1 xs xd os c1); [exact Hc|]. rewrite Heq.
      apply elem_of_app. right. right. apply elem_of_app. left. apply elem_of_app. right. by left.
Qed.

(** C21: function dependency lists survive storage. *)
Definition C21_claim : Prop := forall l, decode (join0 l) = l.
Theorem C21_refuted : ~ C21_claim.
Proof. intros H. discriminate (H [""]). Qed.
Theorem C21_exact l : decode (join0 l) = l <-> l <> [""] /\ forall x, In x l -> ~ has_nul x.
Proof. exact (decode_join l). Qed.
(** Names of Python functions are neither empty nor contain a NUL. *)
Theorem C21_partial l : (forall x, In x l -> x <> "" /\ ~ has_nul x) -> decode (join0 l) = l.
Proof.
  intros H. apply decode_join. split; [|intros x Hx; by apply H].
  intros ->. destruct (H ""); [by left|done].
Qed.
Example C21_ex : decode (join0 ["a.b"; "c"; "d.e.f"]) = ["a.b"; "c"; "d.e.f"].
Proof. done. Qed.
(** Through the tables. *)
Theorem C21_stored {V R} (q : sq V R) fn d deps i q' :
  (forall x, In x deps -> x <> "" /\ ~ has_nul x) ->
  s_save_function None fn d deps q = (inr i, q') ->
  s_find_function fn q' = (inr (Some i, Some d, deps), q').
Proof.
  intros H. unfold s_save_function, s_find_function. destruct (q_funs q !! fn); intros [= <- <-]. simpl.
  rewrite lookup_insert. by rewrite C21_partial.
Qed.

(** C17 for the SQLite backend: no threads are needed; a cached function that calls itself
    cannot be recorded the first time. *)
Theorem C17_sqlite_refuted : ~ no_internal_error ident qbk conn_empty (Forall (on_thread 0)).
Proof. exact recursion_refuted. Qed.

Print Assumptions C19_refuted.
Print Assumptions C19_partial.
Print Assumptions C20_partial.
Print Assumptions C20_refuted.
Print Assumptions C20_refuted_other.
Print Assumptions C20_refuted_nested.
Print Assumptions C20_rerun_refuted.
Print Assumptions C21_refuted.
Print Assumptions C21_exact.
Print Assumptions C21_partial.
Print Assumptions C21_stored.
Print Assumptions C17_sqlite_refuted.
