(** C86: what an answer from the SQLite backend says about the files of the call. *)
From stdpp Require Import base list strings gmap.
From Coq Require Import ZArith Lia.
From Verif Require Import PyMonad DbModel DbSpec DbClaims DbHistory SqlBackend SqlSpec DbRefute SqlRefute CodeSpec PropsDb2 PropsCode
  TargetSpec PropsTarget LatestSpec SqlLatest.
Local Open Scope string_scope.
Local Open Scope list_scope.

Section Props.
  Context {V R : Type} (veq : V -> V -> bool) (md5 : content -> digest).
  Notation BK := (sql_backend (V := V) (R := R) veq md5).
  Notation sys := (sys V R (conn V R) nat nat nat).
  Notation op := (op V R).
  Notation occ := (occ V R).
  Notation step := (step md5 BK).
  Notation runs := (runs md5 BK).

  (** A call answered from the database stands for the last run of an equal call, in whichever thread. *)
  Definition hits_are_latest (ok : sys -> list op -> Prop) : Prop :=
    forall F (s0 : sys) os t rq r srcs dsts,
      fresh conn_empty s0 -> fs_faithful F (s_env s0) -> history_ok md5 BK F s0 os ->
      ok s0 (os ++ [OBegin t rq]) ->
      snd (step (runs s0 os) (OBegin t rq)) = RHit r srcs dsts ->
      hit_latest veq md5 BK s0 os rq r dsts.
  Theorem C86_latest : equivalence_test veq -> hits_are_latest (calm veq md5 BK).
  Proof. intros Hv F s0 os t rq r srcs dsts. exact (hits_latest veq md5 F Hv s0 os t rq r srcs dsts). Qed.

  (** The calls that ran, in any thread, did what [G] says. *)
  Definition all_act_by (G : behaviour (V := V) (R := R)) (s0 : sys) (os : list op) : Prop :=
    forall t oc d, completed md5 BK t s0 os oc -> oc_code md5 BK s0 oc = Some d ->
      let k := says md5 G (s_env (runs s0 (oc_before oc))) (oc_req oc) d in
      oc_result oc = fst k /\
      forall f ct, snd k f = Some ct -> exists m, e_fs (oc_end md5 BK t s0 oc) !! f = Some (m, ct).

  (** Then a call answered from the database gets the result it would get now, and its targets have
      the contents they would get now. *)
  Definition answers_transparent (ok : sys -> list op -> Prop) : Prop :=
    forall F D G (s0 : sys) os t rq r srcs dsts d,
      fresh conn_empty s0 -> fs_faithful F (s_env s0) -> history_ok md5 BK F s0 os ->
      declared_by veq D (os ++ [OBegin t rq]) -> ok s0 (os ++ [OBegin t rq]) ->
      respects veq G -> all_act_by G s0 os ->
      let e := s_env (runs s0 os) in
      snd (step (runs s0 os) (OBegin t rq)) = RHit r srcs dsts -> e_fun e !! rq_fun rq = Some d ->
      r = fst (says md5 G e rq d) /\
      forall f ct, f ∈ dsts -> only_written_in veq md5 BK s0 os rq f -> snd (says md5 G e rq d) f = Some ct ->
        exists m, e_fs e !! f = Some (m, ct).
  Theorem C86_transparent : equivalence_test veq -> answers_transparent (calm veq md5 BK).
  Proof.
    intros Hv F D G s0 os t rq r srcs dsts d Hf Hfs Hh [HD1 HD2] Hcm HG Hact e Hhit Hd.
    destruct (C86_latest Hv F s0 os t rq r srcs dsts Hf Hfs Hh Hcm Hhit)
      as (t' & oc & (rest & Hos & Hrd & _) & Hr & [Hc1 Hc2] & _ & Hcode & Hdecl & _ & Hfiles).
    assert (completed md5 BK t' s0 os oc) as Hcomp.
    { exists rest. split; [|done]. rewrite Hos. unfold oc_upto. by rewrite <- app_assoc. }
    fold e in Hcode. rewrite Hd in Hcode. symmetry in Hcode.
    assert (rq_srcs (oc_req oc) = rq_srcs rq) as Hsrc.
    { rewrite (HD1 t rq), (HD1 t' (oc_req oc)).
      - rewrite Hc1. symmetry. by apply HD2.
      - rewrite Hos. unfold oc_upto. rewrite !elem_of_app, elem_of_cons. tauto.
      - rewrite elem_of_app, elem_of_list_singleton. tauto. }
    assert (says md5 G e rq d = says md5 G (s_env (runs s0 (oc_before oc))) (oc_req oc) d) as Heqv.
    { unfold says. rewrite Hc1, Hsrc, <- (HG _ _ _ _ _ Hc2). f_equal. apply list_fmap_ext. intros i f Hi.
      apply elem_of_list_lookup_2 in Hi. apply Hdecl; [done|by rewrite Hsrc]. }
    destruct (Hact t' oc d Hcomp Hcode) as [Hres Hout]. cbv zeta in Hout. rewrite Heqv. split; [congruence|].
    intros f ct Hin Hw Hk. destruct (Hfiles f Hin) as [_ Hsame]. unfold e. rewrite (Hsame Hw). by apply Hout.
  Qed.
End Props.

(** *** Concrete histories *)
Notation qrun s os := (runs ident qbk s os).
Definition q_during_b (s0 : qsys) (t : nat) (rq : request string string) (a b : list sop) : bool :=
  is_run (snd (step ident qbk (qrun s0 a) (OBegin t rq))) &&
  forallb (fun n => Nat.ltb (depth (qrun s0 a) t) (depth (qrun s0 (a ++ OBegin t rq :: take n b)) t)) (seq 0 (S (length b))) &&
  Nat.eqb (depth (qrun s0 (a ++ OBegin t rq :: b)) t) (S (depth (qrun s0 a) t)).
Lemma q_during_sound s0 t rq a b : runs_during ident qbk s0 t rq a b <-> q_during_b s0 t rq a b = true.
Proof.
  unfold q_during_b. split.
  - intros [[H1 H2] H3]. rewrite H1, H3, Nat.eqb_refl, andb_true_r. apply forallb_forall.
    intros n Hn. apply Nat.ltb_lt. apply (H2 _ (drop n b)). by rewrite take_drop.
  - intros H. apply andb_prop in H as [H H3]. apply andb_prop in H as [H1 H2].
    destruct (snd (step ident qbk (qrun s0 a) (OBegin t rq))) eqn:E; try done. apply Nat.eqb_eq in H3.
    split; [|exact H3]. split; [exact E|]. intros b1 b2 Hb. rewrite forallb_forall in H2.
    assert (b1 = take (length b1) b) as Hb1 by (by rewrite Hb, take_app).
    rewrite Hb1. apply Nat.ltb_lt, H2. apply in_seq. rewrite Hb, app_length. lia.
Qed.
(** The calls that ran and returned, with their threads. *)
Definition q_occs (s0 : qsys) (os : list sop) : list (nat * occ string string) :=
  splits os ≫= fun ac => match ac.2 with
    | OBegin t rq :: c => splits c ≫= fun bd => match bd.2 with
        | OEnd t' r :: _ => if Nat.eqb t t' && q_during_b s0 t rq ac.1 bd.1 then [(t, Occ ac.1 rq bd.1 r)] else []
        | _ => []
        end
    | _ => []
    end.
Lemma q_occs_sound s0 os t oc : completed ident qbk t s0 os oc -> (t, oc) ∈ q_occs s0 os.
Proof.
  intros (rest & -> & Hd). unfold q_occs. apply elem_of_list_bind. eexists. split; [|by apply in_splits]. cbn [fst snd].
  apply elem_of_list_bind. eexists. split; [|by apply in_splits]. cbn [fst snd].
  apply q_during_sound in Hd. rewrite Hd, Nat.eqb_refl. destruct oc. by left.
Qed.
Definition same_call (rq rq' : request string string) : bool :=
  String.eqb (rq_fun rq') (rq_fun rq) && String.eqb (rq_bound rq) (rq_bound rq').
Lemma same_call_eq rq rq' : equal_call String.eqb rq rq' <-> same_call rq rq' = true.
Proof. unfold equal_call, same_call. by rewrite andb_true_iff, (String.eqb_eq (rq_fun rq')). Qed.
Definition busy_b (s : qsys) (rq : request string string) : bool :=
  existsb (fun tl : nat * list _ => existsb (fun fr => same_call rq (fr_req fr)) tl.2) (map_to_list (s_threads s)).
Lemma busy_sound s rq : busy String.eqb s rq <-> busy_b s rq = true.
Proof.
  unfold busy, busy_b. rewrite existsb_exists. split.
  - intros (t & fr & Hin & Hf). unfold thread in Hin. destruct (s_threads s !! t) as [l|] eqn:E; [|by apply elem_of_nil in Hin].
    exists (t, l). split; [by apply elem_of_list_In, elem_of_map_to_list|].
    apply existsb_exists. exists fr. split; [by apply elem_of_list_In|]. by apply same_call_eq.
  - intros ([t l] & Hin & Hf). apply elem_of_list_In, elem_of_map_to_list in Hin. apply existsb_exists in Hf as (fr & Hin' & Hf).
    exists t, fr. split; [|by apply same_call_eq]. unfold thread. rewrite Hin. by apply elem_of_list_In.
Qed.
Definition recorded_b (s0 : qsys) (a : list sop) (o : sop) : bool :=
  match o with
  | OEnd t r => match snd (step ident qbk (qrun s0 a) o) with RErr _ => false | _ => true end
  | _ => true
  end.
Definition returns_b (s0 : qsys) (a : list sop) (o : sop) : bool :=
  match o with
  | ORaise t => match thread (qrun s0 a) t with [] => true | _ => false end
  | _ => true
  end.
Definition end_b (s0 : qsys) (a : list sop) (o : sop) : bool :=
  match o with
  | ORestart _ => forallb (fun tl : nat * list _ => match tl.2 with [] => true | _ => false end) (map_to_list (s_threads (qrun s0 a)))
  | _ => true
  end.
Definition apart_b (s0 : qsys) (a : list sop) (o : sop) : bool :=
  match o with OBegin t rq => negb (busy_b (qrun s0 a) rq) | _ => true end.
Lemma recorded_sound s0 os : each (recorded_b s0) os -> recorded ident qbk s0 os.
Proof.
  intros H a t r c x Ho E. pose proof (at_each _ _ H _ _ _ Ho) as P. simpl in P, E. fold qbk in E. by rewrite E in P.
Qed.
Lemma returns_sound s0 os : each (returns_b s0) os -> returns ident qbk s0 os.
Proof.
  intros H a t c Ho. pose proof (at_each _ _ H _ _ _ Ho) as P. simpl in P. fold qbk. by destruct (thread (qrun s0 a) t).
Qed.
Lemma end_sound s0 os : each (end_b s0) os -> ends ident qbk s0 os.
Proof.
  intros H a funs c Ho t. pose proof (at_each _ _ H _ _ _ Ho) as P. simpl in P. fold qbk. unfold thread.
  destruct (s_threads (qrun s0 a) !! t) as [l|] eqn:E; [|done]. rewrite forallb_forall in P.
  specialize (P (t, l) ltac:(by apply elem_of_list_In, elem_of_map_to_list)). simpl in P. by destruct l.
Qed.
Lemma apart_sound s0 os : each (apart_b s0) os -> one_at_a_time String.eqb ident qbk s0 os.
Proof.
  intros H a t rq c Ho Hb. pose proof (at_each _ _ H _ _ _ Ho) as P. simpl in P. apply busy_sound in Hb. fold qbk in Hb. by rewrite Hb in P.
Qed.
Definition written_in_b (s0 : qsys) (rq : request string string) (f : name) (a : list sop) (o : sop) : bool :=
  match o with OWrite g _ _ => negb (String.eqb f g) || busy_b (qrun s0 a) rq | _ => true end.
Lemma written_in_sound s0 rq f os : each (written_in_b s0 rq f) os -> only_written_in String.eqb ident qbk s0 os rq f.
Proof.
  intros H a ct m c Ho. pose proof (at_each _ _ H _ _ _ Ho) as Hb. simpl in Hb. rewrite String.eqb_refl in Hb. simpl in Hb.
  by apply busy_sound.
Qed.

(** f compiles as before, other functions return "H". *)
Definition q_G : behaviour (V := string) (R := string) := fun f d b l =>
  if String.eqb f "f" then cc_G f d b l else ("H", fun _ => None).
Definition q_D (f : name) (_ : string) : list name := if String.eqb f "f" then ["a.c"] else [].
Lemma q_respects : respects String.eqb q_G.
Proof. intros f d b b' l H%String.eqb_eq. by rewrite H. Qed.
Definition q_declared_b (o : sop) : bool :=
  match o with OBegin _ rq => bool_decide (rq_srcs rq = q_D (rq_fun rq) (rq_bound rq)) | _ => true end.
Lemma q_declared os : forallb q_declared_b os = true -> declared_by String.eqb q_D os.
Proof.
  intros H. split; [|done]. intros t rq Hin. rewrite forallb_forall in H. apply elem_of_list_In, H in Hin.
  by apply bool_decide_eq_true in Hin.
Qed.
Definition q_acts_b (s0 : qsys) (toc : nat * occ string string) : bool :=
  let oc := toc.2 in
  if String.eqb (oc_fun oc) "f" then
    String.eqb (oc_result oc) "ok" &&
    match e_fs (oc_end ident qbk toc.1 s0 oc) !! "a.o" with
    | Some (_, ct) => String.eqb ct (cc_out (rq_bound (oc_req oc)) (digest_at ident (s_env (qrun s0 (oc_before oc))) <$> rq_srcs (oc_req oc)))
    | None => false
    end
  else String.eqb (oc_result oc) "H".
Lemma q_acts_sound s0 os : forallb (q_acts_b s0) (q_occs s0 os) = true -> all_act_by String.eqb ident q_G s0 os.
Proof.
  intros H t oc d Hoc _. rewrite forallb_forall in H. apply q_occs_sound, elem_of_list_In, H in Hoc.
  unfold q_acts_b in Hoc. cbn [fst snd] in Hoc. unfold says, q_G. unfold oc_fun in Hoc.
  destruct (String.eqb (rq_fun (oc_req oc)) "f"); cbv zeta; [|by apply String.eqb_eq in Hoc].
  apply andb_prop in Hoc as [H1 H2]. split; [by apply String.eqb_eq in H1|].
  unfold cc_G. cbn [snd]. intros f ct. destruct (String.eqb_spec f "a.o") as [->|]; [|done]. intros [= <-].
  destruct (e_fs (oc_end ident qbk t s0 oc) !! "a.o") as [[m ct']|] eqn:E; [|done]. apply String.eqb_eq in H2. exists m.
  rewrite H2 in E. exact E.
Qed.

(** While thread 1 runs h, thread 0 compiles; in a second process, after an edit, thread 1 compiles
    while thread 0 is inside h; the target is removed, h compiles it again, and thread 2 asks. *)
Definition q_cc (t : nat) (src : string) (m : Z) : list sop :=
  [OBegin t (cc "-O"); OWrite "a.o" ("-O" +:+ src) m; OEnd t "ok"].
Definition two_threads : list sop :=
  OWrite "a.c" "1" 5 :: OBegin 1 (call "h" "y") :: q_cc 0 "1" 6 ++ [OEnd 1 "H"; OSave; ORestart funs1; OWrite "a.c" "2" 7] ++
  OBegin 0 (call "h" "z") :: q_cc 1 "2" 8 ++ [OAddExt 0 ["a.c"] [] false; ORemove "a.o"] ++ q_cc 0 "2" 9 ++ [OEnd 0 "H"].
Example C86_example : let q := OBegin 2 (cc "-O") in
  equivalence_test String.eqb /\ fresh conn_empty (qstart 100) /\ fs_faithful cc_F (s_env (qstart 100)) /\
  history_ok ident qbk cc_F (qstart 100) two_threads /\ declared_by String.eqb q_D (two_threads ++ [q]) /\
  calm String.eqb ident qbk (qstart 100) (two_threads ++ [q]) /\
  respects String.eqb q_G /\ all_act_by String.eqb ident q_G (qstart 100) two_threads /\
  only_written_in String.eqb ident qbk (qstart 100) two_threads (cc "-O") "a.o" /\
  snd (step ident qbk (qrun (qstart 100) two_threads) q) = RHit "ok" ["a.c"] ["a.o"] /\
  e_fs (s_env (qrun (qstart 100) two_threads)) !! "a.o" = Some (9%Z, "-O2").
Proof.
  split; [exact string_equivalence|]. split; [apply qstart_fresh|]. split; [apply q_faithful|].
  split; [apply q_ok_check_sound; by vm_compute|]. split; [apply q_declared; by vm_compute|].
  split.
  { constructor; [apply recorded_sound|apply returns_sound|apply end_sound|apply apart_sound]; by vm_compute. }
  split; [exact q_respects|]. split; [apply q_acts_sound; by vm_compute|].
  split; [apply written_in_sound; by vm_compute|]. split; by vm_compute.
Qed.

(** *** Beyond the claim *)
Lemma stale (ok : qsys -> list sop -> Prop) F os r ct :
  history_ok ident qbk F (qstart 100) os -> declared_by String.eqb q_D (os ++ [OBegin 2 (cc "-O")]) ->
  ok (qstart 100) (os ++ [OBegin 2 (cc "-O")]) -> all_act_by String.eqb ident q_G (qstart 100) os ->
  only_written_in String.eqb ident qbk (qstart 100) os (cc "-O") "a.o" ->
  snd (step ident qbk (qrun (qstart 100) os) (OBegin 2 (cc "-O"))) = RHit r ["a.c"] ["a.o"] ->
  e_fun (s_env (qrun (qstart 100) os)) !! "f" = Some "f1" ->
  digest_at ident (s_env (qrun (qstart 100) os)) "a.c" = Some "1" ->
  digest_at ident (s_env (qrun (qstart 100) os)) "a.o" = Some ct -> ct <> "-O1" ->
  ~ answers_transparent String.eqb ident ok.
Proof.
  intros Hh HD Hok Hact Hw Hhit Hfun Hsrc Hct Hne H.
  destruct (H F q_D q_G (qstart 100) os 2 (cc "-O") r ["a.c"] ["a.o"] "f1" (qstart_fresh _) (q_faithful _ _) Hh HD Hok
    q_respects Hact Hhit Hfun) as [_ Hfile].
  destruct (Hfile "a.o" "-O1") as [m Hm]; [by left|done| |].
  - unfold says, q_G, cc_G. cbn. fold qbk. by rewrite Hsrc.
  - unfold digest_at in Hct. fold qbk in Hm. rewrite Hm in Hct. injection Hct as <-. done.
Qed.
Ltac stale_by F os ct := apply (stale _ F os "ok" ct);
  [apply q_ok_check_sound; by vm_compute|apply q_declared; by vm_compute| |apply q_acts_sound; by vm_compute
  |apply written_in_sound; by vm_compute|by vm_compute..|done].

(** The second compilation registers a file that does not exist: it is not recorded; then the source is put back. *)
Definition not_recorded : list sop :=
  OWrite "a.c" "1" 5 :: q_cc 0 "1" 6 ++ OWrite "a.c" "2" 7 ::
  [OBegin 0 (cc "-O"); OAddExt 0 ["x"] [] false; OWrite "a.o" "-O2" 8; OEnd 0 "ok"; OWrite "a.c" "1" 5].
Theorem C86_unrecorded_refuted : ~ answers_transparent String.eqb ident (fun s os =>
  returns ident qbk s os /\ ends ident qbk s os /\ one_at_a_time String.eqb ident qbk s os).
Proof.
  stale_by cc_F not_recorded "-O2". split_and!; [apply returns_sound|apply end_sound|apply apart_sound]; by vm_compute.
Qed.
(** The next compilation writes half of the file and fails. *)
Definition half_raised : list sop :=
  OWrite "a.c" "1" 5 :: q_cc 0 "1" 6 ++ [ORemove "a.o"; OBegin 0 (cc "-O"); OWrite "a.o" "-" 7; ORaise 0].
Theorem C86_failed_run_refuted : ~ answers_transparent String.eqb ident (fun s os =>
  recorded ident qbk s os /\ ends ident qbk s os /\ one_at_a_time String.eqb ident qbk s os).
Proof.
  stale_by half_F half_raised "-". split_and!; [apply recorded_sound|apply end_sound|apply apart_sound]; by vm_compute.
Qed.
(** The next process is killed while it compiles again. *)
Definition half_killed : list sop :=
  OWrite "a.c" "1" 5 :: q_cc 0 "1" 6 ++
  [OSave; ORestart funs1; ORemove "a.o"; OBegin 0 (cc "-O"); OWrite "a.o" "-" 7; ORestart funs1].
Theorem C86_killed_refuted : ~ answers_transparent String.eqb ident (fun s os =>
  recorded ident qbk s os /\ returns ident qbk s os /\ one_at_a_time String.eqb ident qbk s os).
Proof.
  stale_by half_F half_killed "-". split_and!; [apply recorded_sound|apply returns_sound|apply apart_sound]; by vm_compute.
Qed.
(** Two threads compile at the same time; when the first is done the other one has written half of the file. *)
Definition at_once : list sop :=
  [OWrite "a.c" "1" 5; OBegin 0 (cc "-O"); OBegin 1 (cc "-O"); OWrite "a.o" "-O1" 6; OEnd 0 "ok"; OWrite "a.o" "-" 7].
Theorem C86_at_once_refuted : ~ answers_transparent String.eqb ident (fun s os =>
  recorded ident qbk s os /\ returns ident qbk s os /\ ends ident qbk s os).
Proof.
  stale_by half_F at_once "-". split_and!; [apply recorded_sound|apply returns_sound|apply end_sound]; by vm_compute.
Qed.

Print Assumptions C86_latest.
Print Assumptions C86_transparent.
Print Assumptions C86_example.
Print Assumptions C86_unrecorded_refuted.
Print Assumptions C86_failed_run_refuted.
Print Assumptions C86_killed_refuted.
Print Assumptions C86_at_once_refuted.
