(** C75: what an answer from the database says about the files of the call. *)
From stdpp Require Import base list strings gmap.
From Coq Require Import ZArith Lia.
From Verif Require Import PyMonad DbModel DbSpec DbClaims CacheBackend CacheStep CacheTrust DbRefute CodeSpec PropsDb2 PropsCode
  TargetSpec TargetInv.
Local Open Scope string_scope.
Local Open Scope list_scope.

Section Props.
  Context {V R : Type} (veq : V -> V -> bool) (md5 : content -> digest).
  Notation BK := (cache_backend (V := V) (R := R) veq md5).
  Notation sys := (sys V R (pdb V R) name (name * nat) name).
  Notation op := (op V R).
  Notation occ := (occ V R).
  Notation step := (step md5 BK).
  Notation runs := (runs md5 BK).

  (** Arguments are compared by an equivalence. *)
  Definition is_equality : Prop :=
    (forall x, veq x x = true) /\ (forall x y, veq x y = true -> veq y x = true) /\
    (forall x y z, veq x y = true -> veq y z = true -> veq x z = true).

  (** A call answered from the database stands for one earlier run, the last one with equal arguments:
      its result and files are given, its code and sources are those of now, and the targets that
      nothing else writes still are as it left them. *)
  Definition hits_stand : Prop :=
    forall F t (s0 : sys) rank os rq r srcs dsts,
      fresh pdb_empty s0 -> fs_faithful F (s_env s0) -> history_ok md5 BK F s0 os ->
      steady md5 BK t s0 rank (os ++ [OBegin t rq]) ->
      let s := runs s0 os in
      snd (step s (OBegin t rq)) = RHit r srcs dsts ->
      exists oc, last_run veq md5 BK t s0 os oc /\ oc_result oc = r /\
        stands_for veq md5 BK t s0 (s_env s) rq oc /\
        (forall f, f ∈ srcs <-> f ∈ rq_srcs rq \/
           registered md5 BK s0 (fun xs _ => xs) t (oc_req oc) (oc_before oc) (oc_during oc) f) /\
        (forall f, f ∈ dsts <-> f ∈ rq_dsts rq \/ f ∈ rq_ret rq r \/
           registered md5 BK s0 (fun _ xd => xd) t (oc_req oc) (oc_before oc) (oc_during oc) f) /\
        forall f, f ∈ dsts -> is_Some (e_fs (s_env s) !! f) /\
          (only_written_by veq md5 BK t s0 os rq f -> e_fs (s_env s) !! f = e_fs (oc_end md5 BK t s0 oc) !! f).

  Theorem C75_stands : is_equality -> hits_stand.
  Proof.
    intros (H1 & H2 & H3) F t s0 rank os rq r srcs dsts Hf Hfs Hh Hst s Hhit.
    eapply hit_stands; try done. by eapply history_trusted.
  Qed.

  (** *** Caching changes nothing *)
  (** [G f d b l] says what function [f] with code [d], called with arguments [b] when its declared
      sources have the digests [l], returns, and what it leaves in files. *)
  Definition behaviour := name -> digest -> V -> list (option digest) -> R * (name -> option content).
  Definition says (G : behaviour) (e : env) (rq : request V R) (d : digest) : R * (name -> option content) :=
    G (rq_fun rq) d (rq_bound rq) (digest_at md5 e <$> rq_srcs rq).
  (** Equal arguments make no difference. *)
  Definition respects (G : behaviour) : Prop := forall f d b b' l, veq b b' = true -> G f d b l = G f d b' l.
  (** The calls that ran did what it says. *)
  Definition acts_by (G : behaviour) (t : nat) (s0 : sys) (os : list op) : Prop :=
    forall oc d, completed md5 BK t s0 os oc -> oc_code md5 BK s0 oc = Some d ->
      let k := says G (s_env (runs s0 (oc_before oc))) (oc_req oc) d in
      oc_result oc = fst k /\
      forall f ct, snd k f = Some ct -> exists m, e_fs (oc_end md5 BK t s0 oc) !! f = Some (m, ct).

  (** Then a call answered from the database gets the result it would get now, and its targets have the
      contents they would get now. *)
  Definition hits_transparent (ok : nat -> sys -> (name -> nat) -> list op -> Prop)
      (file : nat -> sys -> list op -> request V R -> name -> Prop) : Prop :=
    forall F D G t (s0 : sys) rank os rq r srcs dsts d,
      fresh pdb_empty s0 -> fs_faithful F (s_env s0) -> history_ok md5 BK F s0 os ->
      declared_by veq D (os ++ [OBegin t rq]) ->
      ok t s0 rank (os ++ [OBegin t rq]) ->
      respects G -> acts_by G t s0 os ->
      let e := s_env (runs s0 os) in
      snd (step (runs s0 os) (OBegin t rq)) = RHit r srcs dsts -> e_fun e !! rq_fun rq = Some d ->
      r = fst (says G e rq d) /\
      forall f ct, f ∈ dsts -> file t s0 os rq f -> snd (says G e rq d) f = Some ct ->
        exists m, e_fs e !! f = Some (m, ct).

  Theorem C75_transparent : is_equality ->
    hits_transparent (steady md5 BK) (only_written_by veq md5 BK).
  Proof.
    intros Heq F D G t s0 rank os rq r srcs dsts d Hf Hfs Hh [HD1 HD2] Hst HG Hact e Hhit Hd.
    destruct (C75_stands Heq F t s0 rank os rq r srcs dsts Hf Hfs Hh Hst Hhit)
      as (oc & (rest & Hos & Hrd & _) & Hr & [[Hc1 Hc2] [_ Hcode] Hdecl _] & _ & _ & Hfiles).
    assert (completed md5 BK t s0 os oc) as Hcomp.
    { exists rest. split; [|done]. rewrite Hos. unfold oc_upto. by rewrite <- app_assoc. }
    fold e in Hcode. rewrite Hd in Hcode. symmetry in Hcode.
    assert (rq_srcs (oc_req oc) = rq_srcs rq) as Hsrc.
    { rewrite (HD1 t rq), (HD1 t (oc_req oc)).
      - rewrite Hc1. symmetry. by apply HD2.
      - rewrite Hos. unfold oc_upto. rewrite !elem_of_app, elem_of_cons. tauto.
      - rewrite elem_of_app, elem_of_list_singleton. tauto. }
    assert (says G e rq d = says G (s_env (runs s0 (oc_before oc))) (oc_req oc) d) as Heqv.
    { unfold says. rewrite Hc1, Hsrc, <- (HG _ _ _ _ _ Hc2). f_equal. apply list_fmap_ext. intros i f Hi.
      apply elem_of_list_lookup_2 in Hi. apply Hdecl; [done|by rewrite Hsrc]. }
    destruct (Hact oc d Hcomp Hcode) as [Hres Hout]. cbv zeta in Hout. rewrite Heqv. split; [congruence|].
    intros f ct Hin Hw Hk. destruct (Hfiles f Hin) as [_ Hsame]. unfold e. rewrite (Hsame Hw). by apply Hout.
  Qed.
End Props.

(** *** Concrete histories *)
Definition in_use_b (s : ssys) (f : name) : bool :=
  existsb (fun tl : nat * list _ => existsb (fun fr => existsb (String.eqb f) (rq_srcs (fr_req fr))) tl.2) (map_to_list (s_threads s)).
Lemma in_use_sound s f : in_use s f -> in_use_b s f = true.
Proof.
  intros (t & fr & Hin & Hf). unfold thread in Hin. destruct (s_threads s !! t) as [l|] eqn:E; [|by apply elem_of_nil in Hin].
  apply existsb_exists. exists (t, l). split; [by apply elem_of_list_In, elem_of_map_to_list|].
  apply existsb_exists. exists fr. split; [by apply elem_of_list_In|].
  apply existsb_exists. exists f. split; [by apply elem_of_list_In|]. by apply String.eqb_eq.
Qed.
Definition behaved_b (F : name -> Z -> content) (s0 : ssys) (a : list sop) (o : sop) : bool :=
  match o with
  | OWrite f ct m => String.eqb ct (F f m) && negb (in_use_b (srun s0 a) f)
  | ORemove f => negb (in_use_b (srun s0 a) f)
  | ODelFun _ => false
  | _ => true
  end.
Lemma behaved_sound F s0 os : each (behaved_b F s0) os -> history_ok ident sbk F s0 os.
Proof.
  intros H.
  assert (forall a o c, os = a ++ o :: c -> behaved_b F s0 a o = true) as P by apply (at_each _ _ H). clear H.
  revert s0 P. induction os as [|o os IH]; intros s0 P; [done|].
  pose proof (P [] o os eq_refl) as H. cbn [history_ok]. split_and!.
  - destruct o; simpl in *; try done. apply andb_prop in H as [H _]. by apply String.eqb_eq in H.
  - destruct o; simpl in *; try done; intros Hu%in_use_sound; simpl in Hu; rewrite Hu in H; try done.
    by rewrite andb_false_r in H.
  - apply IH. intros a o' c ->. specialize (P (o :: a) o' c eq_refl). by destruct o'.
Qed.

(** Calls of f and g are made by no cached function. *)
Definition flat_b (s0 : ssys) (a : list sop) (o : sop) : bool :=
  match o with
  | OBegin t rq => Nat.eqb t 0 && Nat.eqb (depth (srun s0 a) 0) 0
  | OSave | ODelFun _ => Nat.eqb (depth (srun s0 a) 0) 0
  | OAddExt t _ _ _ | OEnd t _ | ORaise t => Nat.eqb t 0
  | _ => true
  end.
Definition is_save (o : sop) : bool := match o with OSave => true | _ => false end.
Definition saved_b (s0 : ssys) (os : list sop) : bool :=
  forallb (fun ac => Nat.eqb (depth (srun s0 ac.1) 0) 0 || existsb is_save ac.2) (splits os).
Definition ends_b (s0 : ssys) (a : list sop) (o : sop) : bool :=
  match o with ORestart _ => saved_b s0 a | _ => true end.
Definition flat_ok (s0 : ssys) (os : list sop) : Prop :=
  Forall (on_thread 0) os /\ calls_below ident sbk (fun _ => 0) s0 os /\ saves_between ident sbk 0 s0 os.
Lemma depth_nil (s : ssys) : Nat.eqb (depth s 0) 0 = true -> thread s 0 = [].
Proof. intros H%Nat.eqb_eq. by apply nil_length_inv. Qed.
Lemma flat_sound s0 os : each (flat_b s0) os -> flat_ok s0 os.
Proof.
  intros H. assert (forall a o c, os = a ++ o :: c -> flat_b s0 a o = true) as P by apply (at_each _ _ H).
  split_and!.
  - apply Forall_forall. intros o Ho. apply elem_of_list_split in Ho as (a & c & Ho). specialize (P _ _ _ Ho).
    destruct o; simpl in *; try done; try (by apply Nat.eqb_eq in P). apply andb_prop in P as [P _]. by apply Nat.eqb_eq in P.
  - intros a t rq b fr frs Ho Ht. specialize (P _ _ _ Ho). simpl in P. apply andb_prop in P as [P1 P2].
    apply Nat.eqb_eq in P1 as ->. apply depth_nil in P2. fold sbk in Ht. congruence.
  - intros a o c Ho. specialize (P _ _ _ Ho). destruct o; try done; by apply depth_nil.
Qed.
Lemma fails_sound s0 os : each (fails_b s0) os -> nothing_fails ident sbk 0 s0 os.
Proof.
  intros H a o c Ho Hf. pose proof (at_each _ _ H _ _ _ Ho) as Hb. unfold fails_b in Hb. by rewrite Hf in Hb.
Qed.
Lemma ends_sound s0 os : each (ends_b s0) os -> ends_saved ident sbk 0 s0 os.
Proof.
  intros H a funs c Ho a1 a2 Ha Ht. pose proof (at_each _ _ H _ _ _ Ho) as Hb. unfold ends_b, saved_b in Hb.
  rewrite forallb_forall in Hb. apply in_splits, elem_of_list_In, Hb in Ha. simpl in Ha.
  apply orb_prop in Ha as [Hd|Hs]; [by apply depth_nil in Hd|].
  apply existsb_exists in Hs as (o & Hin & Ho'). destruct o; try done. by apply elem_of_list_In.
Qed.
Definition written_b (s0 : ssys) (p : request string string -> bool) (f : name) (a : list sop) (o : sop) : bool :=
  match o with
  | OWrite g _ _ => negb (String.eqb f g) || existsb (fun fr => p (fr_req fr)) (thread (srun s0 a) 0)
  | _ => true
  end.
Lemma written_sound s0 p f os : each (written_b s0 p f) os ->
  forall a ct m c, os = a ++ OWrite f ct m :: c -> exists fr, fr ∈ thread (srun s0 a) 0 /\ p (fr_req fr) = true.
Proof.
  intros H a ct m c Ho. pose proof (at_each _ _ H _ _ _ Ho) as Hb. simpl in Hb. rewrite String.eqb_refl in Hb. simpl in Hb.
  apply existsb_exists in Hb as (fr & Hin & Hp). exists fr. split; [by apply elem_of_list_In|done].
Qed.

(** f compiles "a.c" with the flags it is given: it writes them and what it read to "a.o". *)
Definition cc (flags : name) : request string string := Request "f" flags ["a.c"] ["a.o"] (fun _ => []).
Definition cc_out (b : string) (l : list (option digest)) : content :=
  match l with [Some d] => b +:+ d | _ => "" end.
Definition cc_G : behaviour (V := string) (R := string) := fun _ _ b l =>
  ("ok", fun f => if String.eqb f "a.o" then Some (cc_out b l) else None).
(** "a.c" holds its modification time, "a.o" what is written to it first. *)
Definition cc_D (_ : name) (_ : string) : list name := ["a.c"].
Definition cc_runs (flags src : string) (m : Z) : list sop :=
  [OBegin 0 (cc flags); OWrite "a.o" (flags +:+ src) m; OEnd 0 "ok"].

Lemma string_equality : is_equality String.eqb.
Proof.
  split_and!.
  - apply String.eqb_refl.
  - intros x y H%String.eqb_eq. by rewrite H, String.eqb_refl.
  - intros x y z H1%String.eqb_eq H2%String.eqb_eq. by rewrite H1, H2, String.eqb_refl.
Qed.
Lemma cc_respects : respects String.eqb cc_G.
Proof. intros f d b b' l H%String.eqb_eq. by rewrite H. Qed.
Definition acts_b (s0 : ssys) (oc : occ string string) : bool :=
  String.eqb (oc_result oc) "ok" &&
  match e_fs (oc_end ident sbk 0 s0 oc) !! "a.o" with
  | Some (_, ct) => String.eqb ct (cc_out (rq_bound (oc_req oc)) (digest_at ident (s_env (srun s0 (oc_before oc))) <$> rq_srcs (oc_req oc)))
  | None => false
  end.
Lemma acts_sound s0 os : forallb (acts_b s0) (all_occs s0 os) = true -> acts_by String.eqb ident cc_G 0 s0 os.
Proof.
  intros H oc d Hoc _. rewrite forallb_forall in H. apply all_occs_sound, elem_of_list_In, H in Hoc.
  unfold acts_b in Hoc. apply andb_prop in Hoc as [H1 H2]. simpl. split; [by apply String.eqb_eq in H1|].
  intros f ct. destruct (String.eqb_spec f "a.o") as [->|]; [|done]. intros [= <-].
  destruct (e_fs (oc_end ident sbk 0 s0 oc) !! "a.o") as [[m ct']|] eqn:E; [|done]. apply String.eqb_eq in H2. exists m.
  rewrite H2 in E. exact E.
Qed.
Definition cc_b (o : sop) : bool :=
  match o with OBegin _ rq => bool_decide (rq_srcs rq = ["a.c"]) | _ => true end.
Lemma cc_declared os : forallb cc_b os = true -> declared_by String.eqb cc_D os.
Proof.
  intros H. split; [|done]. intros t rq Hin. rewrite forallb_forall in H. apply elem_of_list_In, H in Hin.
  by apply bool_decide_eq_true in Hin.
Qed.
Lemma start_faithful F : fs_faithful F (s_env (start 100)).
Proof. intros f m c. simpl. by rewrite lookup_empty. Qed.

(** Edit, compile, edit again, compile in a second process, clean up, compile, and ask again in a third one. *)
Definition cc_F (f : name) (m : Z) : content :=
  if String.eqb f "a.c" then (if decide (m = 5)%Z then "1" else "2") else if decide (m = 6)%Z then "-O1" else "-O2".
Definition cc_history : list sop :=
  OWrite "a.c" "1" 5 :: OTick 2000000 :: cc_runs "-O" "1" 6 ++ [OBegin 0 (cc "-O"); OSave; ORestart funs1;
  OWrite "a.c" "2" 7; OTick 2000000] ++ cc_runs "-O" "2" 8 ++ [ORemove "a.o"] ++ cc_runs "-O" "2" 9 ++
  [OSave; ORestart funs1].

Example C75_example :
  is_equality String.eqb /\
  fresh pdb_empty (start 100) /\ fs_faithful cc_F (s_env (start 100)) /\ history_ok ident sbk cc_F (start 100) cc_history /\
  declared_by String.eqb cc_D (cc_history ++ [OBegin 0 (cc "-O")]) /\
  steady ident sbk 0 (start 100) (fun _ => 0) (cc_history ++ [OBegin 0 (cc "-O")]) /\
  respects String.eqb cc_G /\ acts_by String.eqb ident cc_G 0 (start 100) cc_history /\
  only_written_by String.eqb ident sbk 0 (start 100) cc_history (cc "-O") "a.o" /\
  snd (step ident sbk (srun (start 100) cc_history) (OBegin 0 (cc "-O"))) = RHit "ok" ["a.c"] ["a.o"] /\
  e_fs (s_env (srun (start 100) cc_history)) !! "a.o" = Some (9%Z, "-O2") /\
  outs ident sbk (start 100) cc_history =
    [RNone; RNone; RRun; RNone; RDone "ok" ["a.c"] ["a.o"]; RHit "ok" ["a.c"] ["a.o"]; RNone; RNone; RNone; RNone;
     RRun; RNone; RDone "ok" ["a.c"] ["a.o"]; RNone; RRun; RNone; RDone "ok" ["a.c"] ["a.o"]; RNone; RNone].
Proof.
  split; [exact string_equality|]. split; [exact (start_fresh 100)|]. split; [exact (start_faithful _)|].
  split; [apply behaved_sound; by vm_compute|]. split; [apply cc_declared; by vm_compute|]. split.
  { assert (each (flat_b (start 100)) (cc_history ++ [OBegin 0 (cc "-O")])) as Hfl by by vm_compute.
    apply flat_sound in Hfl as (H1 & H2 & H3).
    constructor; [exact H1|exact H2|apply fails_sound; by vm_compute|exact H3|apply ends_sound; by vm_compute]. }
  split; [exact cc_respects|]. split; [apply acts_sound; by vm_compute|]. split.
  { intros a ct m c Ho.
    assert (each (written_b (start 100) (fun rq => String.eqb (rq_fun rq) "f" && String.eqb (rq_bound rq) "-O") "a.o") cc_history)
      as Hw by by vm_compute.
    destruct (written_sound _ _ _ _ Hw _ _ _ _ Ho) as (fr & Hin & Hp). exists fr. split; [exact Hin|].
    apply andb_prop in Hp as [Hp1 Hp2]. split; [by apply String.eqb_eq in Hp1|].
    change (String.eqb "-O" (rq_bound (fr_req fr)) = true). by rewrite String.eqb_sym. }
  split; [by vm_compute|]. split; by vm_compute.
Qed.

(** *** Beyond the claim *)
(** Files that are written only by calls of the same function, with whatever arguments. *)
Definition written_by_function (t : nat) (s0 : ssys) (os : list sop) (rq : request string string) (f : name) : Prop :=
  forall a ct m c, os = a ++ OWrite f ct m :: c -> exists fr, fr ∈ thread (srun s0 a) t /\ rq_fun (fr_req fr) = rq_fun rq.

(** Compile with "-O", compile with "-g" to the same file, compile with "-O" again: the file of the second call stays. *)
Definition two_flags : list sop :=
  OWrite "a.c" "1" 5 :: OTick 2000000 :: cc_runs "-O" "1" 6 ++ cc_runs "-g" "1" 7.
Definition flags_F (f : name) (m : Z) : content :=
  if String.eqb f "a.c" then "1" else if decide (m = 6)%Z then "-O1" else "-g1".

Theorem C75_shared_target_refuted : ~ hits_transparent String.eqb ident (steady ident sbk) written_by_function.
Proof.
  intros H.
  assert (each (flat_b (start 100)) (two_flags ++ [OBegin 0 (cc "-O")])) as Hfl by by vm_compute.
  apply flat_sound in Hfl as (H1 & H2 & H3).
  destruct (H flags_F cc_D cc_G 0 (start 100) (fun _ => 0) two_flags (cc "-O") "ok" ["a.c"] ["a.o"] "f1") as [_ Hfile].
  - exact (start_fresh 100).
  - exact (start_faithful _).
  - apply behaved_sound. by vm_compute.
  - apply cc_declared. by vm_compute.
  - constructor; [exact H1|exact H2|apply fails_sound; by vm_compute|exact H3|apply ends_sound; by vm_compute].
  - exact cc_respects.
  - apply acts_sound. by vm_compute.
  - by vm_compute.
  - by vm_compute.
  - destruct (Hfile "a.o" "-O1") as [m Hm].
    + by left.
    + intros a ct m c Ho.
      assert (each (written_b (start 100) (fun rq => String.eqb (rq_fun rq) "f") "a.o") two_flags) as Hw by by vm_compute.
      destruct (written_sound _ _ _ _ Hw _ _ _ _ Ho) as (fr & Hin & Hp). exists fr. split; [exact Hin|].
      by apply String.eqb_eq in Hp.
    + by vm_compute.
    + by vm_compute in Hm.
Qed.

(** Histories in which the function may raise, where nothing catches the exception. *)
Definition may_raise (t : nat) (s0 : ssys) (rank : name -> nat) (os : list sop) : Prop :=
  Forall (on_thread t) os /\ calls_below ident sbk rank s0 os /\ uncaught ident sbk t s0 os /\
  saves_between ident sbk t s0 os /\ ends_saved ident sbk t s0 os.

(** The file is removed; the next compilation writes half of it and fails. *)
Definition half_written : list sop :=
  OWrite "a.c" "1" 5 :: OTick 2000000 :: cc_runs "-O" "1" 6 ++
  [ORemove "a.o"; OBegin 0 (cc "-O"); OWrite "a.o" "-" 7; ORaise 0; OSave; ORestart funs1].
Definition half_F (f : name) (m : Z) : content :=
  if String.eqb f "a.c" then "1" else if decide (m = 6)%Z then "-O1" else "-".

Lemma cc_only os :
  each (written_b (start 100) (fun rq => String.eqb (rq_fun rq) "f" && String.eqb (rq_bound rq) "-O") "a.o") os ->
  only_written_by String.eqb ident sbk 0 (start 100) os (cc "-O") "a.o".
Proof.
  intros Hw a ct m c Ho. destruct (written_sound _ _ _ _ Hw _ _ _ _ Ho) as (fr & Hin & Hp). exists fr. split; [exact Hin|].
  apply andb_prop in Hp as [Hp1 Hp2]. split; [by apply String.eqb_eq in Hp1|].
  change (String.eqb "-O" (rq_bound (fr_req fr)) = true). by rewrite String.eqb_sym.
Qed.

Theorem C75_failed_run_refuted : ~ hits_transparent String.eqb ident may_raise (only_written_by String.eqb ident sbk).
Proof.
  intros H.
  assert (each (flat_b (start 100)) (half_written ++ [OBegin 0 (cc "-O")])) as Hfl by by vm_compute.
  apply flat_sound in Hfl as (H1 & H2 & H3).
  destruct (H half_F cc_D cc_G 0 (start 100) (fun _ => 0) half_written (cc "-O") "ok" ["a.c"] ["a.o"] "f1") as [_ Hfile].
  - exact (start_fresh 100).
  - exact (start_faithful _).
  - apply behaved_sound. by vm_compute.
  - apply cc_declared. by vm_compute.
  - split; [exact H1|]. split; [exact H2|]. split; [|split; [exact H3|apply ends_sound; by vm_compute]].
    intros a o b Hos Hun.
    assert (each (fun a o => negb (unwinding ident sbk 0 false (start 100) a) ||
      match o with OBegin _ _ | OEnd _ _ => false | _ => true end) (half_written ++ [OBegin 0 (cc "-O")])) as Hq by by vm_compute.
    pose proof (at_each _ _ Hq _ _ _ Hos) as Hb. cbv beta in Hb. rewrite Hun in Hb. destruct o; (exact I || discriminate Hb).
  - exact cc_respects.
  - apply acts_sound. by vm_compute.
  - by vm_compute.
  - by vm_compute.
  - destruct (Hfile "a.o" "-O1") as [m Hm].
    + by left.
    + apply cc_only. by vm_compute.
    + by vm_compute.
    + by vm_compute in Hm.
Qed.

(** Histories in which the process may be killed before it saves. *)
Definition may_be_killed (t : nat) (s0 : ssys) (rank : name -> nat) (os : list sop) : Prop :=
  Forall (on_thread t) os /\ calls_below ident sbk rank s0 os /\ nothing_fails ident sbk t s0 os /\ saves_between ident sbk t s0 os.

(** The second compilation is not recorded; then the source is put back. *)
Definition killed_then_back : list sop :=
  OWrite "a.c" "1" 5 :: OTick 2000000 :: cc_runs "-O" "1" 6 ++ [OSave; OWrite "a.c" "2" 7; OTick 2000000] ++ cc_runs "-O" "2" 8 ++
  [ORestart funs1; OWrite "a.c" "1" 5].

Theorem C75_killed_refuted : ~ hits_transparent String.eqb ident may_be_killed (only_written_by String.eqb ident sbk).
Proof.
  intros H.
  assert (each (flat_b (start 100)) (killed_then_back ++ [OBegin 0 (cc "-O")])) as Hfl by by vm_compute.
  apply flat_sound in Hfl as (H1 & H2 & H3).
  destruct (H cc_F cc_D cc_G 0 (start 100) (fun _ => 0) killed_then_back (cc "-O") "ok" ["a.c"] ["a.o"] "f1") as [_ Hfile].
  - exact (start_fresh 100).
  - exact (start_faithful _).
  - apply behaved_sound. by vm_compute.
  - apply cc_declared. by vm_compute.
  - split; [exact H1|]. split; [exact H2|]. split; [apply fails_sound; by vm_compute|exact H3].
  - exact cc_respects.
  - apply acts_sound. by vm_compute.
  - by vm_compute.
  - by vm_compute.
  - destruct (Hfile "a.o" "-O1") as [m Hm].
    + by left.
    + apply cc_only. by vm_compute.
    + by vm_compute.
    + by vm_compute in Hm.
Qed.

Print Assumptions C75_stands.
Print Assumptions C75_transparent.
Print Assumptions C75_shared_target_refuted.
Print Assumptions C75_failed_run_refuted.
Print Assumptions C75_killed_refuted.
