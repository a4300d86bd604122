(** C71: results from the database were computed by the present code, nested calls included. *)
From stdpp Require Import base list strings gmap.
From Coq Require Import ZArith Lia.
From Verif Require Import PyMonad DbModel DbSpec DbClaims CacheBackend DbRefute CodeSpec CodeFacts CodeInv PropsDb2.
Local Open Scope string_scope.
Local Open Scope list_scope.

Section Props.
  Context {V R : Type} (veq : V -> V -> bool) (md5 : content -> digest).
  Notation BK := (cache_backend (V := V) (R := R) veq md5).
  Notation sys := (sys V R (pdb V R) name (name * nat) name).
  Notation op := (op V R).
  Notation step := (step md5 BK).
  Notation runs := (runs md5 BK).

  (** A call answered from the database gets the result of an earlier run of the same function with
      equal arguments, and that run and all runs it rests on were made by the present code. *)
  Definition hits_up_to_date (ok : nat -> sys -> (name -> nat) -> list op -> Prop) : Prop :=
    forall t (s0 : sys) rank os rq r srcs dsts,
      fresh pdb_empty s0 -> ok t s0 rank (os ++ [OBegin t rq]) ->
      snd (step (runs s0 os) (OBegin t rq)) = RHit r srcs dsts ->
      exists oc, completed md5 BK t s0 os oc /\ oc_fun oc = rq_fun rq /\
        veq (rq_bound rq) (rq_bound (oc_req oc)) = true /\ oc_result oc = r /\
        up_to_date veq md5 BK t s0 (s_env (runs s0 os)) oc.

  Theorem C71_up_to_date : hits_up_to_date (fun t s0 rank => tidy md5 BK t s0 rank).
  Proof. intros t s0 rank os rq r srcs dsts. apply hit_up_to_date. Qed.

  (** In particular if each function is called from one place only. *)
  Definition one_place (t : nat) (s0 : sys) (rank : name -> nat) (os : list op) : Prop :=
    Forall (on_thread t) os /\ calls_below md5 BK rank s0 os /\ nothing_fails md5 BK t s0 os /\
    saves_between md5 BK t s0 os /\ same_calls md5 BK t s0 os /\ one_caller md5 BK t s0 os.

  Theorem C71_one_place : hits_up_to_date one_place.
  Proof.
    intros t s0 rank os rq r srcs dsts H0 (H1 & H2 & H3 & H4 & H5 & H6). apply (hit_up_to_date veq md5 t s0 rank); [done|].
    constructor; try done. apply one_caller_first; [|done]. by destruct H0 as (_ & _ & ? & _).
  Qed.
End Props.

(** *** Concrete histories *)
Definition splits {A} (l : list A) : list (list A * list A) :=
  (fun n => (take n l, drop n l)) <$> seq 0 (S (length l)).
Lemma in_splits {A} (l a b : list A) : l = a ++ b -> (a, b) ∈ splits l.
Proof.
  intros ->. apply elem_of_list_fmap. exists (length a). rewrite take_app, drop_app. split; [done|].
  apply elem_of_seq. rewrite app_length. lia.
Qed.

Notation sop := (op string string).
Notation srun s os := (runs ident sbk s os).
Definition is_run (o : out string) : bool := match o with RRun => true | _ => false end.
Definition during_b (s0 : ssys) (rq : request string string) (a b : list sop) : bool :=
  is_run (snd (step ident sbk (srun s0 a) (OBegin 0 rq))) &&
  forallb (fun n => Nat.ltb (depth (srun s0 a) 0) (depth (srun s0 (a ++ OBegin 0 rq :: take n b)) 0)) (seq 0 (S (length b))) &&
  Nat.eqb (depth (srun s0 (a ++ OBegin 0 rq :: b)) 0) (S (depth (srun s0 a) 0)).
Lemma during_sound s0 rq a b : runs_during ident sbk s0 0 rq a b -> during_b s0 rq a b = true.
Proof.
  intros [[H1 H2] H3]. unfold during_b. rewrite H1, H3, Nat.eqb_refl, andb_true_r. apply forallb_forall.
  intros n Hn. apply Nat.ltb_lt. apply (H2 _ (drop n b)). by rewrite take_drop.
Qed.

(** All completed calls of a history. *)
Definition all_occs (s0 : ssys) (os : list sop) : list (occ string string) :=
  splits os ≫= fun ac => match ac.2 with
    | OBegin 0 rq :: c => splits c ≫= fun bd => match bd.2 with
        | OEnd 0 r :: _ => if during_b s0 rq ac.1 bd.1 then [Occ ac.1 rq bd.1 r] else []
        | _ => []
        end
    | _ => []
    end.
Lemma all_occs_sound s0 os oc : completed ident sbk 0 s0 os oc -> oc ∈ all_occs s0 os.
Proof.
  intros (rest & -> & Hd). unfold all_occs. apply elem_of_list_bind. eexists. split; [|by apply in_splits]. cbn [fst snd].
  apply elem_of_list_bind. eexists. split; [|by apply in_splits]. cbn [fst snd].
  apply during_sound in Hd. rewrite Hd. destruct oc. by left.
Qed.
Definition occ_calls (s0 : ssys) (oc : occ string string) : list name :=
  splits (oc_during oc) ≫= fun bd => match bd.2 with
    | OBegin 0 rq' :: _ =>
        if Nat.eqb (depth (srun s0 (oc_before oc ++ OBegin 0 (oc_req oc) :: bd.1)) 0) (S (depth (srun s0 (oc_before oc)) 0))
        then [rq_fun rq'] else []
    | _ => []
    end.
Lemma occ_calls_sound s0 oc g :
  calls_during ident sbk s0 0 (oc_req oc) (oc_before oc) (oc_during oc) g <-> g ∈ occ_calls s0 oc.
Proof.
  unfold occ_calls. rewrite elem_of_list_bind. split.
  - intros (b1 & rq' & b2 & Hb & Hg & Hd). eexists. split; [|by apply in_splits]. cbn [fst snd]. rewrite Hd, Nat.eqb_refl, Hg. by left.
  - intros ([b1 d] & Hin & Hs). apply elem_of_list_fmap in Hs as (n & [= -> Hd] & _). simpl in Hin.
    destruct d as [|[[|] rq'| | | | | | | | | |] d]; try (by apply elem_of_nil in Hin).
    destruct (Nat.eqb_spec (depth (srun s0 (oc_before oc ++ OBegin 0 (oc_req oc) :: take n (oc_during oc))) 0)
      (S (depth (srun s0 (oc_before oc)) 0))) as [He|]; [|by apply elem_of_nil in Hin].
    apply elem_of_list_singleton in Hin as ->. exists (take n (oc_during oc)), rq', d. split; [|done].
    rewrite Hd. by rewrite take_drop.
Qed.
Definition same_calls_b (s0 : ssys) (os : list sop) : bool :=
  let l := all_occs s0 os in
  forallb (fun oc => forallb (fun oc' =>
    negb (bool_decide (oc_fun oc = oc_fun oc')) || negb (bool_decide (oc_code ident sbk s0 oc = oc_code ident sbk s0 oc')) ||
    forallb (fun g => bool_decide (g ∈ occ_calls s0 oc')) (occ_calls s0 oc)) l) l.
Lemma same_calls_sound s0 os : same_calls_b s0 os = true -> same_calls ident sbk 0 s0 os.
Proof.
  intros H oc oc' g H1 H2 Hf Hc Hg. unfold same_calls_b in H. rewrite forallb_forall in H.
  apply all_occs_sound, elem_of_list_In in H1. apply all_occs_sound, elem_of_list_In in H2. specialize (H _ H1). rewrite forallb_forall in H.
  specialize (H _ H2). rewrite !bool_decide_true in H by done. simpl in H. rewrite forallb_forall in H.
  apply occ_calls_sound in Hg. specialize (H g). rewrite <- elem_of_list_In, bool_decide_eq_true in H.
  by apply occ_calls_sound, H.
Qed.

Definition place_b (rank : name -> nat) (caller : name -> option name) (s0 : ssys) (a : list sop) (o : sop) : bool :=
  match o with
  | OBegin t rq => bool_decide (t = 0) &&
      match thread (srun s0 a) 0 with
      | [] => bool_decide (caller (rq_fun rq) = None)
      | fr :: _ => bool_decide (caller (rq_fun rq) = Some (rq_fun (fr_req fr))) &&
                   Nat.ltb (rank (rq_fun rq)) (rank (rq_fun (fr_req fr)))
      end
  | OSave | ODelFun _ => Nat.eqb (depth (srun s0 a) 0) 0
  | OAddExt t _ _ _ | OEnd t _ | ORaise t => bool_decide (t = 0)
  | _ => true
  end.
Definition fails_b (s0 : ssys) (a : list sop) (o : sop) : bool := negb (fails ident sbk (srun s0 a) o).
Notation each q os :=
  (forallb (fun n => match os%list !! n with Some o => q (take n os) o | None => true end) (seq 0 (length os)) = true).

Lemma place_sound rank caller s0 os :
  each (place_b rank caller s0) os ->
  Forall (on_thread 0) os /\ calls_below ident sbk rank s0 os /\ saves_between ident sbk 0 s0 os /\
  one_caller ident sbk 0 s0 os.
Proof.
  intros H1.
  assert (forall a o c, os = a ++ o :: c -> place_b rank caller s0 a o = true) as P1 by apply (at_each _ _ H1).
  split.
  { apply Forall_forall. intros o Ho. apply elem_of_list_split in Ho as (a & c & Ho).
    specialize (P1 _ _ _ Ho). destruct o; simpl in *; try done; try (by apply bool_decide_eq_true in P1).
    apply andb_prop in P1 as [P1 _]. by apply bool_decide_eq_true in P1. }
  split.
  { intros a t rq b fr frs -> Ht. specialize (P1 _ _ _ eq_refl). simpl in P1. apply andb_prop in P1 as [Pt P1].
    apply bool_decide_eq_true in Pt as ->. rewrite Ht in P1. apply andb_prop in P1 as [_ P1]. by apply Nat.ltb_lt. }
  split.
  { intros a o c ->. specialize (P1 _ _ _ eq_refl). destruct o; try done; simpl in P1; apply Nat.eqb_eq in P1;
    by apply nil_length_inv. }
  exists caller. intros a rq c ->. specialize (P1 _ _ _ eq_refl). simpl in P1.
  destruct (thread (srun s0 a) 0); [by apply bool_decide_eq_true in P1|].
  apply andb_prop in P1 as [P1 _]. by apply bool_decide_eq_true in P1.
Qed.

Lemma one_place_sound rank caller s0 os :
  each (place_b rank caller s0) os -> each (fails_b s0) os -> same_calls_b s0 os = true ->
  one_place String.eqb ident 0 s0 rank os.
Proof.
  intros H1 H2 H3.
  assert (forall a o c, os = a ++ o :: c -> fails_b s0 a o = true) as P2 by apply (at_each _ _ H2).
  apply place_sound in H1 as (? & ? & ? & ?). split; [done|]. split; [done|]. split.
  { intros a o c -> Hf. specialize (P2 _ _ _ eq_refl). unfold fails_b in P2. fold sbk in Hf. by rewrite Hf in P2. }
  split; [done|]. split; [by apply same_calls_sound|done].
Qed.

(** f calls g, g calls h.  h changes; then f("x") and f("y") run again, the second one with the
    stored answer of g. *)
Definition funs3 : gmap name digest := {[ "f" := "f1"; "g" := "g1"; "h" := "h2" ]}.
Definition fgh_rank (f : name) : nat := if String.eqb f "f" then 2 else if String.eqb f "g" then 1 else 0.
Definition fgh_caller (f : name) : option name :=
  if String.eqb f "g" then Some "f" else if String.eqb f "h" then Some "g" else None.
Definition fgh_build (n : string) : list sop :=
  [OBegin 0 (call "f" "x"); OBegin 0 (call "g" "a"); OBegin 0 (call "h" "a");
   OEnd 0 ("H" +:+ n); OEnd 0 ("GH" +:+ n); OEnd 0 ("FxGH" +:+ n);
   OBegin 0 (call "f" "y"); OBegin 0 (call "g" "a"); OEnd 0 ("FyGH" +:+ n); OSave].
Definition fgh_history : list sop := fgh_build "1" ++ ORestart funs3 :: fgh_build "2" ++ [ORestart funs3].

Example C71_example :
  fresh pdb_empty (start 100) /\
  one_place String.eqb ident 0 (start 100) fgh_rank (fgh_history ++ [OBegin 0 (call "f" "y")]) /\
  tidy ident sbk 0 (start 100) fgh_rank (fgh_history ++ [OBegin 0 (call "f" "y")]) /\
  snd (step ident sbk (srun (start 100) fgh_history) (OBegin 0 (call "f" "y"))) = RHit "FyGH2" [] [] /\
  outs ident sbk (srun (start 100) (fgh_build "1")) (ORestart funs3 :: take 3 (fgh_build "2")) = [RNone; RRun; RRun; RRun].
Proof.
  assert (one_place String.eqb ident 0 (start 100) fgh_rank (fgh_history ++ [OBegin 0 (call "f" "y")])) as Hp.
  { apply (one_place_sound _ fgh_caller); by vm_compute. }
  split; [done|]. split; [done|]. split.
  { destruct Hp as (? & ? & ? & ? & ? & ?). constructor; try done. by apply one_caller_first. }
  split; by vm_compute.
Qed.

(** *** A build that fails *)
(** Exceptions may end the build: nothing is called and nothing returns while one is on its way,
    and the database is saved afterwards. *)
Definition may_fail (t : nat) (s0 : ssys) (rank : name -> nat) (os : list sop) : Prop :=
  Forall (on_thread t) os /\ calls_below ident sbk rank s0 os /\ uncaught ident sbk t s0 os /\
  saves_between ident sbk t s0 os /\ same_calls ident sbk t s0 os /\ one_caller ident sbk t s0 os.

(** f calls g.  g changes; the next build runs f, which calls g and then raises.  The new g has been
    recorded, so that the third build finds f up to date. *)
Definition failed_build : list sop :=
  [OBegin 0 (call "f" "x"); OBegin 0 (call "g" "a"); OEnd 0 "G1"; OEnd 0 "F(G1)"; OSave; ORestart funs2;
   OBegin 0 (call "f" "x"); OBegin 0 (call "g" "a"); OEnd 0 "G2"; ORaise 0; OSave; ORestart funs2].

Theorem C71_failed_build_refuted : ~ hits_up_to_date String.eqb ident may_fail.
Proof.
  intros H.
  assert (each (place_b fgh_rank fgh_caller (start 100)) (failed_build ++ [OBegin 0 (call "f" "x")])) as Hp by by vm_compute.
  assert (same_calls_b (start 100) (failed_build ++ [OBegin 0 (call "f" "x")]) = true) as Hc by by vm_compute.
  destruct (H 0 (start 100) fgh_rank failed_build (call "f" "x") "F(G1)" [] []) as (oc & Hoc & Hf & Hv & Hr & Hu).
  { exact (start_fresh 100). }
  { pose proof (place_sound _ _ _ _ Hp) as (H1 & H2 & H3 & H4).
    split; [exact H1|]. split; [exact H2|].
    split; [|split; [exact H3|split; [exact (same_calls_sound _ _ Hc)|exact H4]]].
    intros a o b Hos Hun.
    assert (each (fun a o => negb (unwinding ident sbk 0 false (start 100) a) ||
      match o with OBegin _ _ | OEnd _ _ => false | _ => true end) (failed_build ++ [OBegin 0 (call "f" "x")])) as Hq by by vm_compute.
    pose proof (at_each _ _ Hq _ _ _ Hos) as Hb. cbv beta in Hb. rewrite Hun in Hb. destruct o; (exact I || discriminate Hb). }
  { by vm_compute. }
  assert (oc = Occ [] (call "f" "x") [OBegin 0 (call "g" "a"); OEnd 0 "G1"] "F(G1)") as ->.
  { apply all_occs_sound in Hoc. revert Hoc Hf.
    replace (all_occs (start 100) failed_build) with
      [Occ [] (call "f" "x") [OBegin 0 (call "g" "a"); OEnd 0 "G1"] "F(G1)";
       Occ [OBegin 0 (call "f" "x")] (call "g" "a") [] "G1";
       Occ (take 7 failed_build) (call "g" "a") [] "G2"] by (vm_compute; reflexivity).
    rewrite !elem_of_cons, elem_of_nil. intros [->|[->|[->|[]]]]; done. }
  inversion Hu as [oc' _ _ Hcalls]; subst.
  destruct (Hcalls [] (call "g" "a") [OEnd 0 "G1"]) as (oc' & Ha & Hu').
  { split; [done|]. by vm_compute. }
  destruct Ha as [(Hb & Hq & _)|(srcs & dsts & Hh & _)].
  - inversion Hu' as [oc2 Hcode _ _]; subst. unfold oc_code, oc_fun in Hcode. rewrite Hb, Hq in Hcode.
    by vm_compute in Hcode.
  - by vm_compute in Hh.
Qed.

(** *** The files of nested calls *)
(** A hit whose run called another cached function does not mean that the source files declared by
    that nested call are unchanged. *)
Definition nested_sources_checked : Prop :=
  forall (s0 : ssys) rank a rq b r c b1 rq' b2 f,
    fresh pdb_empty s0 -> let os := a ++ OBegin 0 rq :: b ++ OEnd 0 r :: c in
    one_place String.eqb ident 0 s0 rank (os ++ [OBegin 0 rq]) ->
    runs_during ident sbk s0 0 rq a b -> makes_call ident sbk 0 s0 a rq b b1 rq' b2 -> f ∈ rq_srcs rq' ->
    not_called (rq_fun rq) c ->
    digest_at ident (s_env (srun s0 os)) f <> digest_at ident (s_env (srun s0 (a ++ OBegin 0 rq :: b1))) f ->
    forall srcs dsts, snd (step ident sbk (srun s0 os) (OBegin 0 rq)) <> RHit r srcs dsts.

Theorem C71_nested_sources_refuted : ~ nested_sources_checked.
Proof.
  intros H.
  refine (H (start 100) fgh_rank [OWrite "a.c" "1" 5; OTick 2000000] (call "f" "x")
    [OBegin 0 (call_src "g" "a" ["a.c"]); OEnd 0 "G(1)"] "F(G(1))" [OWrite "a.c" "2" 6; OTick 2000000]
    [] (call_src "g" "a" ["a.c"]) [OEnd 0 "G(1)"] "a.c" _ _ _ _ _ _ _ [] [] _).
  - exact (start_fresh 100).
  - apply (one_place_sound _ fgh_caller); by vm_compute.
  - split; [|by vm_compute]. split; [by vm_compute|]. prefixes.
  - split; [done|]. by vm_compute.
  - by left.
  - not_in.
  - by vm_compute.
  - by vm_compute.
Qed.

Print Assumptions C71_up_to_date.
Print Assumptions C71_one_place.
Print Assumptions C71_failed_build_refuted.
Print Assumptions C71_nested_sources_refuted.
