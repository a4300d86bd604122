(** C81: what the SQLite backend stores about a function is what its own recorded runs returned. *)
From stdpp Require Import base list strings gmap.
From Coq Require Import ZArith Lia.
From Verif Require Import PyMonad DbModel DbSpec DbClaims DbHistory SqlBackend SqlSpec DbRefute SqlRefute SqlRecords.
Local Open Scope string_scope.
Local Open Scope list_scope.

Section Props.
  Context {V R : Type} (veq : V -> V -> bool) (md5 : content -> digest).
  Notation BK := (sql_backend (V := V) (R := R) veq md5).
  Notation sys := (sys V R (conn V R) nat nat nat).
  Notation op := (op V R).
  Notation step := (step md5 BK).
  Notation runs := (runs md5 BK).
  Notation now s := (stored (k_cur (s_db s))).

  (** A hit returns what a run of the same code with equal arguments returned, whose recording
      succeeded: in any history of any number of threads, however files change and whichever
      recordings fail. *)
  Theorem C81_recorded (s0 : sys) (os : list op) t (rq : request V R) r srcs dsts :
    equivalence_test veq -> fresh conn_empty s0 ->
    let s := runs s0 os in snd (step s (OBegin t rq)) = RHit r srcs dsts ->
    exists ru, ran md5 BK s0 os ru /\ ru_recorded ru = true /\ rq_fun (ru_req ru) = rq_fun rq /\
      veq (rq_bound rq) (rq_bound (ru_req ru)) = true /\ ru_result ru = r /\
      e_fun (s_env s) !! rq_fun rq = Some (ru_digest ru).
  Proof. exact (recorded veq md5 s0 os t rq r srcs dsts). Qed.

  (** Operations on other functions leave what is stored about [gn] alone. *)
  Theorem C81_untouched (s0 : sys) (os : list op) (o : op) gn :
    equivalence_test veq -> fresh conn_empty s0 -> settled veq md5 s0 gn os ->
    (forall funs, o <> ORestart funs) -> let s := runs s0 os in
    deals_with s o <> Some gn -> now (fst (step s o)) gn = now s gn.
  Proof. intros Hv Hf Hs Hr s Hd. apply (untouched veq md5); auto. Qed.
  (** So do calls of [gn] that begin, raise, or end with an error. *)
  Theorem C81_only_recording (s0 : sys) (os : list op) (o : op) gn :
    equivalence_test veq -> fresh conn_empty s0 -> settled veq md5 s0 gn os -> let s := runs s0 os in
    (exists t rq, o = OBegin t rq) \/ (exists t, o = ORaise t) \/ (exists t r x, o = OEnd t r /\ snd (step s o) = RErr x) ->
    now (fst (step s o)) gn = now s gn.
  Proof.
    intros Hv Hf Hs s Ho. apply (untouched veq md5); auto.
    - intros funs ->. destruct Ho as [(? & ? & ?)|[[? ?]|(? & ? & ? & ? & _)]]; discriminate.
    - destruct Ho as [?|[?|?]]; auto.
  Qed.

  (** Deleting a function removes what is stored about it and nothing about the others; without
      anything stored a call runs. *)
  Theorem C81_deleted (s0 : sys) (os : list op) fn :
    equivalence_test veq -> fresh conn_empty s0 ->
    let s := runs s0 os in let s' := fst (step s (ODelFun fn)) in
    now s' fn = None /\ forall gn, gn <> fn -> now s' gn = now s gn.
  Proof. exact (deleted veq md5 s0 os fn). Qed.
  Theorem C81_not_stored (s : sys) t (rq : request V R) r srcs dsts :
    now s (rq_fun rq) = None -> snd (step s (OBegin t rq)) <> RHit r srcs dsts.
  Proof. exact (not_stored veq md5 s t rq r srcs dsts). Qed.
  (** Deleting a file makes the calls that declare it as a source run. *)
  Theorem C81_deleted_file (s : sys) f : let s' := fst (step s (ODelFile f)) in
    (forall gn, now s' gn = now s gn) /\
    forall t rq r srcs dsts, f ∈ rq_srcs rq -> snd (step s' (OBegin t rq)) <> RHit r srcs dsts.
  Proof. exact (deleted_file veq md5 s f). Qed.

  (** The destinations a hit reports exist; declared ones and those named by the result are among them. *)
  Theorem C81_outputs (s : sys) t (rq : request V R) r srcs dsts :
    snd (step s (OBegin t rq)) = RHit r srcs dsts ->
    (forall f, f ∈ rq_dsts rq -> f ∈ dsts) /\ (forall f, f ∈ rq_ret rq r -> f ∈ dsts) /\
    forall f, f ∈ dsts -> is_Some (e_fs (s_env s) !! f).
  Proof. exact (outputs veq md5 s t rq r srcs dsts). Qed.
End Props.

(** ** Outside the quantifier *)

(** A deletion that nothing committed is undone by the failing call of another function. *)
Definition C81_undone_claim : Prop :=
  forall V R (veq : V -> V -> bool) md5 (s0 : sys V R (conn V R) nat nat nat) os o gn,
  equivalence_test veq -> fresh conn_empty s0 -> (forall funs, o <> ORestart funs) ->
  let s := runs md5 (sql_backend veq md5) s0 os in
  deals_with s o <> Some gn ->
  stored (k_cur (s_db (fst (step md5 (sql_backend veq md5) s o)))) gn = stored (k_cur (s_db s)) gn.
Definition undone : list (op string string) :=
  [OBegin 0 (call "g" "x"); OEnd 0 "G"; ODelFun "g"; OBegin 0 (call "f" "y"); OAddExt 0 ["missing"] [] false].
Theorem C81_undone_refuted : ~ C81_undone_claim.
Proof.
  intros H. specialize (H string string String.eqb ident (qstart 100) undone (OEnd 0 "F") "g" string_equivalence (qstart_fresh _)).
  assert (stored (k_cur (s_db (runs ident qbk (qstart 100) undone))) "g" = None /\
    is_Some (stored (k_cur (s_db (fst (step ident qbk (runs ident qbk (qstart 100) undone) (OEnd 0 "F"))))) "g")) as [H1 [y H2]].
  { split; [by vm_compute|]. eexists. by vm_compute. }
  cbv zeta in H. fold qbk in H. rewrite H1, H2 in H. assert (Some y = None) as H3; [|done].
  apply H; [done|]. by vm_compute.
Qed.
(** The call of the deleted function then returns the deleted value. *)
Example C81_undone_hit : snd (step ident qbk (runs ident qbk (qstart 100) (undone ++ [OEnd 0 "F"])) (OBegin 0 (call "g" "x"))) = RHit "G" [] [].
Proof. by vm_compute. Qed.

(** Deleting reports whether there was anything. *)
Definition C81_reported_claim : Prop :=
  forall V R (veq : V -> V -> bool) md5 (s0 : sys V R (conn V R) nat nat nat) os fn,
  equivalence_test veq -> fresh conn_empty s0 ->
  let s := runs md5 (sql_backend veq md5) s0 os in
  exists b, snd (step md5 (sql_backend veq md5) s (ODelFun fn)) = RBool b /\ (b = true <-> is_Some (stored (k_cur (s_db s)) fn)).
Theorem C81_reported_refuted : ~ C81_reported_claim.
Proof.
  intros H. destruct (H _ _ _ ident (qstart 100) (take 2 undone) "g" string_equivalence (qstart_fresh _)) as (b & Hb & Hiff).
  assert (b = false) as -> by (vm_compute in Hb; by injection Hb).
  assert (is_Some (stored (k_cur (s_db (runs ident qbk (qstart 100) (take 2 undone)))) "g")) as Hs by (eexists; by vm_compute).
  by apply Hiff in Hs.
Qed.

(** A call that registered an external destination runs again when that is gone. *)
Definition C81_external_claim : Prop :=
  forall V R (veq : V -> V -> bool) md5 F (s0 : sys V R (conn V R) nat nat nat) a t rq b r c f srcs dsts,
  let BK := sql_backend (R := R) veq md5 in
  equivalence_test veq -> fresh conn_empty s0 -> fs_faithful F (s_env s0) ->
  history_ok md5 BK F s0 (a ++ OBegin t rq :: b ++ OEnd t r :: c) ->
  runs_during md5 BK s0 t rq a b ->
  registered md5 BK s0 (fun _ xd => xd) t rq a b f ->
  snd (step md5 BK (runs md5 BK s0 (a ++ OBegin t rq :: b)) (OEnd t r)) = RDone r srcs dsts ->
  not_called (rq_fun rq) c ->
  let s := runs md5 BK s0 (a ++ OBegin t rq :: b ++ OEnd t r :: c) in
  e_fs (s_env s) !! f = None -> forall t', ~ hits md5 BK s t' rq.
Ltac ext_dst rq b r c srcs := let H := fresh in intros H;
  refine (H _ _ _ ident hdr (qstart 100) [OWrite (V := string) (R := string) "o" "1" 1] 0 rq b r c "o" srcs ["o"] string_equivalence (qstart_fresh _) (q_faithful _ _) _ _ _ _ _ _ 0 _);
  [apply q_ok_check_sound; by vm_compute
  |split; [split; [by vm_compute|qprefixes]|by vm_compute]
  |eexists [], _, _, _, []; split; [done|]; split; [by left|by left]
  |by vm_compute
  |unfold not_called; not_in
  |by vm_compute
  |eexists _, _, _; by vm_compute].
(** Another call writes the file anew, which forgets that it is a destination of the first; *)
Theorem C81_external_refuted : ~ C81_external_claim.
Proof.
  ext_dst (call "g" "x") [OAddExt (V := string) (R := string) 0 [] ["o"] false] "G"
    [OBegin 0 (call "h" "y"); OWrite "o" "2" 2; OAddExt 0 [] ["o"] false; OEnd 0 "H"; ORemove "o"] (@nil name).
Qed.
(** and a file that is both an external source and an external destination is not stored as a destination. *)
Theorem C81_external_both_refuted : ~ C81_external_claim.
Proof.
  ext_dst (call "g" "x") [OAddExt (V := string) (R := string) 0 ["o"] ["o"] false] "G"
    [ORemove (V := string) (R := string) "o"] ["o"].
Qed.

(** Deleting a file makes the calls that registered it as an external source run. *)
Definition C81_external_file_claim : Prop :=
  forall V R (veq : V -> V -> bool) md5 F (s0 : sys V R (conn V R) nat nat nat) a t rq b r c f srcs dsts,
  let BK := sql_backend (R := R) veq md5 in
  equivalence_test veq -> fresh conn_empty s0 -> fs_faithful F (s_env s0) ->
  history_ok md5 BK F s0 (a ++ OBegin t rq :: b ++ OEnd t r :: ODelFile f :: c) ->
  runs_during md5 BK s0 t rq a b ->
  registered md5 BK s0 (fun xs _ => xs) t rq a b f ->
  snd (step md5 BK (runs md5 BK s0 (a ++ OBegin t rq :: b)) (OEnd t r)) = RDone r srcs dsts ->
  not_called (rq_fun rq) c ->
  let s := runs md5 BK s0 (a ++ OBegin t rq :: b ++ OEnd t r :: ODelFile f :: c) in
  forall t', ~ hits md5 BK s t' rq.
(** It does the opposite: afterwards not even a change of the file is noticed. *)
Theorem C81_external_file_refuted : ~ C81_external_file_claim.
Proof.
  intros H.
  refine (H _ _ _ ident hdr (qstart 100) [OWrite (V := string) (R := string) "x.h" "1" 1] 0 (call "g" "x")
    [OAddExt (V := string) (R := string) 0 ["x.h"] [] false] "G" [OWrite (V := string) (R := string) "x.h" "2" 2] "x.h" ["x.h"] []
    string_equivalence (qstart_fresh _) (q_faithful _ _) _ _ _ _ _ 0 _).
  - apply q_ok_check_sound. by vm_compute.
  - split; [split; [by vm_compute|qprefixes]|by vm_compute].
  - eexists [], _, _, _, []. split; [done|]. split; [by left|by left].
  - by vm_compute.
  - unfold not_called. not_in.
  - eexists _, _, _. by vm_compute.
Qed.

(** ** Examples *)

(** Two threads; f runs while g is recorded, deleted and, after a save, recorded again; a recording fails; h calls g. *)
Definition mixed : list (op string string) :=
  [OWrite "s" "1" 1; OBegin 0 (call_src "f" "x" ["s"]); OBegin 1 (call "g" "y"); OEnd 1 "G"; ODelFun "g"; OSave;
   OBegin 1 (call "h" "z"); OBegin 1 (call "g" "y"); OEnd 1 "G2"; OEnd 1 "H"; OEnd 0 "F";
   OBegin 0 (call "f" "y"); OAddExt 0 ["missing"] [] false].
Example C81_ex : let s := runs ident qbk (qstart 100) mixed in let failed := fst (step ident qbk s (OEnd 0 "F2")) in
  fresh conn_empty (qstart 100) /\ settled String.eqb ident (qstart 100) "g" mixed /\
  snd (step ident qbk s (OEnd 0 "F2")) = RErr OSErr /\
  deals_with s (OEnd 0 "F2") = Some "f" /\
  stored (k_cur (s_db failed)) "g" = Some ("g1", [], [("y", "G2")]) /\
  stored (k_cur (s_db failed)) "f" = Some ("f1", ["g"; "h"], [("x", "F")]) /\
  stored (k_cur (s_db failed)) "h" = Some ("h1", ["g"], [("z", "H")]) /\
  snd (step ident qbk failed (OBegin 0 (call "g" "y"))) = RHit "G2" [] [] /\
  snd (step ident qbk failed (OBegin 0 (call "f" "y"))) = RRun.
Proof.
  split; [done|]. split; [|by vm_compute].
  intros a b Hab. exists [], OSave, (drop 6 mixed). assert (a = take 4 mixed) as Ha.
  { assert (mixed !! length a = Some (ODelFun "g")) as Hl by (by rewrite Hab, list_lookup_middle).
    assert (length a = 4) as Hlen.
    { destruct (length a) as [|[|[|[|[|[|[|[|[|[|[|[|[|n]]]]]]]]]]]]]; try discriminate Hl; done. }
    rewrite <- Hlen, Hab. by rewrite take_app. }
  subst a. split; [|by left]. unfold mixed in Hab. simpl in Hab. by injection Hab as <-.
Qed.
(** A declared destination, and one named by the result. *)
Definition both : request string string := Request "f" "x" [] ["d"] (fun r => [r]).
Example C81_outputs_ex :
  snd (step ident qbk (runs ident qbk (qstart 100) [OBegin 0 both; OWrite "d" "1" 1; OWrite "e" "1" 1; OEnd 0 "e"]) (OBegin 0 both)) = RHit "e" [] ["d"; "e"] /\
  snd (step ident qbk (runs ident qbk (qstart 100) [OBegin 0 both; OWrite "d" "1" 1; OWrite "e" "1" 1; OEnd 0 "e"; ORemove "e"]) (OBegin 0 both)) = RRun.
Proof. by vm_compute. Qed.
(** Deleting the source makes the call run, which otherwise it does not. *)
Example C81_deleted_file_ex : let os := [OWrite "s" "1" 1; OBegin 0 (call_src "f" "x" ["s"]); OEnd 0 "F"] in
  snd (step ident qbk (runs ident qbk (qstart 100) os) (OBegin 0 (call_src "f" "x" ["s"]))) = RHit "F" ["s"] [] /\
  snd (step ident qbk (runs ident qbk (qstart 100) (os ++ [ODelFile "s"])) (OBegin 0 (call_src "f" "x" ["s"]))) = RRun.
Proof. by vm_compute. Qed.

Print Assumptions C81_recorded.
Print Assumptions C81_untouched.
Print Assumptions C81_only_recording.
Print Assumptions C81_deleted.
Print Assumptions C81_not_stored.
Print Assumptions C81_deleted_file.
Print Assumptions C81_outputs.
Print Assumptions C81_undone_refuted.
Print Assumptions C81_reported_refuted.
Print Assumptions C81_external_refuted.
Print Assumptions C81_external_both_refuted.
Print Assumptions C81_external_file_refuted.
