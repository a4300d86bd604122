(** C87: with the SQLite backend, building again gives what building from scratch would give. *)
From stdpp Require Import base list strings gmap.
From Coq Require Import ZArith Lia.
From Verif Require Import PyMonad DbModel DbSpec DbClaims DbHistory SqlBackend SqlSpec DbRefute SqlRefute CodeSpec PropsDb2 PropsCode
  TargetSpec CompileFacts PropsCompile LatestSpec SqlLatest PropsLatest AgainSpec AgainFacts PropsAgain.
Local Open Scope string_scope.
Local Open Scope list_scope.

Section Props.
  Context {V R : Type} (veq : V -> V -> bool) (md5 : content -> digest).
  Notation BK := (sql_backend (V := V) (R := R) veq md5).
  Notation sys := (sys V R (conn V R) nat nat nat).
  Notation op := (op V R).
  Notation step := (step md5 BK).
  Notation runs := (runs md5 BK).
  Notation project := (list (request V R * deed R)).

  (** Calls read their declared sources only. *)
  Definition declares_reads (G : nature (V := V) (R := R)) : Prop := forall f d b w, d_reads (G f d b w) = [].
  (** The project was built in thread [t], after any history of any number of threads. *)
  Record sql_built (ok : nature (V := V) (R := R) -> Prop) F D G t (s0 : sys) os rqs rs b (code : name -> digest) : Prop := {
    sb_fresh : fresh conn_empty s0;
    sb_files : fs_faithful F (s_env s0);
    sb_history : history_ok md5 BK F s0 (os ++ b);
    sb_declared : declared_by veq D (os ++ b);
    sb_calm : calm veq md5 BK s0 (os ++ b);
    sb_decided : decided veq D G;
    sb_reads : ok G;
    sb_order : in_order (from_scratch md5 G code (digest_at md5 (s_env (runs s0 os))) rqs);
    sb_targets : targets_declared (from_scratch md5 G code (digest_at md5 (s_env (runs s0 os))) rqs);
    sb_build : building md5 BK t s0 (from_scratch md5 G code (digest_at md5 (s_env (runs s0 os))) rqs) os
      (from_scratch md5 G code (digest_at md5 (s_env (runs s0 os))) rqs) rs b;
    sb_functions : forall rq, rq ∈ rqs -> e_fun (s_env (runs s0 os)) !! rq_fun rq = Some (code (rq_fun rq));
    sb_did : forall t', did veq md5 BK t' s0 G (from_scratch md5 G code (digest_at md5 (s_env (runs s0 os))) rqs) (os ++ b);
    sb_own : forall rq k f, (rq, k) ∈ from_scratch md5 G code (digest_at md5 (s_env (runs s0 os))) rqs ->
      is_Some (d_files k !! f) -> only_written_in veq md5 BK s0 (os ++ b) rq f
  }.
  (** After a build each call has answered what it would have answered and each target has the contents
      it would have if all calls had run on the sources as they are now. *)
  Definition sql_again (ok : nature (V := V) (R := R) -> Prop) : Prop :=
    forall F D G t (s0 : sys) os rqs rs b code,
      sql_built ok F D G t s0 os rqs rs b code ->
      let l := from_scratch md5 G code (digest_at md5 (s_env (runs s0 os))) rqs in
      rs = (fun x => d_result (snd x)) <$> l /\
      forall rq k f ct, (rq, k) ∈ l -> d_files k !! f = Some ct ->
        exists m, e_fs (s_env (runs s0 (os ++ b))) !! f = Some (m, ct).

  Lemma calm_app s0 (a c : list op) : calm veq md5 BK s0 (a ++ c) -> calm veq md5 BK s0 a.
  Proof.
    intros [H1 H2 H3 H4]. constructor.
    - intros a' t r c' x ->. apply (H1 a' t r (c' ++ c)). by rewrite <- app_assoc.
    - intros a' t c' ->. apply (H2 a' t (c' ++ c)). by rewrite <- app_assoc.
    - intros a' fs c' ->. apply (H3 a' fs (c' ++ c)). by rewrite <- app_assoc.
    - intros a' t rq c' ->. apply (H4 a' t rq (c' ++ c)). by rewrite <- app_assoc.
  Qed.

  Theorem C87_again : equivalence_test veq -> sql_again declares_reads.
  Proof.
    intros Hv F D G t s0 os0 rqs rs b code Hsb l.
    destruct Hsb as [Hf Hfs Hh HD Hcm HG Hrd Hord Htd Hb Hfun Hdid Hown]. fold l in Hord, Htd, Hb, Hdid, Hown.
    set (full := os0 ++ b) in *.
    assert (forall os rq k r srcs dsts rest,
      full = os ++ OBegin t rq :: rest -> (rq, k) ∈ l ->
      G (rq_fun rq) (code (rq_fun rq)) (rq_bound rq) (digest_at md5 (s_env (runs s0 os))) = k ->
      e_fun (s_env (runs s0 os)) !! rq_fun rq = Some (code (rq_fun rq)) ->
      snd (step (runs s0 os) (OBegin t rq)) = RHit r srcs dsts ->
      r = d_result k /\ forall f ct, d_files k !! f = Some ct -> exists m, e_fs (s_env (runs s0 os)) !! f = Some (m, ct)) as Hplanned.
    { intros os rq k r srcs dsts rest Hfull Hin Hnow Hcode Hhit.
      assert (full = (os ++ [OBegin t rq]) ++ rest) as Hfull' by (rewrite Hfull; by rewrite <- app_assoc).
      assert (history_ok md5 BK F s0 os) as Hh'.
      { eapply (history_ok_app _). by rewrite <- Hfull. }
      assert (calm veq md5 BK s0 (os ++ [OBegin t rq])) as Hcm' by (eapply calm_app; by rewrite <- Hfull').
      destruct (C86_latest veq md5 Hv F s0 os t rq r srcs dsts Hf Hfs Hh' Hcm' Hhit)
        as (t' & oc & (rest' & Hos & Hrun & _) & Hr & [Hc1 Hc2] & _ & Hoc & Hdecl & Hdsts & Hfiles).
      assert (completed md5 BK t' s0 full oc) as Hcomp.
      { exists (rest' ++ OBegin t rq :: rest). split; [|done]. rewrite Hfull, Hos. unfold oc_upto.
        repeat (rewrite <- ?app_assoc; simpl). done. }
      rewrite Hcode in Hoc. symmetry in Hoc.
      assert (rq_srcs rq = D (rq_fun rq) (rq_bound rq)) as Hs1.
      { apply (proj1 HD t). rewrite Hfull. apply elem_of_app. right. by left. }
      assert (rq_srcs (oc_req oc) = rq_srcs rq) as Hsrc.
      { rewrite Hs1, (proj1 HD t' (oc_req oc)).
        - rewrite Hc1. symmetry. by apply (proj2 HD).
        - rewrite Hfull, Hos. unfold oc_upto. rewrite !elem_of_app, elem_of_cons. tauto. }
      pose proof (Hdid t' rq k oc _ Hin Hcomp (conj Hc1 Hc2) Hoc) as (Hres & Hout & _).
      assert (G (oc_fun oc) (code (rq_fun rq)) (rq_bound (oc_req oc)) (digest_at md5 (s_env (runs s0 (oc_before oc)))) = k) as Hk.
      { unfold oc_fun. rewrite Hc1, <- Hnow. apply HG; [by apply (proj1 (proj2 Hv))|]. intros g [Hg|Hg].
        - symmetry. apply Hdecl; [|rewrite Hsrc]; rewrite Hs1; by rewrite (proj2 HD _ _ _ Hc2).
        - rewrite Hrd in Hg. by apply elem_of_nil in Hg. }
      cbv zeta in Hres, Hout. rewrite Hk in Hres, Hout. split; [congruence|].
      intros f ct Hfc. destruct (Hfiles f) as [_ Hsame].
      { apply Hdsts. destruct (Htd rq k f Hin ltac:(eauto)) as [H|H]; [by left|right]. rewrite <- Hr, Hres. exact H. }
      rewrite Hsame; [by apply Hout|]. intros a ct' m c Ho. apply (Hown rq k f Hin ltac:(eauto) a ct' m (c ++ OBegin t rq :: rest)).
      rewrite Hfull, Ho. by rewrite <- app_assoc. }
    destruct (build_ok veq md5 BK (proj1 Hv) D G t s0 full code l HD HG (Hdid t) Hplanned os0 l rs b Hb
      (digest_at md5 (s_env (runs s0 os0))) rqs) as (H1 & H2 & _); done.
  Qed.

  (** *** What was built before makes no difference *)
  Theorem C87_same F D G t (s0 : sys) os rqs rs b code F' t' (s0' : sys) os' rs' b' :
    equivalence_test veq -> (forall rq, rq ∈ rqs -> rq_srcs rq = D (rq_fun rq) (rq_bound rq)) ->
    sql_built declares_reads F D G t s0 os rqs rs b code -> sql_built declares_reads F' D G t' s0' os' rqs rs' b' code ->
    let l := from_scratch md5 G code (digest_at md5 (s_env (runs s0 os))) rqs in
    (forall f, part l f -> ~ writes l f ->
       digest_at md5 (s_env (runs s0 os)) f = digest_at md5 (s_env (runs s0' os')) f) ->
    rs = rs' /\
    forall f, writes l f -> exists ct m m', e_fs (s_env (runs s0 (os ++ b))) !! f = Some (m, ct) /\
      e_fs (s_env (runs s0' (os' ++ b'))) !! f = Some (m', ct).
  Proof.
    intros Hv HD A B l Hsame.
    destruct (C87_again Hv F D G t s0 os rqs rs b code A) as [Hr Hfl].
    destruct (C87_again Hv F' D G t' s0' os' rqs rs' b' code B) as [Hr' Hfl'].
    rewrite (scratch_same veq md5 (proj1 Hv) G code D (sb_decided _ _ _ _ _ _ _ _ _ _ _ A) rqs _ _ HD (sb_order _ _ _ _ _ _ _ _ _ _ _ A) Hsame) in Hr', Hfl'.
    split; [congruence|].
    intros f (rq & k & Hin & ct & Hct). destruct (Hfl rq k f ct Hin Hct) as [m Hm]. destruct (Hfl' rq k f ct Hin Hct) as [m' Hm'].
    eauto.
  Qed.
End Props.

(** *** Concrete histories *)
Section Checks.
  Context (D : name -> string -> list name) (HD : forall fn b b', String.eqb b b' = true -> D fn b = D fn b').
  Context (G : nature (V := string) (R := string)) (s0 : qsys).
  Definition sb_declared_b (o : sop) : bool :=
    match o with OBegin _ rq => bool_decide (rq_srcs rq = D (rq_fun rq) (rq_bound rq)) | _ => true end.
  Lemma sb_declared_sound os : forallb sb_declared_b os = true -> declared_by String.eqb D os.
  Proof.
    intros H. split; [|done]. intros t rq Hin. rewrite forallb_forall in H. apply elem_of_list_In, H in Hin.
    by apply bool_decide_eq_true in Hin.
  Qed.
  Definition sb_plan (oc : occ string string) (d : digest) : deed string :=
    G (oc_fun oc) d (rq_bound (oc_req oc)) (digest_at ident (s_env (qrun s0 (oc_before oc)))).
  Definition sb_did_b (fs : list name) (toc : nat * occ string string) : bool :=
    let '(t, oc) := toc in
    match oc_code ident qbk s0 oc with
    | Some d =>
        let k := sb_plan oc d in
        negb (bool_decide (oc_fun oc ∈ fs)) ||
        (String.eqb (oc_result oc) (d_result k) &&
         forallb (fun fc : name * content => match e_fs (oc_end ident qbk t s0 oc) !! fc.1 with
                            | Some (_, ct) => String.eqb ct fc.2 | None => false end) (map_to_list (d_files k)) &&
         forallb (fun f => existsb (fun bd => match bd.2 with
                             | OAddExt t' xs _ false :: _ => Nat.eqb t' t && bool_decide (f ∈ xs) | _ => false end) (splits (oc_during oc)) &&
           bool_decide (digest_at ident (oc_end ident qbk t s0 oc) f = digest_at ident (s_env (qrun s0 (oc_before oc))) f)) (d_reads k))
    | None => true
    end.
  Lemma sb_did_sound fs l os t : forallb (sb_did_b fs) (q_occs s0 os) = true ->
    forallb (fun x => bool_decide (rq_fun x.1 ∈ fs)) l = true -> did String.eqb ident qbk t s0 G l os.
  Proof.
    intros H Hl rq k oc d Hin Hoc [Hq _] Hd. rewrite forallb_forall in H. apply q_occs_sound, elem_of_list_In, H in Hoc.
    rewrite forallb_forall in Hl. apply elem_of_list_In, Hl, bool_decide_eq_true in Hin. cbn [fst] in Hin.
    unfold sb_did_b in Hoc. rewrite Hd in Hoc. rewrite bool_decide_true in Hoc by (unfold oc_fun; by rewrite Hq).
    cbn [negb orb] in Hoc. fold (sb_plan oc d). cbv zeta in Hoc |- *.
    apply andb_prop in Hoc as [Hoc H3]. apply andb_prop in Hoc as [H1 H2]. split; [by apply String.eqb_eq in H1|]. split.
    - intros f ct Hf. rewrite forallb_forall in H2. specialize (H2 (f, ct)). cbn [fst snd] in H2.
      rewrite <- elem_of_list_In, elem_of_map_to_list in H2. specialize (H2 Hf).
      destruct (e_fs (oc_end ident qbk t s0 oc) !! f) as [[m ct']|] eqn:E; [|done]. apply String.eqb_eq in H2 as ->. by exists m.
    - intros f Hf. rewrite forallb_forall in H3. apply elem_of_list_In, H3 in Hf. apply andb_prop in Hf as [H4 H5].
      apply bool_decide_eq_true in H5. split; [|done].
      apply existsb_exists in H4 as ([b1 c] & Hs & Hc). cbn [fst snd] in Hc.
      destruct c as [|[|t' xs xd []| | | | | | | | |] c]; try done. apply andb_prop in Hc as [Ht%Nat.eqb_eq Hc]. subst t'.
      apply bool_decide_eq_true in Hc.
      apply elem_of_list_In, elem_of_list_fmap in Hs as (n & [= -> Hdr] & _).
      exists (take n (oc_during oc)), xs, xd, false, c. split; [rewrite Hdr; by rewrite take_drop|]. split; [done|]. by left.
  Qed.
End Checks.

(** f compiles "a.c" and "x.h" to "a.o"; g links "a.o" to "a". *)
Definition s_D (f : name) (_ : string) : list name := if String.eqb f "f" then ["a.c"; "x.h"] else if String.eqb f "g" then ["a.o"] else [].
Definition s_G : nature (V := string) (R := string) := fun f _ b w =>
  if String.eqb f "f" then Deed "ok" {[ "a.o" := b +:+ dg (w "a.c") +:+ dg (w "x.h") ]} []
  else if String.eqb f "g" then Deed "ok" {[ "a" := "E" +:+ dg (w "a.o") ]} [] else Deed "H" ∅ [].
Definition s_cc : request string string := Request "f" "-O" ["a.c"; "x.h"] ["a.o"] (fun _ => []).
Lemma s_decided : decided String.eqb s_D s_G.
Proof.
  intros f d b b' w w' ->%String.eqb_eq Hw. revert Hw. unfold s_G, s_D. destruct (String.eqb f "f"); [|destruct (String.eqb f "g")]; intros Hw.
  - rewrite (Hw "a.c"), (Hw "x.h"); [done|left; right; by left|left; by left].
  - rewrite (Hw "a.o"); [done|left; by left].
  - done.
Qed.
Lemma s_declares : declares_reads s_G.
Proof. intros f d b w. unfold s_G. destruct (String.eqb f "f"); [done|]. by destruct (String.eqb f "g"). Qed.
Definition s_project (c h : option digest) : list (request string string * deed string) :=
  let o := "-O" +:+ dg c +:+ dg h in
  [(s_cc, Deed "ok" {[ "a.o" := o ]} []); (p_ld, Deed "ok" {[ "a" := "E" +:+ o ]} [])].
Lemma s_scratch w c h : w "a.c" = c -> w "x.h" = h -> from_scratch ident s_G p_code w [s_cc; p_ld] = s_project c h.
Proof. intros <- <-. reflexivity. Qed.
Lemma not_written {l : list (request string string * deed string)} {f} :
  (forall rq k, (rq, k) ∈ l -> d_files k !! f = None) -> ~ writes l f.
Proof. intros H (rq & k & Hin & Hs). rewrite (H rq k Hin) in Hs. by destruct Hs. Qed.
Lemma s_in_order c h : in_order (s_project c h).
Proof.
  cbn [in_order s_project]. split_and!; try done.
  - intros f [[Hx|Hx%elem_of_list_singleton]%elem_of_cons|?%elem_of_nil]; [subst f..|done]; apply not_written;
      intros rq k [[-> ->]|[-> ->]]%two_calls; by vm_compute.
  - intros f ->%one_file. apply not_written. intros rq k [-> ->]%one_call. by vm_compute.
  - intros f [Hx%elem_of_list_singleton|?%elem_of_nil]; [subst f|done]. apply not_written. intros rq k [-> ->]%one_call. by vm_compute.
  - intros f _. apply not_written. by intros rq k ?%elem_of_nil.
Qed.
Lemma s_targets c h : targets_declared (s_project c h).
Proof. intros rq k f [[-> ->]|[-> ->]]%two_calls ->%one_file; left; by left. Qed.
Lemma s_own c h os : each (written_in_b (qstart 100) s_cc "a.o") os -> each (written_in_b (qstart 100) p_ld "a") os ->
  forall rq k f, (rq, k) ∈ s_project c h -> is_Some (d_files k !! f) -> only_written_in String.eqb ident qbk (qstart 100) os rq f.
Proof. intros H1 H2 rq k f [[-> ->]|[-> ->]]%two_calls ->%one_file; by apply written_in_sound. Qed.

(** Thread 1 builds inside h while thread 0 saves; the header is edited and another process builds in thread 0 while
    thread 1 runs h; "a" is removed, and in the third build, in thread 2, compiling is answered from the
    database and linking runs. *)
Definition s_run_cc (t : nat) (h : string) (m : Z) : list sop :=
  [OBegin t s_cc; OWrite "a.o" ("-O1" +:+ h) m; OEnd t "ok"].
Definition s_run_ld (t : nat) (o : string) (m : Z) : list sop := [OBegin t p_ld; OWrite "a" ("E" +:+ o) m; OEnd t "ok"].
Definition s_history : list sop :=
  [OWrite "a.c" "1" 5; OWrite "x.h" "h" 5; OBegin 1 (call "h" "y")] ++ s_run_cc 1 "h" 6 ++ OSave :: s_run_ld 1 "-O1h" 6 ++
  [OEnd 1 "H"; ORestart funs1; OWrite "x.h" "i" 7; OBegin 1 (call "h" "z")] ++ s_run_cc 0 "i" 8 ++ s_run_ld 0 "-O1i" 8 ++
  [OEnd 1 "H"; ORestart funs1; ORemove "a"].
Definition s_third : list sop := OBegin 2 s_cc :: OTick 1 :: s_run_ld 2 "-O1i" 9.
Ltac built :=
  constructor; rewrite ?(s_scratch _ (Some "1") (Some "i")) by (vm_compute; reflexivity);
  [apply qstart_fresh|apply q_faithful|apply q_ok_check_sound; by vm_compute|apply sb_declared_sound; [done|by vm_compute]
  |constructor; [apply recorded_sound|apply returns_sound|apply end_sound|apply apart_sound]; by vm_compute
  |exact s_decided|exact s_declares|apply s_in_order|apply s_targets|
  |intros rq [->|Hx%elem_of_list_singleton]%elem_of_cons; [|subst]; by vm_compute
  |intros t'; apply (sb_did_sound _ _ ["f"; "g"]); by vm_compute
  |apply s_own; by vm_compute].
Example C87_example :
  equivalence_test String.eqb /\
  sql_built String.eqb ident declares_reads p_F s_D s_G 2 (qstart 100) s_history [s_cc; p_ld] ["ok"; "ok"] s_third p_code /\
  kinds (outs ident qbk (qstart 100) (s_history ++ s_third)) =
    ["runs"; "runs"; "done"; "runs"; "done"; "done"; "runs"; "runs"; "done"; "runs"; "done"; "done"; "hit"; "runs"; "done"] /\
  e_fs (s_env (qrun (qstart 100) (s_history ++ s_third))) !! "a" = Some (9%Z, "E-O1i").
Proof.
  split; [exact string_equivalence|]. split.
  { built.
    eapply BHit; [by vm_compute|]. apply BAside; [done|].
    apply (BRun ident qbk 2 (qstart 100) _ _ p_ld _ [OWrite "a" "E-O1i" 9%Z] "ok" [] [] []); [apply q_during_sound; by vm_compute| |apply BDone].
    intros o f ->%elem_of_list_singleton. cbn [touches]. intros <- _. eexists. apply lookup_singleton. }
  split; by vm_compute.
Qed.
(** The same from scratch. *)
Definition s_scratch_start : list sop := [OWrite "x.h" "i" 7; OWrite "a.c" "1" 5].
Example C87_same_example :
  sql_built String.eqb ident declares_reads p_F s_D s_G 0 (qstart 100) s_scratch_start [s_cc; p_ld] ["ok"; "ok"]
    (s_run_cc 0 "i" 8 ++ s_run_ld 0 "-O1i" 8) p_code /\
  forall f, part (s_project (Some "1") (Some "i")) f -> ~ writes (s_project (Some "1") (Some "i")) f ->
    digest_at ident (s_env (qrun (qstart 100) s_history)) f = digest_at ident (s_env (qrun (qstart 100) s_scratch_start)) f.
Proof.
  split.
  - built.
    apply (BRun ident qbk 0 (qstart 100) _ _ s_cc _ [OWrite "a.o" "-O1i" 8%Z] "ok" _ _ (s_run_ld 0 "-O1i" 8));
      [apply q_during_sound; by vm_compute| |].
    { intros o f ->%elem_of_list_singleton. cbn [touches]. intros <- _. eexists. apply lookup_singleton. }
    apply (BRun ident qbk 0 (qstart 100) _ _ p_ld _ [OWrite "a" "E-O1i" 8%Z] "ok" [] [] []);
      [apply q_during_sound; by vm_compute| |apply BDone].
    intros o f ->%elem_of_list_singleton. cbn [touches]. intros <- _. eexists. apply lookup_singleton.
  - intros f [H|(rq & k & [[-> ->]|[-> ->]]%two_calls & [Hn|?%elem_of_nil])] Hw; try done.
    + cbn [rq_srcs s_cc] in Hn. apply elem_of_cons in Hn as [->|Hx%elem_of_list_singleton]; [|subst f]; by vm_compute.
    + cbn [rq_srcs p_ld] in Hn. apply elem_of_list_singleton in Hn as ->. destruct Hw. eexists _, _.
      split; [by left|]. eexists. apply lookup_singleton.
Qed.

(** *** Beyond the claim *)
(** f compiles the source its argument names, which includes "x.h": this is registered, not declared. *)
Definition h_D (f : name) (b : string) : list name := if String.eqb f "f" then [b +:+ ".c"] else [].
Definition h_G : nature (V := string) (R := string) := fun f _ b w =>
  if String.eqb f "f" then Deed "ok" {[ b +:+ ".o" := dg (w (b +:+ ".c")) +:+ dg (w "x.h") ]} ["x.h"] else Deed "H" ∅ [].
Definition h_cc (b : string) : request string string := Request "f" b [b +:+ ".c"] [b +:+ ".o"] (fun _ => []).
Lemma h_decided : decided String.eqb h_D h_G.
Proof.
  intros f d b b' w w' ->%String.eqb_eq Hw. revert Hw. unfold h_G, h_D. destruct (String.eqb f "f"); intros Hw; [|done].
  rewrite (Hw (b' +:+ ".c")), (Hw "x.h"); [done|right; by left|left; by left].
Qed.
Definition h_project (c d h : option digest) : list (request string string * deed string) :=
  [(h_cc "a", Deed "ok" {[ "a.o" := dg c +:+ dg h ]} ["x.h"]); (h_cc "b", Deed "ok" {[ "b.o" := dg d +:+ dg h ]} ["x.h"])].
Lemma h_scratch w c d h : w "a.c" = c -> w "b.c" = d -> w "x.h" = h -> from_scratch ident h_G p_code w [h_cc "a"; h_cc "b"] = h_project c d h.
Proof. intros <- <- <-. reflexivity. Qed.
Definition h_run (b src h : string) (m : Z) : list sop :=
  [OBegin 0 (h_cc b); OAddExt 0 ["x.h"] [] false; OWrite (b +:+ ".o") (src +:+ h) m; OEnd 0 "ok"].
Definition h_history : list sop :=
  [OWrite "a.c" "1" 5; OWrite "b.c" "2" 5; OWrite "x.h" "h" 5] ++ h_run "a" "1" "h" 6 ++ h_run "b" "2" "h" 6 ++ [OWrite "x.h" "i" 7].
Definition h_F (f : name) (m : Z) : content :=
  if String.eqb f "a.c" then "1" else if String.eqb f "b.c" then "2"
  else if String.eqb f "x.h" then (if decide (m = 5)%Z then "h" else "i")
  else if String.eqb f "a.o" then (if decide (m = 6)%Z then "1h" else "1i") else "2h".
Lemma h_in_order c d h : in_order (h_project c d h).
Proof.
  cbn [in_order h_project]. split_and!; try done.
  - intros f [Hx%elem_of_list_singleton|Hx%elem_of_list_singleton]; subst f; apply not_written;
      intros rq k [[-> ->]|[-> ->]]%two_calls; by vm_compute.
  - intros f ->%one_file. apply not_written. intros rq k [-> ->]%one_call. by vm_compute.
  - intros f [Hx%elem_of_list_singleton|Hx%elem_of_list_singleton]; subst f; apply not_written;
      intros rq k [-> ->]%one_call; by vm_compute.
  - intros f _. apply not_written. by intros rq k ?%elem_of_nil.
Qed.
(** After the header was edited only the first of its users is compiled again. *)
Theorem C87_registered_refuted : ~ sql_again (R := string) String.eqb ident (fun _ => True).
Proof.
  intros H.
  assert (from_scratch ident h_G p_code (digest_at ident (s_env (qrun (qstart 100) h_history))) [h_cc "a"; h_cc "b"] =
    h_project (Some "1") (Some "2") (Some "i")) as El by (apply h_scratch; by vm_compute).
  destruct (H h_F h_D h_G 0 (qstart 100) h_history [h_cc "a"; h_cc "b"] ["ok"; "ok"] (h_run "a" "1" "i" 8 ++ [OBegin 0 (h_cc "b")]) p_code)
    as [_ Hfiles].
  - constructor; fold qbk; rewrite ?El.
    + apply qstart_fresh.
    + apply q_faithful.
    + apply q_ok_check_sound; by vm_compute.
    + apply sb_declared_sound; [|by vm_compute]. by intros fn b b' ->%String.eqb_eq.
    + constructor; [apply recorded_sound|apply returns_sound|apply end_sound|apply apart_sound]; by vm_compute.
    + exact h_decided.
    + done.
    + apply h_in_order.
    + intros rq k f [[-> ->]|[-> ->]]%two_calls ->%one_file; left; by left.
    + apply (BRun ident qbk 0 (qstart 100) _ _ (h_cc "a") _ [OAddExt 0 ["x.h"] [] false; OWrite "a.o" "1i" 8%Z] "ok" _ _ [OBegin 0 (h_cc "b")]);
        [apply q_during_sound; by vm_compute| |].
      { intros o f [->|Ho%elem_of_list_singleton]%elem_of_cons; cbn [touches]; [intros []|]. subst o. cbn [touches]. intros <- _.
        exists "1i". apply lookup_singleton. }
      eapply BHit; [by vm_compute|]. apply BDone.
    + intros rq [->|Hx%elem_of_list_singleton]%elem_of_cons; [|subst]; by vm_compute.
    + intros t'. apply (sb_did_sound _ _ ["f"]); by vm_compute.
    + intros rq k f [[-> ->]|[-> ->]]%two_calls ->%one_file; apply written_in_sound; by vm_compute.
  - fold qbk in Hfiles. rewrite El in Hfiles.
    destruct (Hfiles (h_cc "b") (Deed "ok" {[ "b.o" := "2i" ]} ["x.h"]) "b.o" "2i") as [m Hm]; [right; by left|apply lookup_singleton|].
    assert (e_fs (s_env (qrun (qstart 100) (h_history ++ h_run "a" "1" "i" 8 ++ [OBegin 0 (h_cc "b")]))) !! "b.o" = Some (6%Z, "2h")) as E
      by by vm_compute.
    pose proof (eq_trans (eq_sym E) Hm) as K. discriminate K.
Qed.

Print Assumptions C87_again.
Print Assumptions C87_same.
Print Assumptions C87_example.
Print Assumptions C87_same_example.
Print Assumptions C87_registered_refuted.
