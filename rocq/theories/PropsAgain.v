(** C85: building again gives what building from scratch would give. *)
From stdpp Require Import base list strings gmap.
From Coq Require Import ZArith Lia.
From Verif Require Import PyMonad DbModel DbSpec DbClaims DbHistory CacheBackend CacheStep CacheTrust CacheDeps DbRefute CodeSpec
  PropsDb2 PropsCode TargetSpec TargetInv CompileFacts PropsTarget PropsCompile AgainSpec AgainFacts.
Local Open Scope string_scope.
Local Open Scope list_scope.

Section Props.
  Context {V R : Type} (veq : V -> V -> bool) (md5 : content -> digest).
  Notation BK := (cache_backend (V := V) (R := R) veq md5).
  Notation sys := (sys V R (pdb V R) name (name * nat) name).
  Notation op := (op V R).
  Notation occ := (occ V R).
  Notation step := (step md5 BK).
  Notation runs := (runs md5 BK).
  Notation project := (list (request V R * deed R)).

  (** After a build each call has answered what it would have answered and each target has the contents
      it would have if all calls had run on the sources as they are now. *)
  Definition again (there own : nature (V := V) (R := R) -> nat -> sys -> project -> list op -> Prop) : Prop :=
    forall F D G t (s0 : sys) rank os rqs rs b code,
      fresh pdb_empty s0 -> fs_faithful F (s_env s0) -> history_ok md5 BK F s0 (os ++ b) ->
      declared_by veq D (os ++ b) -> steady md5 BK t s0 rank (os ++ b) -> decided veq D G ->
      let l := from_scratch md5 G code (digest_at md5 (s_env (runs s0 os))) rqs in
      in_order l -> targets_declared l -> building md5 BK t s0 l os l rs b ->
      (forall rq, rq ∈ rqs -> e_fun (s_env (runs s0 os)) !! rq_fun rq = Some (code (rq_fun rq))) ->
      did veq md5 BK t s0 G l (os ++ b) -> there G t s0 l (os ++ b) -> own G t s0 l (os ++ b) ->
      rs = (fun x => d_result (snd x)) <$> l /\
      forall rq k f ct, (rq, k) ∈ l -> d_files k !! f = Some ct ->
        exists m, e_fs (s_env (runs s0 (os ++ b))) !! f = Some (m, ct).

  Section Build.
    Context (F : name -> Z -> content) (D : name -> V -> list name) (G : nature (V := V) (R := R)) (t : nat) (s0 : sys).
    Context (rank : name -> nat) (full : list op) (code : name -> digest) (l : project).
    Context (Heq : is_equality veq) (Hf : fresh pdb_empty s0) (Hfs : fs_faithful F (s_env s0)).
    Context (Hh : history_ok md5 BK F s0 full) (HD : declared_by veq D full) (Hst : steady md5 BK t s0 rank full).
    Context (HG : decided veq D G) (Htd : targets_declared l).
    Context (Hdid : did veq md5 BK t s0 G l full) (Hth : reads_there veq md5 BK t s0 G l full).
    Context (Hown : own_targets veq md5 BK t s0 l full).

    Lemma own_prefix os b rq k f : full = os ++ b -> (rq, k) ∈ l -> is_Some (d_files k !! f) ->
      only_written_by veq md5 BK t s0 os rq f.
    Proof.
      intros Hfull Hin Hs a ct m c Ho. apply (Hown rq k f Hin Hs a ct m (c ++ b)). rewrite Hfull, Ho. by rewrite <- app_assoc.
    Qed.
    Lemma completed_prefix os b oc : full = os ++ b -> completed md5 BK t s0 os oc -> completed md5 BK t s0 full oc.
    Proof.
      intros Hfull (rest & Ho & Hr). exists (rest ++ b). split; [|done]. rewrite Hfull, Ho.
      repeat (rewrite <- ?app_assoc; simpl). done.
    Qed.

    Lemma hit_as_planned os rq k r srcs dsts rest :
      full = os ++ OBegin t rq :: rest -> (rq, k) ∈ l ->
      G (rq_fun rq) (code (rq_fun rq)) (rq_bound rq) (digest_at md5 (s_env (runs s0 os))) = k ->
      e_fun (s_env (runs s0 os)) !! rq_fun rq = Some (code (rq_fun rq)) ->
      snd (step (runs s0 os) (OBegin t rq)) = RHit r srcs dsts ->
      r = d_result k /\ forall f ct, d_files k !! f = Some ct -> exists m, e_fs (s_env (runs s0 os)) !! f = Some (m, ct).
    Proof.
      intros Hfull Hin Hnow Hcode Hhit.
      assert (full = (os ++ [OBegin t rq]) ++ rest) as Hfull' by (rewrite Hfull; by rewrite <- app_assoc).
      assert (history_ok md5 BK F s0 os) as Hh'.
      { eapply (history_ok_app _). by rewrite <- Hfull. }
      assert (steady md5 BK t s0 rank (os ++ [OBegin t rq])) as Hst'.
      { eapply (steady_prefix veq md5). by rewrite <- Hfull'. }
      destruct (C75_stands veq md5 Heq F t s0 rank os rq r srcs dsts Hf Hfs Hh' Hst' Hhit)
        as (oc & (rest' & Hos & Hrd & _) & Hr & [[Hc1 Hc2] [_ Hoc] Hdecl Hreg] & _ & Hdsts & Hfiles).
      assert (completed md5 BK t s0 os oc) as Hcomp.
      { exists rest'. split; [|done]. rewrite Hos. unfold oc_upto. by rewrite <- app_assoc. }
      rewrite Hcode in Hoc. symmetry in Hoc.
      assert (rq_srcs rq = D (rq_fun rq) (rq_bound rq)) as Hs1.
      { apply (proj1 HD t). rewrite Hfull. apply elem_of_app. right. by left. }
      assert (rq_srcs (oc_req oc) = rq_srcs rq) as Hsrc.
      { rewrite Hs1, (proj1 HD t (oc_req oc)).
        - rewrite Hc1. symmetry. by apply (proj2 HD).
        - rewrite Hfull, Hos. unfold oc_upto. rewrite !elem_of_app, elem_of_cons. tauto. }
      pose proof (Hdid rq k oc _ Hin (completed_prefix _ _ _ Hfull Hcomp) (conj Hc1 Hc2) Hoc) as (Hres & Hout & Hread).
      assert (G (oc_fun oc) (code (rq_fun rq)) (rq_bound (oc_req oc)) (digest_at md5 (s_env (runs s0 (oc_before oc)))) = k) as Hk.
      { unfold oc_fun. rewrite Hc1, <- Hnow. apply HG; [by apply (proj1 (proj2 Heq))|]. intros g [Hg|Hg].
        - symmetry. apply Hdecl; [|rewrite Hsrc]; rewrite Hs1; by rewrite (proj2 HD _ _ _ Hc2).
        - assert (g ∈ d_reads (G (oc_fun oc) (code (rq_fun rq)) (rq_bound (oc_req oc))
            (digest_at md5 (s_env (runs s0 (oc_before oc)))))) as Hg' by (unfold oc_fun; by rewrite Hc1).
          destruct (Hread g Hg') as [Hg1 Hg2]. rewrite <- Hg2. symmetry. apply Hreg; [done|].
          by eapply (Hth rq k os rest oc _ g). }
      cbv zeta in Hres, Hout. rewrite Hk in Hres, Hout. split; [congruence|].
      intros f ct Hfc. destruct (Hfiles f) as [_ Hsame].
      { apply Hdsts. destruct (Htd rq k f Hin ltac:(eauto)) as [H|H]; [by left|right; left]. rewrite <- Hr, Hres. exact H. }
      rewrite Hsame; [by apply Hout|]. by eapply own_prefix.
    Qed.

  End Build.

  Definition its_reads_there G t (s0 : sys) (l : project) os := reads_there veq md5 BK t s0 G l os.
  Definition its_own_targets (_ : nature (V := V) (R := R)) t (s0 : sys) (l : project) os := own_targets veq md5 BK t s0 l os.
  Theorem C85_again : is_equality veq -> again its_reads_there its_own_targets.
  Proof.
    intros Heq F D G t s0 rank os rqs rs b code Hf Hfs Hh HD Hst HG l Hord Htd Hb Hfun Hdid Hth Hown.
    destruct (build_ok veq md5 BK (proj1 Heq) D G t s0 (os ++ b) code l HD HG Hdid
      (fun o => hit_as_planned F D G t s0 rank (os ++ b) code l Heq Hf Hfs Hh HD Hst HG Htd Hdid Hth Hown o) os l rs b Hb
      (digest_at md5 (s_env (runs s0 os))) rqs) as (H1 & H2 & _); done.
  Qed.

  (** *** What was built before makes no difference *)
  Definition project_built F D (G : nature (V := V) (R := R)) t (s0 : sys) rank os rqs rs b code : Prop :=
    fresh pdb_empty s0 /\ fs_faithful F (s_env s0) /\ history_ok md5 BK F s0 (os ++ b) /\
    declared_by veq D (os ++ b) /\ steady md5 BK t s0 rank (os ++ b) /\
    let l := from_scratch md5 G code (digest_at md5 (s_env (runs s0 os))) rqs in
    in_order l /\ targets_declared l /\ building md5 BK t s0 l os l rs b /\
    (forall rq, rq ∈ rqs -> e_fun (s_env (runs s0 os)) !! rq_fun rq = Some (code (rq_fun rq))) /\
    did veq md5 BK t s0 G l (os ++ b) /\ reads_there veq md5 BK t s0 G l (os ++ b) /\
    own_targets veq md5 BK t s0 l (os ++ b).
  Theorem C85_same F D G t (s0 : sys) rank os rqs rs b code F' t' (s0' : sys) rank' os' rs' b' :
    is_equality veq -> decided veq D G ->
    (forall rq, rq ∈ rqs -> rq_srcs rq = D (rq_fun rq) (rq_bound rq)) ->
    project_built F D G t s0 rank os rqs rs b code -> project_built F' D G t' s0' rank' os' rqs rs' b' code ->
    let l := from_scratch md5 G code (digest_at md5 (s_env (runs s0 os))) rqs in
    (forall f, part l f -> ~ writes l f ->
       digest_at md5 (s_env (runs s0 os)) f = digest_at md5 (s_env (runs s0' os')) f) ->
    rs = rs' /\
    forall f, writes l f -> exists ct m m', e_fs (s_env (runs s0 (os ++ b))) !! f = Some (m, ct) /\
      e_fs (s_env (runs s0' (os' ++ b'))) !! f = Some (m', ct).
  Proof.
    intros Heq HG HD (A1 & A2 & A3 & A4 & A5 & A6 & A7 & A8 & A9 & A10 & A11 & A12)
      (B1 & B2 & B3 & B4 & B5 & B6 & B7 & B8 & B9 & B10 & B11 & B12) l Hsame.
    destruct (C85_again Heq F D G t s0 rank os rqs rs b code A1 A2 A3 A4 A5 HG A6 A7 A8 A9 A10 A11 A12) as [Hr Hfl].
    destruct (C85_again Heq F' D G t' s0' rank' os' rqs rs' b' code B1 B2 B3 B4 B5 HG B6 B7 B8 B9 B10 B11 B12) as [Hr' Hfl'].
    rewrite (scratch_same veq md5 (proj1 Heq) G code D HG rqs _ _ HD A6 Hsame) in Hr', Hfl'. split; [congruence|].
    intros f (rq & k & Hin & ct & Hct). destruct (Hfl rq k f ct Hin Hct) as [m Hm]. destruct (Hfl' rq k f ct Hin Hct) as [m' Hm'].
    eauto.
  Qed.
End Props.

(** *** Concrete histories *)
(** f compiles "a.c", which includes "x.h", to "a.o"; g links "a.o" to "a". *)
Definition dg (o : option digest) : string := match o with Some d => d | None => "?" end.
Definition p_D (f : name) (_ : string) : list name := if String.eqb f "f" then ["a.c"] else ["a.o"].
Definition p_G : nature (V := string) (R := string) := fun f _ b w =>
  if String.eqb f "f" then Deed "ok" {[ "a.o" := b +:+ dg (w "a.c") +:+ dg (w "x.h") ]} ["x.h"]
  else Deed "ok" {[ "a" := "E" +:+ dg (w "a.o") ]} [].
Definition p_cc : request string string := Request "f" "-O" ["a.c"] ["a.o"] (fun _ => []).
Definition p_ld : request string string := Request "g" "" ["a.o"] ["a"] (fun _ => []).
Definition p_code (f : name) : digest := if String.eqb f "f" then "f1" else "g1".
Lemma p_decided : decided String.eqb p_D p_G.
Proof.
  intros f d b b' w w' ->%String.eqb_eq Hw. revert Hw. unfold p_G, p_D. destruct (String.eqb f "f"); intros Hw.
  - rewrite (Hw "a.c"), (Hw "x.h"); [done|right; by left|left; by left].
  - rewrite (Hw "a.o"); [done|left; by left].
Qed.
Definition p_project (c h : option digest) : list (request string string * deed string) :=
  let o := "-O" +:+ dg c +:+ dg h in
  [(p_cc, Deed "ok" {[ "a.o" := o ]} ["x.h"]); (p_ld, Deed "ok" {[ "a" := "E" +:+ o ]} [])].
Lemma p_scratch w c h : w "a.c" = c -> w "x.h" = h -> from_scratch ident p_G p_code w [p_cc; p_ld] = p_project c h.
Proof. intros <- <-. reflexivity. Qed.
Lemma one_call {A B} (x a : A) (y b : B) : (x, y) ∈ [(a, b)] -> x = a /\ y = b.
Proof. intros H%elem_of_list_singleton. by injection H. Qed.
Lemma two_calls {A B} (x a c : A) (y b d : B) : (x, y) ∈ [(a, b); (c, d)] -> (x = a /\ y = b) \/ (x = c /\ y = d).
Proof. intros [H|H%one_call]%elem_of_cons; [left; by injection H|by right]. Qed.
Lemma p_in_order c h : in_order (p_project c h).
Proof.
  assert (forall l (f : name), (forall rq k, (rq, k) ∈ l -> d_files (R := string) k !! f = None) -> ~ writes (V := string) l f) as W.
  { intros l f H (rq & k & Hin & Hs). rewrite (H rq k Hin) in Hs. by destruct Hs. }
  cbn [in_order p_project]. split_and!; try done.
  - intros f [Hx%elem_of_list_singleton|Hx%elem_of_list_singleton]; subst f; apply W;
      intros rq k [[-> ->]|[-> ->]]%two_calls; by vm_compute.
  - intros f Hf. assert (f = "a.o") as ->.
    { cbn [d_files] in Hf. destruct (decide (f = "a.o")); [done|]. rewrite lookup_singleton_ne in Hf by done. by destruct Hf. }
    apply W. intros rq k [-> ->]%one_call. by vm_compute.
  - intros f [Hx%elem_of_list_singleton|?%elem_of_nil]; [subst f|done]. apply W. intros rq k [-> ->]%one_call. by vm_compute.
  - intros f _. apply W. by intros rq k ?%elem_of_nil.
Qed.
Lemma one_file {A} (f g : name) (x : A) : is_Some (({[ f := x ]} : gmap name A) !! g) -> g = f.
Proof. intros [y [-> _]%lookup_singleton_Some]. done. Qed.
Lemma p_targets c h : targets_declared (p_project c h).
Proof.
  intros rq k f [[-> ->]|[-> ->]]%two_calls ->%one_file; left; by left.
Qed.
(** Decision procedures for the hypotheses. *)
Definition declared_b (o : sop) : bool :=
  match o with OBegin _ rq => bool_decide (rq_srcs rq = p_D (rq_fun rq) (rq_bound rq)) | _ => true end.
Lemma p_declared os : forallb declared_b os = true -> declared_by String.eqb p_D os.
Proof.
  intros H. split; [|done]. intros t rq Hin. rewrite forallb_forall in H. apply elem_of_list_In, H in Hin.
  by apply bool_decide_eq_true in Hin.
Qed.
Definition plan (s0 : ssys) (oc : occ string string) (d : digest) : deed string :=
  p_G (oc_fun oc) d (rq_bound (oc_req oc)) (digest_at ident (s_env (srun s0 (oc_before oc)))).
Definition did_b (s0 : ssys) (oc : occ string string) : bool :=
  match oc_code ident sbk s0 oc with
  | Some d =>
      let k := plan s0 oc d in
      String.eqb (oc_result oc) (d_result k) &&
      forallb (fun fc : name * content => match e_fs (oc_end ident sbk 0 s0 oc) !! fc.1 with
                         | Some (_, ct) => String.eqb ct fc.2 | None => false end) (map_to_list (d_files k)) &&
      forallb (fun f => existsb (fun bd => match bd.2 with
                          | OAddExt 0 xs _ false :: _ => bool_decide (f ∈ xs) | _ => false end) (splits (oc_during oc)) &&
        bool_decide (digest_at ident (oc_end ident sbk 0 s0 oc) f = digest_at ident (s_env (srun s0 (oc_before oc))) f)) (d_reads k)
  | None => true
  end.
Lemma did_sound s0 l os : forallb (did_b s0) (all_occs s0 os) = true -> did String.eqb ident sbk 0 s0 p_G l os.
Proof.
  intros H rq k oc d _ Hoc _ Hd. rewrite forallb_forall in H. apply all_occs_sound, elem_of_list_In, H in Hoc.
  unfold did_b in Hoc. rewrite Hd in Hoc. fold (plan s0 oc d). cbv zeta in Hoc |- *.
  apply andb_prop in Hoc as [Hoc H3]. apply andb_prop in Hoc as [H1 H2]. split; [by apply String.eqb_eq in H1|]. split.
  - intros f ct Hf. rewrite forallb_forall in H2. specialize (H2 (f, ct)). cbn [fst snd] in H2.
    rewrite <- elem_of_list_In, elem_of_map_to_list in H2. specialize (H2 Hf).
    destruct (e_fs (oc_end ident sbk 0 s0 oc) !! f) as [[m ct']|] eqn:E; [|done]. apply String.eqb_eq in H2 as ->. by exists m.
  - intros f Hf. rewrite forallb_forall in H3. apply elem_of_list_In, H3 in Hf. apply andb_prop in Hf as [H4 H5].
    apply bool_decide_eq_true in H5. split; [|done].
    apply existsb_exists in H4 as ([b1 c] & Hs & Hc). cbn [fst snd] in Hc.
    destruct c as [|[|[|] xs xd []| | | | | | | | |] c]; try done. apply bool_decide_eq_true in Hc.
    apply elem_of_list_In, elem_of_list_fmap in Hs as (n & [= -> Hdr] & _).
    exists (take n (oc_during oc)), xs, xd, false, c. split; [rewrite Hdr; by rewrite take_drop|]. split; [done|]. by left.
Qed.
Definition there_b (s0 : ssys) (a : list sop) (o : sop) : bool :=
  match o with
  | OBegin 0 rq => forallb (fun oc => match oc_code ident sbk s0 oc with
      | Some d => negb (bool_decide (oc_fun oc = rq_fun rq)) ||
          forallb (fun f => bool_decide (is_Some (e_fs (s_env (srun s0 a)) !! f))) (d_reads (plan s0 oc d))
      | None => true end) (all_occs s0 a)
  | _ => true
  end.
Lemma there_sound s0 l os : each (there_b s0) os -> reads_there String.eqb ident sbk 0 s0 p_G l os.
Proof.
  intros H rq k a c oc d f _ Ho Hoc [Hfn _] Hd Hf. pose proof (at_each _ _ H _ _ _ Ho) as Hb. simpl in Hb.
  rewrite forallb_forall in Hb. apply all_occs_sound, elem_of_list_In, Hb in Hoc. rewrite Hd in Hoc.
  unfold oc_fun in Hoc. rewrite bool_decide_true in Hoc by done. cbn [negb orb] in Hoc. rewrite forallb_forall in Hoc.
  apply elem_of_list_In, Hoc in Hf. by apply bool_decide_eq_true in Hf.
Qed.
Definition is_cc (rq : request string string) : bool := String.eqb (rq_fun rq) "f" && String.eqb (rq_bound rq) "-O".
Definition is_ld (rq : request string string) : bool := String.eqb (rq_fun rq) "g" && String.eqb (rq_bound rq) "".
Lemma own_sound s0 c h os : each (written_b s0 is_cc "a.o") os -> each (written_b s0 is_ld "a") os ->
  own_targets String.eqb ident sbk 0 s0 (p_project c h) os.
Proof.
  intros H1 H2 rq k f [[-> ->]|[-> ->]]%two_calls ->%one_file a ct m d Ho.
  - destruct (written_sound _ _ _ _ H1 _ _ _ _ Ho) as (fr & Hin & Hp). exists fr. split; [exact Hin|].
    apply andb_prop in Hp as [Hp1 Hp2]. split; [by apply String.eqb_eq in Hp1|]. apply String.eqb_eq in Hp2.
    change (String.eqb "-O" (rq_bound (fr_req fr)) = true). by rewrite Hp2.
  - destruct (written_sound _ _ _ _ H2 _ _ _ _ Ho) as (fr & Hin & Hp). exists fr. split; [exact Hin|].
    apply andb_prop in Hp as [Hp1 Hp2]. split; [by apply String.eqb_eq in Hp1|]. apply String.eqb_eq in Hp2.
    change (String.eqb "" (rq_bound (fr_req fr)) = true). by rewrite Hp2.
Qed.
Lemma during_true s0 rq a b : during_b s0 rq a b = true -> runs_during ident sbk s0 0 rq a b.
Proof.
  unfold during_b. intros H. apply andb_prop in H as [H H3]. apply andb_prop in H as [H1 H2].
  destruct (snd (step ident sbk (srun s0 a) (OBegin 0 rq))) eqn:E; try done. apply Nat.eqb_eq in H3.
  split; [|exact H3]. split; [exact E|]. intros b1 b2 Hb. rewrite forallb_forall in H2.
  assert (b1 = take (length b1) b) as Hb1 by (by rewrite Hb, take_app).
  rewrite Hb1. apply Nat.ltb_lt, H2. apply in_seq. rewrite Hb, app_length. lia.
Qed.
Lemma steady_sound os :
  each (flat_b (start 100)) os -> each (fails_b (start 100)) os -> each (ends_b (start 100)) os ->
  steady ident sbk 0 (start 100) (fun _ => 0) os.
Proof.
  intros (H1 & H2 & H3)%flat_sound Hf He. constructor; [exact H1|exact H2|by apply fails_sound|exact H3|by apply ends_sound].
Qed.
Lemma p_functions os rq : e_fun (s_env (srun (start 100) os)) = funs1 -> rq ∈ [p_cc; p_ld] ->
  e_fun (s_env (srun (start 100) os)) !! rq_fun rq = Some (p_code (rq_fun rq)).
Proof. intros -> [->|Hx%elem_of_list_singleton]%elem_of_cons; subst; by vm_compute. Qed.

(** Two builds, the header edited in between; then "a" is removed, and in the third build compiling is
    answered from the database and linking runs. *)
Definition run_cc (src h : string) (m : Z) : list sop :=
  [OBegin 0 p_cc; OAddExt 0 ["x.h"] [] false; OWrite "a.o" ("-O" +:+ src +:+ h) m; OEnd 0 "ok"].
Definition run_ld (o : string) (m : Z) : list sop := [OBegin 0 p_ld; OWrite "a" ("E" +:+ o) m; OEnd 0 "ok"].
Definition p_F (f : name) (m : Z) : content :=
  if String.eqb f "a.c" then "1" else if String.eqb f "x.h" then (if decide (m = 5)%Z then "h" else "i")
  else if String.eqb f "a.o" then (if decide (m = 6)%Z then "-O1h" else "-O1i")
  else if decide (m = 6)%Z then "E-O1h" else "E-O1i".
Definition p_start : list sop := [OWrite "a.c" "1" 5; OWrite "x.h" "h" 5; OTick 2000000].
Definition p_first : list sop := run_cc "1" "h" 6 ++ run_ld "-O1h" 6.
Definition p_history : list sop :=
  p_start ++ p_first ++ [OSave; ORestart funs1; OWrite "x.h" "i" 7; OTick 2000000] ++
  run_cc "1" "i" 8 ++ run_ld "-O1i" 8 ++ [OSave; ORestart funs1; ORemove "a"].
Definition p_third : list sop := OBegin 0 p_cc :: OTick 1 :: run_ld "-O1i" 9.
Example C85_example :
  project_built String.eqb ident p_F p_D p_G 0 (start 100) (fun _ => 0) p_history [p_cc; p_ld] ["ok"; "ok"] p_third p_code /\
  is_equality String.eqb /\ decided String.eqb p_D p_G /\
  kinds (outs ident sbk (start 100) (p_history ++ p_third)) =
    ["runs"; "done"; "runs"; "done"; "runs"; "done"; "runs"; "done"; "hit"; "runs"; "done"] /\
  e_fs (s_env (srun (start 100) (p_history ++ p_third))) !! "a" = Some (9%Z, "E-O1i").
Proof.
  split.
  { unfold project_built. split; [exact (start_fresh 100)|]. split; [exact (start_faithful _)|].
    split; [apply behaved_sound; by vm_compute|]. split; [apply p_declared; by vm_compute|].
    split; [apply steady_sound; by vm_compute|].
    rewrite (p_scratch _ (Some "1") (Some "i")) by by vm_compute. cbv zeta.
    split; [apply p_in_order|]. split; [apply p_targets|]. split.
    { eapply BHit; [by vm_compute|]. apply BAside; [done|].
      apply (BRun ident sbk 0 (start 100) _ _ p_ld _ [OWrite "a" "E-O1i" 9%Z] "ok" [] [] []); [apply during_true; by vm_compute| |apply BDone].
      intros o f ->%elem_of_list_singleton. cbn [touches]. intros <- _. eexists. apply lookup_singleton. }
    split; [intros rq; apply p_functions; by vm_compute|].
    split; [apply did_sound; by vm_compute|]. split; [apply there_sound; by vm_compute|].
    apply own_sound; by vm_compute. }
  split; [exact string_equality|]. split; [exact p_decided|]. split; by vm_compute.
Qed.

(** The same from scratch. *)
Definition p_scratch_start : list sop := [OWrite "x.h" "i" 7; OWrite "a.c" "1" 5; OTick 2000000].
Example C85_same_example :
  project_built String.eqb ident p_F p_D p_G 0 (start 100) (fun _ => 0) p_scratch_start [p_cc; p_ld] ["ok"; "ok"]
    (run_cc "1" "i" 8 ++ run_ld "-O1i" 8) p_code /\
  forall f, digest_at ident (s_env (srun (start 100) p_scratch_start)) f = digest_at ident (s_env (srun (start 100) p_history)) f \/
    f = "a.o" \/ f = "a".
Proof.
  split.
  - unfold project_built. split; [exact (start_fresh 100)|]. split; [exact (start_faithful _)|].
    split; [apply behaved_sound; by vm_compute|]. split; [apply p_declared; by vm_compute|].
    split; [apply steady_sound; by vm_compute|].
    rewrite (p_scratch _ (Some "1") (Some "i")) by by vm_compute. cbv zeta.
    split; [apply p_in_order|]. split; [apply p_targets|]. split.
    { apply (BRun ident sbk 0 (start 100) _ _ p_cc _ [OAddExt 0 ["x.h"] [] false; OWrite "a.o" "-O1i" 8%Z] "ok" _ _ (run_ld "-O1i" 8));
        [apply during_true; by vm_compute| |].
      { intros o f [->|Ho%elem_of_list_singleton]%elem_of_cons; [done|]. subst o. cbn [touches]. intros <- _. eexists. apply lookup_singleton. }
      apply (BRun ident sbk 0 (start 100) _ _ p_ld _ [OWrite "a" "E-O1i" 8%Z] "ok" [] [] []);
        [apply during_true; by vm_compute| |apply BDone].
      intros o f ->%elem_of_list_singleton. cbn [touches]. intros <- _. eexists. apply lookup_singleton. }
    split; [intros rq; apply p_functions; by vm_compute|].
    split; [apply did_sound; by vm_compute|]. split; [apply there_sound; by vm_compute|].
    apply own_sound; by vm_compute.
  - intros f. destruct (decide (f ∈ ["a.c"; "x.h"; "a.o"; "a"])) as [Hin|Hout].
    + rewrite !elem_of_cons, elem_of_nil in Hin. destruct Hin as [->|[->|[->|[->|[]]]]]; [left; by vm_compute..|right; by left|right; by right].
    + left. rewrite !not_elem_of_cons in Hout. destruct Hout as (H1 & H2 & H3 & H4 & _).
      assert (forall s (b : list sop), (forall o, o ∈ b -> ~ touches o f) ->
        digest_at ident (s_env (srun s b)) f = digest_at ident (s_env s) f) as K.
      { intros s b Hb. apply digest_of. exact (untouched ident sbk s b f Hb). }
      rewrite !K; [done|..]; intros o Ho Ht; unfold p_history, p_start, p_first, run_cc, run_ld, p_scratch_start in Ho;
        cbn [app] in Ho; repeat (apply elem_of_cons in Ho as [->|Ho]; [cbn [touches] in Ht; first [done|subst f; done]|]); by apply elem_of_nil in Ho.
Qed.

(** *** Beyond the claim *)
(** If a file that was read is removed, its users are not built again. *)
Definition anyhow (_ : nature (V := string) (R := string)) (_ : nat) (_ : ssys) (_ : list (request string string * deed string))
  (_ : list sop) : Prop := True.
Definition p_removed : list sop := p_start ++ p_first ++ [ORemove "x.h"].
Theorem C85_removed_refuted : ~ again String.eqb ident anyhow (its_own_targets String.eqb ident).
Proof.
  intros H.
  assert (from_scratch ident p_G p_code (digest_at ident (s_env (srun (start 100) p_removed))) [p_cc; p_ld] =
    p_project (Some "1") None) as El by (apply p_scratch; by vm_compute).
  destruct (H p_F p_D p_G 0 (start 100) (fun _ => 0) p_removed [p_cc; p_ld] ["ok"; "ok"] [OBegin 0 p_cc; OBegin 0 p_ld] p_code)
    as [_ Hfiles]; rewrite ?El.
  - exact (start_fresh 100).
  - exact (start_faithful _).
  - apply behaved_sound. by vm_compute.
  - apply p_declared. by vm_compute.
  - apply steady_sound; by vm_compute.
  - exact p_decided.
  - apply p_in_order.
  - apply p_targets.
  - eapply BHit; [by vm_compute|]. eapply BHit; [by vm_compute|]. apply BDone.
  - intros rq. apply p_functions. by vm_compute.
  - apply did_sound. by vm_compute.
  - exact I.
  - apply own_sound; by vm_compute.
  - fold sbk in Hfiles. rewrite El in Hfiles.
    destruct (Hfiles p_cc (Deed "ok" {[ "a.o" := "-O1?" ]} ["x.h"]) "a.o" "-O1?") as [m Hm]; [by left|apply lookup_singleton|].
    assert (e_fs (s_env (srun (start 100) (p_removed ++ [OBegin 0 p_cc; OBegin 0 p_ld]))) !! "a.o" = Some (6%Z, "-O1h")) as E
      by by vm_compute.
    pose proof (eq_trans (eq_sym E) Hm) as K. discriminate K.
Qed.
(** If a target is changed by hand, it stays so, and what is made of it is made of that. *)
Definition p_edited : list sop := p_start ++ p_first ++ [OWrite "a.o" "-O1i" 8; OTick 2000000].
Theorem C85_edited_target_refuted : ~ again String.eqb ident (its_reads_there String.eqb ident) anyhow.
Proof.
  intros H.
  assert (from_scratch ident p_G p_code (digest_at ident (s_env (srun (start 100) p_edited))) [p_cc; p_ld] =
    p_project (Some "1") (Some "h")) as El by (apply p_scratch; by vm_compute).
  destruct (H p_F p_D p_G 0 (start 100) (fun _ => 0) p_edited [p_cc; p_ld] ["ok"; "ok"] (OBegin 0 p_cc :: run_ld "-O1i" 9) p_code)
    as [_ Hfiles]; rewrite ?El.
  - exact (start_fresh 100).
  - exact (start_faithful _).
  - apply behaved_sound. by vm_compute.
  - apply p_declared. by vm_compute.
  - apply steady_sound; by vm_compute.
  - exact p_decided.
  - apply p_in_order.
  - apply p_targets.
  - eapply BHit; [by vm_compute|].
    apply (BRun ident sbk 0 (start 100) _ _ p_ld _ [OWrite "a" "E-O1i" 9%Z] "ok" [] [] []); [apply during_true; by vm_compute| |apply BDone].
    intros o f ->%elem_of_list_singleton. cbn [touches]. intros <- _. eexists. apply lookup_singleton.
  - intros rq. apply p_functions. by vm_compute.
  - apply did_sound. by vm_compute.
  - apply there_sound. by vm_compute.
  - exact I.
  - fold sbk in Hfiles. rewrite El in Hfiles.
    destruct (Hfiles p_ld (Deed "ok" {[ "a" := "E-O1h" ]} []) "a" "E-O1h") as [m Hm]; [right; by left|apply lookup_singleton|].
    assert (e_fs (s_env (srun (start 100) (p_edited ++ OBegin 0 p_cc :: run_ld "-O1i" 9))) !! "a" = Some (9%Z, "E-O1i")) as E
      by by vm_compute.
    pose proof (eq_trans (eq_sym E) Hm) as K. discriminate K.
Qed.

Print Assumptions C85_again.
Print Assumptions C85_same.
Print Assumptions C85_example.
Print Assumptions C85_same_example.
Print Assumptions C85_removed_refuted.
Print Assumptions C85_edited_target_refuted.
