(** C76: object files are used again only if the source and all files the compiler read are unchanged. *)
From stdpp Require Import base list strings gmap.
From Coq Require Import NArith ZArith Lia.
From Verif Require Import PyMonad DbModel DbSpec DbClaims CacheBackend DbHistory DbRefute CodeSpec PropsCode
  PropsTarget FnModel DepModel DepSpec CompileSpec CompileFacts.
Local Open Scope string_scope.
Local Open Scope list_scope.

Section Props.
  Context {V R : Type} (veq : V -> V -> bool) (md5 : content -> digest).
  Notation BK := (cache_backend (V := V) (R := R) veq md5).
  Notation sys := (sys V R (pdb V R) name (name * nat) name).
  Notation op := (op V R).
  Notation step := (step md5 BK).
  Notation runs := (runs md5 BK).

  (** Arguments are compared by an equivalence, and equal options for build_objects give equal
      options for the compiler. *)
  Definition options_ok (opts : V -> name -> V) : Prop :=
    (forall x y z, veq x y = true -> veq y z = true -> veq x z = true) /\
    (forall x y src, veq x y = true -> veq (opts x src) (opts y src) = true).

  (** The source [src] was compiled with options equal to [v] by a run in the history, which
      returned [o], and that run is still good. *)
  Definition compiled_well (s0 : sys) (fc : name) (reads : list op -> request V R -> list name) (os : list op) (v : V) (src : name) (o : R) : Prop :=
    exists t rq a b c, os = a ++ OBegin t rq :: b ++ OEnd t o :: c /\
      runs_during md5 BK s0 t rq a b /\ rq_fun rq = fc /\ rq_srcs rq = [src] /\ veq v (rq_bound rq) = true /\
      still_good md5 BK s0 (s_env (runs s0 os)) reads src t rq a b.

  (** Builder.compile *)
  Definition compile_reuse : Prop :=
    forall F D (s0 : sys) fc reads os t rq r srcs dsts src,
      fresh pdb_empty s0 -> fs_faithful F (s_env s0) -> history_ok md5 BK F s0 os ->
      declared_by veq D (os ++ [OBegin t rq]) -> compiles md5 BK s0 fc reads os ->
      rq_fun rq = fc -> rq_srcs rq = [src] ->
      snd (step (runs s0 os) (OBegin t rq)) = RHit r srcs dsts ->
      compiled_well s0 fc reads os (rq_bound rq) src r /\
      forall f, f ∈ rq_ret rq r -> is_Some (e_fs (s_env (runs s0 os)) !! f).

  Theorem C76_compile : compile_reuse.
  Proof.
    intros F D s0 fc reads os t rq r srcs dsts src Hf Hfs Hh HD Hc Hfc Hsrc Hhit.
    destruct (hit_run veq md5 F D s0 os t rq r srcs dsts Hf Hfs Hh HD Hhit)
      as (t' & rq' & a & b & c & Hos & Hrd & Hfn & Hv & Hss & _ & Hdst & Hdecl & Hreg & Hex).
    destruct (Hc t' rq' a b r c Hos ltac:(congruence) Hrd) as [Hcr Hdone].
    split.
    - exists t', rq', a, b, c. split_and!; try done; [congruence..|]. split.
      + apply Hdecl. rewrite Hsrc. by left.
      + intros h Hh1 Hh2. apply Hreg; [done| |done]. by eapply compile_registers.
    - intros f Hff. apply Hex, Hdst. tauto.
  Qed.

  (** build_objects *)
  Definition objects_reuse : Prop :=
    forall F D (s0 : sys) fc fb opts reads os t rq r srcs dsts,
      options_ok opts ->
      fresh pdb_empty s0 -> fs_faithful F (s_env s0) -> history_ok md5 BK F s0 os ->
      declared_by veq D (os ++ [OBegin t rq]) ->
      compiles md5 BK s0 fc reads os -> builds md5 BK s0 fb fc opts os ->
      rq_fun rq = fb ->
      snd (step (runs s0 os) (OBegin t rq)) = RHit r srcs dsts ->
      (forall src, src ∈ rq_srcs rq -> exists o, compiled_well s0 fc reads os (opts (rq_bound rq) src) src o) /\
      forall f, f ∈ rq_ret rq r -> is_Some (e_fs (s_env (runs s0 os)) !! f).

  Theorem C76_objects : objects_reuse.
  Proof.
    intros F D s0 fc fb opts reads os t rq r srcs dsts [Htr Hopts] Hf Hfs Hh HD Hc Hb Hfb Hhit.
    destruct (hit_run veq md5 F D s0 os t rq r srcs dsts Hf Hfs Hh HD Hhit)
      as (t0 & rq0 & a & b & c & Hos & Hrd & Hfn & Hv & Hss & _ & Hdst & Hdecl & Hreg & Hex).
    split; [|intros f Hff; apply Hex, Hdst; tauto].
    intros src Hsrc.
    destruct (Hb t0 rq0 a b r c Hos ltac:(congruence) Hrd) as [Hbr Hdone].
    specialize (Hreg Hdone).
    destruct (Hbr src ltac:(by rewrite Hss)) as (t' & b1 & rq' & b2 & o & srcs' & dsts' & p & q & c1 & xs & xd & c2 &
      Eb & Hfc & Hs1 & Hbd & Hans & Eq & Hxs & Hxd & Hleave).
    set (before := a ++ OBegin t0 rq0 :: b1) in *.
    (* the files reported are registered for build_objects and stay until it returns *)
    assert (exists b4 x, b = b4 ++ x :: q /\ p = a ++ OBegin t0 rq0 :: b4 /\ (x = OBegin t' rq' \/ x = OEnd t' o)) as (b4 & x & Eb4 & Ep & Ex).
    { inversion Hans as [o1 s1 d1 Hh1|b3 o1 s1 d1 q1 Hb2 Hr1 Hd1]; subst.
      - exists b1, (OBegin t' rq'). split_and!; try done. by left.
      - exists (b1 ++ OBegin t' rq' :: b3), (OEnd t' o). split_and!; try done; [by rewrite <- app_assoc| |by right].
        unfold before. by rewrite <- app_assoc. }
    assert (forall f, f ∈ srcs' -> is_Some (e_fs (s_env (runs s0 os)) !! f) ->
      digest_at md5 (s_env (runs s0 os)) f = digest_at md5 (s_env (runs s0 p)) f) as Hkept.
    { intros f Hin Hsome. rewrite Hreg; [|exists (b4 ++ x :: c1), xs, xd, false, c2|done].
      - apply digest_same. rewrite Eb4, Ep. change (b4 ++ x :: q) with (b4 ++ ([x] ++ q)).
        rewrite app_comm_cons, app_assoc, runs_app. rewrite leaves_runs; [done|].
        constructor; [by destruct Ex as [-> | ->]|by apply Hleave].
      - rewrite Eb4, Eq. split_and!; [by rewrite <- app_assoc|by apply Hxs|by left]. }
    (* the source itself *)
    assert (digest_at md5 (s_env (runs s0 os)) src = digest_at md5 (s_env (runs s0 before)) src /\
      is_Some (digest_at md5 (s_env (runs s0 os)) src)) as [Hd1 Hd2].
    { destruct (Hdecl src Hsrc) as [Hd1 Hd2]. split; [|done]. rewrite Hd2. symmetry. apply digest_same.
      apply (declared_kept veq md5 F s0 t0 rq0 a b1 src (OBegin t' rq' :: b2 ++ OEnd t0 r :: c)).
      - rewrite Hos, Eb in Hh. by rewrite <- app_assoc in Hh.
      - destruct Hrd as [Hrd _]. rewrite Eb in Hrd. by eapply still_running_prefix.
      - by rewrite Hss. }
    assert (veq (opts (rq_bound rq) src) (rq_bound rq') = true) as Hv' by (rewrite Hbd; by apply Hopts).
    inversion Hans as [o1 s1 d1 Hh1|b3 o1 s1 d1 q1 Hb2 Hr1 Hd1']; subst o1 s1 d1; exists o.
    - (* answered from the database *)
      assert (os = before ++ OBegin t' rq' :: q ++ OEnd t0 r :: c) as Hos'.
      { rewrite Hos, Eb. unfold before. repeat (rewrite <- app_assoc; simpl). by subst. }
      destruct (hit_run veq md5 F D s0 before t' rq' o srcs' dsts' Hf Hfs) as (t1 & rq1 & a1 & e1 & f1 & Hos1 & Hrd1 & Hfn1 & Hv1 & Hss1 & Hsr1 & Hds1 & Hdecl1 & Hreg1 & Hex1).
      { eapply history_ok_app. by rewrite <- Hos'. }
      { destruct HD as [HD1 HD2]. split; [|done]. intros t1 rq1 Hin. apply (HD1 t1). rewrite Hos'.
        rewrite elem_of_app, elem_of_list_singleton in Hin. rewrite !elem_of_app, elem_of_cons. tauto. }
      { done. }
      assert (os = a1 ++ OBegin t1 rq1 :: e1 ++ OEnd t1 o :: (f1 ++ OBegin t' rq' :: q ++ OEnd t0 r :: c)) as Hos2.
      { rewrite Hos', Hos1. by repeat (rewrite <- app_assoc; simpl). }
      destruct (Hc _ _ _ _ _ _ Hos2 ltac:(congruence) Hrd1) as [Hcr Hdone1].
      exists t1, rq1, a1, e1, (f1 ++ OBegin t' rq' :: q ++ OEnd t0 r :: c).
      split_and!; [done|done|congruence|congruence|by eapply Htr|]. split.
      + split; [done|]. rewrite Hd1. apply Hdecl1. rewrite Hs1. by left.
      + intros h Hin Hsome.
        assert (registered md5 BK s0 (fun xs _ => xs) t1 rq1 a1 e1 h) as Hrg by (by eapply compile_registers).
        assert (h ∈ srcs') as Hin' by (apply Hsr1; tauto).
        assert (p = before) as Epb by done. rewrite Epb in Hkept.
        pose proof (Hkept h Hin' Hsome) as Hk. rewrite Hk. apply Hreg1; [done..|].
        unfold digest_at in Hk. destruct Hsome as [y Hy]. rewrite Hy in Hk. simpl in Hk.
        destruct (e_fs (s_env (runs s0 before)) !! h); [by eexists|done].
    - (* it ran *)
      assert (os = before ++ OBegin t' rq' :: b3 ++ OEnd t' o :: (q ++ OEnd t0 r :: c)) as Hos'.
      { rewrite Hos, Eb, Hb2. unfold before. by repeat (rewrite <- app_assoc; simpl). }
      destruct (Hc _ _ _ _ _ _ Hos' Hfc Hr1) as [Hcr Hdone1].
      exists t', rq', before, b3, (q ++ OEnd t0 r :: c). split_and!; try done.
      split; [done|]. intros h Hin Hsome.
      assert (h ∈ srcs') as Hin'.
      { eapply (done_files md5 BK s0 t' rq' before b3 o o srcs' dsts'); [done..|]. right. by eapply compile_registers. }
      assert (p = before ++ OBegin t' rq' :: b3) as Epb by done. rewrite Epb in Hkept. exact (Hkept h Hin' Hsome).
  Qed.
End Props.

(** *** Concrete histories *)
Definition during_t (s0 : ssys) (t : nat) (rq : request string string) (a b : list sop) : bool :=
  is_run (snd (step ident sbk (srun s0 a) (OBegin t rq))) &&
  forallb (fun n => Nat.ltb (depth (srun s0 a) t) (depth (srun s0 (a ++ OBegin t rq :: take n b)) t)) (seq 0 (S (length b))) &&
  Nat.eqb (depth (srun s0 (a ++ OBegin t rq :: b)) t) (S (depth (srun s0 a) t)).
Lemma during_t_iff s0 t rq a b : runs_during ident sbk s0 t rq a b <-> during_t s0 t rq a b = true.
Proof.
  unfold during_t. split.
  - intros [[H1 H2] H3]. rewrite H1, H3, Nat.eqb_refl, andb_true_r. apply forallb_forall.
    intros n Hn. apply Nat.ltb_lt. apply (H2 _ (drop n b)). by rewrite take_drop.
  - intros H. apply andb_prop in H as [H H3]. apply andb_prop in H as [H1 H2]. apply Nat.eqb_eq in H3. split; [|done]. split.
    + unfold is_run in H1. by destruct (snd (step ident sbk (srun s0 a) (OBegin t rq))).
    + intros b1 b2 Hb. rewrite forallb_forall in H2. specialize (H2 (length b1)). apply Nat.ltb_lt.
      rewrite Hb, take_app in H2. apply H2. apply in_seq. rewrite app_length. lia.
Qed.

(** All calls that ran and returned. *)
Record trun := Trun { tr_t : nat; tr_rq : request string string; tr_a : list sop; tr_b : list sop; tr_r : string }.
Definition all_runs (s0 : ssys) (os : list sop) : list trun :=
  splits os ≫= fun ac => match ac.2 with
    | OBegin t rq :: c => splits c ≫= fun bd => match bd.2 with
        | OEnd t' r :: _ => if (Nat.eqb t t' && during_t s0 t rq ac.1 bd.1)%bool then [Trun t rq ac.1 bd.1 r] else []
        | _ => []
        end
    | _ => []
    end.
Lemma all_runs_sound s0 os t rq a b r c :
  os = a ++ OBegin t rq :: b ++ OEnd t r :: c -> runs_during ident sbk s0 t rq a b -> Trun t rq a b r ∈ all_runs s0 os.
Proof.
  intros -> Hd. unfold all_runs. apply elem_of_list_bind. eexists. split; [|by apply in_splits]. cbn [fst snd].
  apply elem_of_list_bind. eexists. split; [|by apply in_splits]. cbn [fst snd].
  apply during_t_iff in Hd. rewrite Hd, Nat.eqb_refl. by left.
Qed.
Lemma runs_check s0 os (p : trun -> bool) : forallb p (all_runs s0 os) = true ->
  forall t rq a b r c, os = a ++ OBegin t rq :: b ++ OEnd t r :: c -> runs_during ident sbk s0 t rq a b -> p (Trun t rq a b r) = true.
Proof.
  intros H t rq a b r c Hos Hrd. rewrite forallb_forall in H. apply H, elem_of_list_In. by eapply all_runs_sound.
Qed.
Lemma from_splits {A} (l a b : list A) : (a, b) ∈ splits l -> l = a ++ b.
Proof. intros H. apply elem_of_list_fmap in H as (n & [= -> ->] & _). by rewrite take_drop. Qed.

Definition is_done (o : out string) (r : string) : bool :=
  match o with RDone r' _ _ => String.eqb r r' | _ => false end.
Lemma is_done_sound o r : is_done o r = true -> exists srcs dsts, o = RDone r srcs dsts.
Proof. destruct o; try done. simpl. intros ->%String.eqb_eq. eauto. Qed.

Definition answers (s0 : ssys) (before : list sop) (t : nat) (rq : request string string) (rest : list sop) :
    list (string * list name * list name * list sop * list sop) :=
  match snd (step ident sbk (srun s0 before) (OBegin t rq)) with
  | RHit o srcs dsts => [(o, srcs, dsts, before, rest)]
  | _ => splits rest ≫= fun bd => match bd.2 with
      | OEnd t' o :: q =>
          if (Nat.eqb t t' && during_t s0 t rq before bd.1)%bool then
            match snd (step ident sbk (srun s0 (before ++ OBegin t rq :: bd.1)) (OEnd t o)) with
            | RDone o' srcs dsts => if String.eqb o o' then [(o, srcs, dsts, before ++ OBegin t rq :: bd.1, q)] else []
            | _ => []
            end
          else []
      | _ => []
      end
  end.
Lemma answers_sound s0 before t rq rest o srcs dsts p q :
  (o, srcs, dsts, p, q) ∈ answers s0 before t rq rest -> answered ident sbk s0 before t rq rest o srcs dsts p q.
Proof.
  unfold answers. intros H.
  assert ((o, srcs, dsts, p, q) ∈ (splits rest ≫= fun bd => match bd.2 with
      | OEnd t' o :: q =>
          if (Nat.eqb t t' && during_t s0 t rq before bd.1)%bool then
            match snd (step ident sbk (srun s0 (before ++ OBegin t rq :: bd.1)) (OEnd t o)) with
            | RDone o' srcs dsts => if String.eqb o o' then [(o, srcs, dsts, before ++ OBegin t rq :: bd.1, q)] else []
            | _ => []
            end
          else []
      | _ => []
      end) -> answered ident sbk s0 before t rq rest o srcs dsts p q) as Hrun.
  { clear H. intros H. apply elem_of_list_bind in H as ([b d] & H & Hs%from_splits). cbn [fst snd] in H.
    destruct d as [|[| |t' o1| | | | | | | |] q1]; try (by apply elem_of_nil in H).
    destruct (Nat.eqb_spec t t') as [<-|]; [|by apply elem_of_nil in H]. cbn [andb] in H.
    destruct (during_t s0 t rq before b) eqn:Ed; [|by apply elem_of_nil in H].
    destruct (snd (step ident sbk (srun s0 (before ++ OBegin t rq :: b)) (OEnd t o1))) as [| |o2 s2 d2| | |] eqn:Es;
      try (by apply elem_of_nil in H).
    destruct (String.eqb_spec o1 o2) as [->|]; [|by apply elem_of_nil in H].
    apply elem_of_list_singleton in H as [= -> -> -> -> ->].
    apply ARun; [exact Hs|by apply during_t_iff|exact Es]. }
  destruct (snd (step ident sbk (srun s0 before) (OBegin t rq))) as [o1 s1 d1| | | | |] eqn:Es; try (exact (Hrun H)).
  apply elem_of_list_singleton in H as [= -> -> -> -> ->]. by apply AHit.
Qed.

(** g compiles one source, which includes "x.h"; the compiler writes the dependency file "a.d" or "b.d". *)
Definition obj_of (src : name) : name := if String.eqb src "a.c" then "a.o" else "b.o".
Definition dep_of (src : name) : name := if String.eqb src "a.c" then "a.d" else "b.d".
Definition dep_text (src : name) : content :=
  if String.eqb src "a.c" then "a.o: a.c \
 x.h
" else "b.o: b.c x.h
".
Definition co (flags src : name) : request string string := Request "g" (flags +:+ src) [src] [] (fun r => [r]).
Definition bo (flags : name) : request string string := Request "f" flags ["a.c"; "b.c"] [] (fun _ => ["a.o"; "b.o"]).
Definition obj_reads (_ : list sop) (rq : request string string) : list name := rq_srcs rq ++ ["x.h"].
Definition obj_opts (flags src : name) : name := flags +:+ src.
Definition obj_D (fn : name) (v : string) : list name :=
  if String.eqb fn "f" then ["a.c"; "b.c"] else if String.eqb v "-Oa.c" then ["a.c"] else ["b.c"].

(** Sufficient conditions that can be computed. *)
Definition plain_b (n : str) : bool :=
  match n with [] => false | _ => forallb (fun c => negb (is_uspace c) && negb (N.eqb c 35) && negb (N.eqb c c_dollar) && negb (N.eqb c c_bs)) n end.
Lemma plain_sound n : plain_b n = true -> no_quoting n.
Proof.
  intros H. destruct n as [|x n]; [done|]. assert (forallb (fun c => negb (is_uspace c) && negb (N.eqb c 35) && negb (N.eqb c c_dollar) && negb (N.eqb c c_bs)) (x :: n) = true) as Hb by exact H.
  clear H. rewrite forallb_forall in Hb. split; [split; [done|]|].
  - apply Forall_forall. intros c Hc. apply elem_of_list_In, Hb in Hc.
    apply andb_prop in Hc as [Hc _]. apply andb_prop in Hc as [Hc H3]. apply andb_prop in Hc as [H1 H2].
    apply negb_true_iff in H1, H2, H3. apply N.eqb_neq in H2, H3. done.
  - intros m Hm. assert (In c_bs (x :: n)) as Hin by (rewrite Hm; apply elem_of_list_In, elem_of_app; right; by left).
    apply Hb in Hin. by apply andb_prop in Hin as [_ Hin].
Qed.
Lemma obj_dep_file src : src = "a.c" \/ src = "b.c" -> dep_file (dep_text src) [src; "x.h"].
Proof.
  intros Hs. exists (chars (obj_of src)), (if String.eqb src "a.c" then [false; true] else [false; false]).
  destruct Hs as [-> | ->]; (split_and!; [done|by apply plain_sound; vm_compute| |by vm_compute]);
    repeat (apply Forall_cons; split; [by apply plain_sound; vm_compute|]); by apply Forall_nil.
Qed.
Definition deps_b (ct : content) (deps : list name) : bool :=
  match read_deps (chars ct) with Some l => bool_decide (l = map chars deps) | None => false end.
Definition compiled_b (s0 : ssys) (run : trun) : bool :=
  match rq_srcs (tr_rq run) with
  | [src] =>
      (String.eqb src "a.c" || String.eqb src "b.c") &&
      is_done (snd (step ident sbk (srun s0 (tr_a run ++ OBegin (tr_t run) (tr_rq run) :: tr_b run)) (OEnd (tr_t run) (tr_r run)))) (tr_r run) &&
      existsb (fun be => match be.2 with
        | OAddExt t deps [] false :: _ => Nat.eqb t (tr_t run) && deps_b (dep_text src) deps &&
            match e_fs (s_env (srun s0 (tr_a run ++ OBegin (tr_t run) (tr_rq run) :: be.1))) !! dep_of src with
            | Some (_, ct) => String.eqb ct (dep_text src)
            | None => false
            end
        | _ => false
        end) (splits (tr_b run))
  | _ => false
  end.
Lemma compiled_sound s0 os :
  forallb (fun run => negb (String.eqb (rq_fun (tr_rq run)) "g") || compiled_b s0 run) (all_runs s0 os) = true ->
  compiles ident sbk s0 "g" obj_reads os.
Proof.
  intros H t rq a b r c Hos Hg Hrd. apply (all_runs_sound _ _ _ _ _ _ _ _ Hos), elem_of_list_In in Hrd.
  rewrite forallb_forall in H. apply H in Hrd. cbn [tr_rq] in Hrd. rewrite Hg in Hrd. cbn [String.eqb negb orb] in Hrd.
  unfold compiled_b in Hrd. cbn [tr_t tr_rq tr_a tr_b tr_r] in Hrd. destruct (rq_srcs rq) as [|src [|? ?]] eqn:Es; try done.
  apply andb_prop in Hrd as [Hrd He]. apply andb_prop in Hrd as [Hs Hdone].
  split; [|by apply is_done_sound].
  assert (src = "a.c" \/ src = "b.c") as Hsrc by (apply orb_prop in Hs as [Hs|Hs]; apply String.eqb_eq in Hs; tauto).
  apply existsb_exists in He as ([b1 e] & Hin & He). cbn [fst snd] in He.
  destruct e as [|[|t' deps [|] []| | | | | | | | |] b2]; try done.
  apply andb_prop in He as [He Hf]. apply andb_prop in He as [Ht Hd]. apply Nat.eqb_eq in Ht as ->.
  destruct (e_fs (s_env (srun s0 (a ++ OBegin t rq :: b1))) !! dep_of src) as [[m ct]|] eqn:Ef; [|done].
  apply String.eqb_eq in Hf as ->. unfold deps_b in Hd.
  destruct (read_deps (chars (dep_text src))) as [l|] eqn:El; [|done]. apply bool_decide_eq_true in Hd as ->.
  exists b1, (dep_of src), m, (dep_text src), deps, b2. split_and!.
  - by apply elem_of_list_In, from_splits in Hin.
  - exact Ef.
  - unfold obj_reads. rewrite Es. by apply obj_dep_file.
  - exact El.
Qed.

Definition subset_b (l k : list name) : bool := forallb (fun f => existsb (String.eqb f) k) l.
Lemma subset_sound l k : subset_b l k = true -> forall f, f ∈ l -> f ∈ k.
Proof.
  unfold subset_b. rewrite forallb_forall. intros H f Hf%elem_of_list_In. apply H, existsb_exists in Hf as (g & Hg & E).
  apply String.eqb_eq in E as ->. by apply elem_of_list_In.
Qed.
Definition leaves_b (srcs : list name) (o : sop) : bool :=
  match o with OWrite g _ _ | ORemove g => negb (existsb (String.eqb g) srcs) | _ => true end.
Lemma leaves_sound srcs q : forallb (leaves_b srcs) q = true -> forall f, f ∈ srcs -> Forall (leaves f) q.
Proof.
  intros H f Hf. rewrite forallb_forall in H. apply Forall_forall. intros o Ho%elem_of_list_In. apply H in Ho.
  assert (forall g, negb (existsb (String.eqb g) srcs) = true -> g <> f) as X.
  { intros g Hg ->. apply negb_true_iff in Hg. assert (existsb (String.eqb f) srcs = true) as Y; [|congruence].
    apply existsb_exists. exists f. split; [by apply elem_of_list_In|]. by apply String.eqb_eq. }
  destruct o; simpl in *; try done; by apply X.
Qed.
(** [late]: whether files may be touched between the answer and the end. *)
Definition source_b (late : bool) (s0 : ssys) (run : trun) (src : name) : bool :=
  existsb (fun be => match be.2 with
    | OBegin t' rq' :: b2 =>
        String.eqb (rq_fun rq') "g" && bool_decide (rq_srcs rq' = [src]) &&
        String.eqb (rq_bound rq') (obj_opts (rq_bound (tr_rq run)) src) &&
        existsb (fun ans : string * list name * list name * list sop * list sop =>
          let '(o, srcs, dsts, p, q) := ans in
          (late || forallb (leaves_b srcs) q) &&
          existsb (fun ce => match ce.2 with
            | OAddExt t xs xd false :: c2 => Nat.eqb t (tr_t run) && subset_b srcs xs && subset_b dsts xd
            | _ => false
            end) (splits q))
          (answers s0 (tr_a run ++ OBegin (tr_t run) (tr_rq run) :: be.1) t' rq' b2)
    | _ => false
    end) (splits (tr_b run)).
Definition built_b (late : bool) (s0 : ssys) (run : trun) : bool :=
  is_done (snd (step ident sbk (srun s0 (tr_a run ++ OBegin (tr_t run) (tr_rq run) :: tr_b run)) (OEnd (tr_t run) (tr_r run)))) (tr_r run) &&
  forallb (source_b late s0 run) (rq_srcs (tr_rq run)).
Lemma source_sound late s0 t rq a b r src : source_b late s0 (Trun t rq a b r) src = true ->
  exists t' b1 rq' b2 o srcs dsts p q c1 xs xd c2,
      b = b1 ++ OBegin t' rq' :: b2 /\
      rq_fun rq' = "g" /\ rq_srcs rq' = [src] /\ rq_bound rq' = obj_opts (rq_bound rq) src /\
      answered ident sbk s0 (a ++ OBegin t rq :: b1) t' rq' b2 o srcs dsts p q /\
      q = c1 ++ OAddExt t xs xd false :: c2 /\ (forall f, f ∈ srcs -> f ∈ xs) /\ (forall f, f ∈ dsts -> f ∈ xd) /\
      (late = false -> forall f, f ∈ srcs -> Forall (leaves f) q).
Proof.
  unfold source_b. cbn [tr_t tr_rq tr_a tr_b tr_r]. intros H. apply existsb_exists in H as ([b1 e] & Hb & H). cbn [fst snd] in H.
  destruct e as [|[t' rq'| | | | | | | | | |] b2]; try done.
  apply andb_prop in H as [H Ha]. apply andb_prop in H as [H H3]. apply andb_prop in H as [H1 H2].
  apply String.eqb_eq in H1, H3. apply bool_decide_eq_true in H2.
  apply existsb_exists in Ha as ([[[[o srcs] dsts] p] q] & Ha & H).
  apply andb_prop in H as [Hl H]. apply existsb_exists in H as ([c1 e] & Hq & H). cbn [fst snd] in H.
  destruct e as [|[|t1 xs xd []| | | | | | | | |] c2]; try done.
  apply andb_prop in H as [H H6]. apply andb_prop in H as [H4 H5]. apply Nat.eqb_eq in H4 as ->.
  exists t', b1, rq', b2, o, srcs, dsts, p, q, c1, xs, xd, c2. split_and!; try done.
  - by apply elem_of_list_In, from_splits in Hb.
  - by apply answers_sound, elem_of_list_In.
  - by apply elem_of_list_In, from_splits in Hq.
  - by apply subset_sound.
  - by apply subset_sound.
  - intros ->. by apply leaves_sound.
Qed.
Lemma built_sound s0 os :
  forallb (fun run => negb (String.eqb (rq_fun (tr_rq run)) "f") || built_b false s0 run) (all_runs s0 os) = true ->
  builds ident sbk s0 "f" "g" obj_opts os.
Proof.
  intros H t rq a b r c Hos Hf Hrd. apply (all_runs_sound _ _ _ _ _ _ _ _ Hos), elem_of_list_In in Hrd.
  rewrite forallb_forall in H. apply H in Hrd. cbn [tr_rq] in Hrd. rewrite Hf in Hrd. cbn [String.eqb negb orb] in Hrd.
  unfold built_b in Hrd. apply andb_prop in Hrd as [Hdone Hall]. split; [|by apply is_done_sound].
  intros src Hsrc. rewrite forallb_forall in Hall. apply elem_of_list_In, Hall in Hsrc.
  destruct (source_sound _ _ _ _ _ _ _ _ Hsrc) as (t' & b1 & rq' & b2 & o & srcs & dsts & p & q & c1 & xs & xd & c2 & X).
  exists t', b1, rq', b2, o, srcs, dsts, p, q, c1, xs, xd, c2. destruct X as (X1 & X2 & X3 & X4 & X5 & X6 & X7 & X8 & X9).
  split_and!; try done. by apply X9.
Qed.
Definition obj_b (o : sop) : bool :=
  match o with OBegin _ rq => bool_decide (rq_srcs rq = obj_D (rq_fun rq) (rq_bound rq)) | _ => true end.
Lemma obj_declared os : forallb obj_b os = true -> declared_by String.eqb obj_D os.
Proof.
  intros H. split; [|by intros fn b b' ->%String.eqb_eq]. intros t rq Hin. rewrite forallb_forall in H. apply elem_of_list_In, H in Hin.
  by apply bool_decide_eq_true in Hin.
Qed.
Lemma obj_options : options_ok String.eqb obj_opts.
Proof.
  split; [by intros x y z ->%String.eqb_eq|]. intros x y src ->%String.eqb_eq. apply String.eqb_refl.
Qed.

(** The contents of sources and headers are their modification times: "1" at 1, and so on. *)
Definition obj_F (f : name) (m : Z) : content :=
  if String.eqb f "a.d" then dep_text "a.c" else if String.eqb f "b.d" then dep_text "b.c"
  else if String.eqb f "a.o" then "o" else if String.eqb f "b.o" then "o"
  else if decide (m = 1)%Z then "1" else if decide (m = 2)%Z then "2" else "3".
Definition obj_end (t : nat) (src : name) (m : Z) : list sop :=
  [OWrite (dep_of src) (dep_text src) m; OWrite (obj_of src) "o" m; OAddExt t [src; "x.h"] [] false; OEnd t (obj_of src)].
Definition obj_sum : sop := OAddExt 0 ["a.c"; "x.h"; "b.c"; "x.h"] ["a.o"; "b.o"] false.
(** Both sources are compiled, in two threads at a time; then the header is edited and both are
    compiled again; then only b.c, where the call for a.c is answered from the database. *)
Definition obj_both (m : Z) : list sop :=
  [OBegin 0 (bo "-O"); OBegin 1 (co "-O" "a.c"); OBegin 2 (co "-O" "b.c")] ++ obj_end 2 "b.c" m ++ obj_end 1 "a.c" m ++
  [obj_sum; OEnd 0 "ok"].
Definition obj_history : list sop :=
  [OWrite "a.c" "1" 1; OWrite "b.c" "1" 1; OWrite "x.h" "1" 1; OTick 2000000] ++ obj_both 3 ++
  [OBegin 0 (bo "-O"); OSave; ORestart funs1; OWrite "x.h" "2" 2; OTick 2000000] ++ obj_both 4 ++
  [OSave; ORestart funs1; OWrite "b.c" "2" 2; OTick 2000000] ++
  [OBegin 0 (bo "-O"); OBegin 1 (co "-O" "a.c"); OBegin 2 (co "-O" "b.c")] ++ obj_end 2 "b.c" 5 ++ [obj_sum; OEnd 0 "ok"; OSave; ORestart funs1].
Definition kinds (l : list (out string)) : list string :=
  l ≫= fun o => match o with RHit _ _ _ => ["hit"] | RRun => ["runs"] | RDone _ _ _ => ["done"] | _ => [] end.
Example C76_example :
  options_ok String.eqb obj_opts /\
  fresh pdb_empty (start 100) /\ fs_faithful obj_F (s_env (start 100)) /\ history_ok ident sbk obj_F (start 100) obj_history /\
  declared_by String.eqb obj_D (obj_history ++ [OBegin 0 (bo "-O")]) /\
  declared_by String.eqb obj_D (obj_history ++ [OBegin 0 (co "-O" "a.c")]) /\
  compiles ident sbk (start 100) "g" obj_reads obj_history /\
  builds ident sbk (start 100) "f" "g" obj_opts obj_history /\
  snd (step ident sbk (srun (start 100) obj_history) (OBegin 0 (bo "-O"))) = 
    RHit "ok" ["a.c"; "b.c"; "a.c"; "x.h"; "b.c"; "x.h"] ["a.o"; "b.o"; "a.o"; "b.o"] /\
  snd (step ident sbk (srun (start 100) obj_history) (OBegin 0 (co "-O" "a.c"))) = RHit "a.o" ["a.c"; "a.c"; "x.h"] ["a.o"] /\
  kinds (outs ident sbk (start 100) obj_history) =
    ["runs"; "runs"; "runs"; "done"; "done"; "done"; "hit"; "runs"; "runs"; "runs"; "done"; "done"; "done";
     "runs"; "hit"; "runs"; "done"; "done"].
Proof.
  split; [exact obj_options|]. split; [exact (start_fresh 100)|]. split; [exact (start_faithful _)|].
  split; [apply behaved_sound; by vm_compute|]. split; [apply obj_declared; by vm_compute|]. split; [apply obj_declared; by vm_compute|].
  split; [apply compiled_sound; by vm_compute|]. split; [apply built_sound; by vm_compute|].
  split_and!; by vm_compute.
Qed.

(** *** Beyond the claim *)
(** Files the compiler read exist when its object is used again: they do not have to. *)
Definition reads_exist : Prop :=
  forall F D (s0 : ssys) reads os t rq r srcs dsts src,
    fresh pdb_empty s0 -> fs_faithful F (s_env s0) -> history_ok ident sbk F s0 os ->
    declared_by String.eqb D (os ++ [OBegin t rq]) -> compiles ident sbk s0 "g" reads os ->
    rq_fun rq = "g" -> rq_srcs rq = [src] ->
    snd (step ident sbk (srun s0 os) (OBegin t rq)) = RHit r srcs dsts ->
    exists t' rq' a b c, os = a ++ OBegin t' rq' :: b ++ OEnd t' r :: c /\ rq_fun rq' = "g" /\
      runs_during ident sbk s0 t' rq' a b /\ forall h, h ∈ reads a rq' -> is_Some (e_fs (s_env (srun s0 os)) !! h).
Definition removed_history : list sop :=
  [OWrite "a.c" "1" 1; OWrite "x.h" "1" 1; OTick 2000000; OBegin 0 (co "-O" "a.c")] ++ obj_end 0 "a.c" 3 ++
  [ORemove "x.h"].
Lemma some_none {A} (o : option A) x : o = Some x -> o = None -> False.
Proof. by intros ->. Qed.
Theorem C76_removed_header_refuted : ~ reads_exist.
Proof.
  intros H.
  destruct (H obj_F obj_D (start 100) obj_reads removed_history 0%nat (co "-O" "a.c") "a.o" ["a.c"; "a.c"; "x.h"] ["a.o"] "a.c")
    as (t & rq & a & b & c & Hos & Hg & Hrd & Hall).
  - exact (start_fresh 100).
  - exact (start_faithful _).
  - apply behaved_sound. by vm_compute.
  - apply obj_declared. by vm_compute.
  - apply compiled_sound. by vm_compute.
  - done.
  - done.
  - by vm_compute.
  - destruct (Hall "x.h") as [x Hx]; [unfold obj_reads; apply elem_of_app; right; by left|].
    assert (e_fs (s_env (srun (start 100) removed_history)) !! "x.h" = None) as E by by vm_compute.
    exact (some_none _ _ Hx E).
Qed.

(** Files the compiler read are as they were when the call began: a header edited while the compiler
    runs may have been read before. *)
Definition reads_since_begin : Prop :=
  forall F D (s0 : ssys) reads os t rq r srcs dsts src,
    fresh pdb_empty s0 -> fs_faithful F (s_env s0) -> history_ok ident sbk F s0 os ->
    declared_by String.eqb D (os ++ [OBegin t rq]) -> compiles ident sbk s0 "g" reads os ->
    rq_fun rq = "g" -> rq_srcs rq = [src] ->
    snd (step ident sbk (srun s0 os) (OBegin t rq)) = RHit r srcs dsts ->
    exists t' rq' a b c, os = a ++ OBegin t' rq' :: b ++ OEnd t' r :: c /\ rq_fun rq' = "g" /\
      runs_during ident sbk s0 t' rq' a b /\ forall h, h ∈ reads a rq' ->
        digest_at ident (s_env (srun s0 os)) h = digest_at ident (s_env (srun s0 a)) h.
Definition edited_meanwhile : list sop :=
  [OWrite "a.c" "1" 1; OWrite "x.h" "1" 1; OTick 2000000; OBegin 0 (co "-O" "a.c"); OWrite "x.h" "2" 2] ++
  obj_end 0 "a.c" 3.
Definition header_b (s0 : ssys) (os : list sop) (run : trun) : bool :=
  bool_decide (digest_at ident (s_env (srun s0 os)) "x.h" = digest_at ident (s_env (srun s0 (tr_a run))) "x.h").
Lemma header_differs s0 os : forallb (fun run => negb (header_b s0 os run)) (all_runs s0 os) = true ->
  forall t rq a b r c, os = a ++ OBegin t rq :: b ++ OEnd t r :: c -> runs_during ident sbk s0 t rq a b ->
    digest_at ident (s_env (srun s0 os)) "x.h" <> digest_at ident (s_env (srun s0 a)) "x.h".
Proof.
  intros H t rq a b r c Hos Hrd. pose proof (runs_check _ _ _ H _ _ _ _ _ _ Hos Hrd) as E. simpl in E.
  by apply negb_true_iff, bool_decide_eq_false in E.
Qed.
Lemma meanwhile_checked : forallb (fun run => negb (header_b (start 100) edited_meanwhile run)) (all_runs (start 100) edited_meanwhile) = true.
Proof. by vm_compute. Qed.
Theorem C76_header_edited_meanwhile_refuted : ~ reads_since_begin.
Proof.
  intros H.
  destruct (H obj_F obj_D (start 100) obj_reads edited_meanwhile 0%nat (co "-O" "a.c") "a.o" ["a.c"; "a.c"; "x.h"] ["a.o"] "a.c")
    as (t & rq & a & b & c & Hos & Hg & Hrd & Hall).
  - exact (start_fresh 100).
  - exact (start_faithful _).
  - apply behaved_sound. by vm_compute.
  - apply obj_declared. by vm_compute.
  - apply compiled_sound. by vm_compute.
  - done.
  - done.
  - by vm_compute.
  - apply (header_differs _ _ meanwhile_checked _ _ _ _ _ _ Hos Hrd), Hall. unfold obj_reads. apply elem_of_app. right. by left.
Qed.

(** build_objects without the proviso that files are left alone once the compiler has returned. *)
Definition builds_loose (s0 : ssys) (os : list sop) : Prop :=
  forall t rq a b r c, os = a ++ OBegin t rq :: b ++ OEnd t r :: c -> rq_fun rq = "f" -> runs_during ident sbk s0 t rq a b ->
    forall src, src ∈ rq_srcs rq -> exists t' b1 rq' b2 o srcs dsts p q c1 xs xd c2,
      b = b1 ++ OBegin t' rq' :: b2 /\
      rq_fun rq' = "g" /\ rq_srcs rq' = [src] /\ rq_bound rq' = obj_opts (rq_bound rq) src /\
      answered ident sbk s0 (a ++ OBegin t rq :: b1) t' rq' b2 o srcs dsts p q /\
      q = c1 ++ OAddExt t xs xd false :: c2 /\ (forall f, f ∈ srcs -> f ∈ xs) /\ (forall f, f ∈ dsts -> f ∈ xd).
Definition objects_reuse_loose : Prop :=
  forall F D (s0 : ssys) reads os t rq r srcs dsts,
    fresh pdb_empty s0 -> fs_faithful F (s_env s0) -> history_ok ident sbk F s0 os ->
    declared_by String.eqb D (os ++ [OBegin t rq]) ->
    compiles ident sbk s0 "g" reads os -> builds_loose s0 os -> rq_fun rq = "f" ->
    snd (step ident sbk (srun s0 os) (OBegin t rq)) = RHit r srcs dsts ->
    forall src, src ∈ rq_srcs rq -> exists o, compiled_well String.eqb ident s0 "g" reads os (obj_opts (rq_bound rq) src) src o.
Definition edited_between : list sop :=
  [OWrite "a.c" "1" 1; OWrite "b.c" "1" 1; OWrite "x.h" "1" 1; OTick 2000000] ++
  [OBegin 0 (bo "-O"); OBegin 1 (co "-O" "a.c"); OBegin 2 (co "-O" "b.c")] ++ obj_end 1 "a.c" 3 ++ [OWrite "x.h" "2" 2] ++
  obj_end 2 "b.c" 3 ++ [obj_sum; OEnd 0 "ok"].
Definition header_end_b (s0 : ssys) (os : list sop) (run : trun) : bool :=
  bool_decide (digest_at ident (s_env (srun s0 os)) "x.h" =
    digest_at ident (s_env (srun s0 (tr_a run ++ OBegin (tr_t run) (tr_rq run) :: tr_b run))) "x.h").
Lemma loose_sound s0 os :
  forallb (fun run => negb (String.eqb (rq_fun (tr_rq run)) "f") || built_b true s0 run) (all_runs s0 os) = true -> builds_loose s0 os.
Proof.
  intros H t rq a b r c Hos Hf Hrd src Hsrc. pose proof (runs_check _ _ _ H _ _ _ _ _ _ Hos Hrd) as E.
  cbn [tr_rq] in E. rewrite Hf in E. cbn [String.eqb negb orb] in E.
  unfold built_b in E. apply andb_prop in E as [_ Hall]. rewrite forallb_forall in Hall.
  apply elem_of_list_In, Hall in Hsrc.
  destruct (source_sound _ _ _ _ _ _ _ _ Hsrc) as (t' & b1 & rq' & b2 & o & srcs & dsts & p & q & c1 & xs & xd & c2 & X).
  exists t', b1, rq', b2, o, srcs, dsts, p, q, c1, xs, xd, c2. tauto.
Qed.
Lemma header_end_differs s0 os :
  forallb (fun run => negb (bool_decide (rq_srcs (tr_rq run) = ["a.c"])) || negb (header_end_b s0 os run)) (all_runs s0 os) = true ->
  forall t rq a b r c, os = a ++ OBegin t rq :: b ++ OEnd t r :: c -> runs_during ident sbk s0 t rq a b -> rq_srcs rq = ["a.c"] ->
    digest_at ident (s_env (srun s0 os)) "x.h" <> digest_at ident (s_env (srun s0 (a ++ OBegin t rq :: b))) "x.h".
Proof.
  intros H t rq a b r c Hos Hrd Hs. pose proof (runs_check _ _ _ H _ _ _ _ _ _ Hos Hrd) as E. cbn [tr_rq] in E.
  rewrite bool_decide_eq_true_2 in E by exact Hs. cbn [negb orb] in E.
  by apply negb_true_iff, bool_decide_eq_false in E.
Qed.
Lemma between_loose : forallb (fun run => negb (String.eqb (rq_fun (tr_rq run)) "f") || built_b true (start 100) run)
  (all_runs (start 100) edited_between) = true.
Proof. by vm_compute. Qed.
Lemma between_checked :
  forallb (fun run => negb (bool_decide (rq_srcs (tr_rq run) = ["a.c"])) || negb (header_end_b (start 100) edited_between run))
    (all_runs (start 100) edited_between) = true.
Proof. by vm_compute. Qed.
Theorem C76_header_edited_between_refuted : ~ objects_reuse_loose.
Proof.
  intros H.
  destruct (H obj_F obj_D (start 100) obj_reads edited_between 0%nat (bo "-O") "ok"
      ["a.c"; "b.c"; "a.c"; "x.h"; "b.c"; "x.h"] ["a.o"; "b.o"; "a.o"; "b.o"]) with (src := "a.c")
    as (o & t & rq & a & b & c & Hos & Hrd & Hg & Hs & _ & [_ Hread]).
  - exact (start_fresh 100).
  - exact (start_faithful _).
  - apply behaved_sound. by vm_compute.
  - apply obj_declared. by vm_compute.
  - apply compiled_sound. by vm_compute.
  - exact (loose_sound _ _ between_loose).
  - done.
  - by vm_compute.
  - by left.
  - apply (header_end_differs _ _ between_checked _ _ _ _ _ _ Hos Hrd Hs), Hread.
    + unfold obj_reads. apply elem_of_app. right. by left.
    + eexists. by vm_compute.
Qed.

Print Assumptions C76_compile.
Print Assumptions C76_objects.
Print Assumptions C76_example.
Print Assumptions C76_removed_header_refuted.
Print Assumptions C76_header_edited_meanwhile_refuted.
Print Assumptions C76_header_edited_between_refuted.
