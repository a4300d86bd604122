(** What does hold where PropsDb.v refutes a claim about cached calls with the
    pickle database: the claims with the restrictions they need. *)
From stdpp Require Import base list strings gmap.
From Coq Require Import ZArith Lia.
From Verif Require Import PyMonad DbModel DbSpec DbClaims CacheBackend CacheFacts CacheStep CacheStamp DbTheorems
  DbHistory DbDeps DbGuard DbRank DbRefute DbExamples.
Local Open Scope string_scope.
Local Open Scope list_scope.

Section Props.
  Context {V R : Type} (veq : V -> V -> bool) (md5 : content -> digest).
  Notation BK := (cache_backend (V := V) (R := R) veq md5).
  Notation sys := (sys V R (pdb V R) name (name * nat) name).
  Notation op := (op V R).
  Notation step := (step md5 BK).
  Notation runs := (runs md5 BK).
  Notation mem s := (p_mem (s_db s)).

  (** C05: of the files a hit reports only external sources can be missing, and
      those only if they are not destinations as well. *)
  Theorem C05_declared_partial (s : sys) t (rq : request V R) r srcs dsts :
    snd (step s (OBegin t rq)) = RHit r srcs dsts ->
    forall f, f ∈ rq_srcs rq \/ f ∈ dsts -> is_Some (e_fs (s_env s) !! f).
  Proof.
    intros Hhit f [Hf|Hf].
    - exact (hit_declared_exist veq md5 s t rq r srcs dsts Hhit f Hf).
    - destruct (hit_outputs veq md5 s t rq r srcs dsts Hhit) as (_ & _ & H). exact (H f Hf).
  Qed.

  (** C08, C09, C10 and C18: a change of a called function is noticed if the run in
      question was the first of its function, made all its calls in its own thread,
      no cached function raised during it, and the changed function was not called again. *)
  Theorem C08_nested_partial :
    nested_change_detected md5 BK pdb_empty (fun s0 t rq a b c g =>
      not_called (rq_fun rq) (a ++ b) /\ Forall (on_thread t) b /\ Forall no_raise b /\
      answered_during md5 BK s0 t rq a b g /\ not_called g c).
  Proof.
    intros s0 t rq a b r c g t' Hfresh (Hfirst & Hthread & Hraise & Hans & Hg) [Hrun Hlevel] Hcalls Hfn.
    intros s Hch. exact (change_detected veq md5 s0 Hfresh t rq a b Hrun Hthread Hraise Hfirst r g Hlevel
      Hcalls Hans c t' rq Hfn Hg Hch eq_refl).
  Qed.

  (** C11: in a single thread, if functions call only themselves and functions of
      lower rank, validation answers whenever the rank is below the recursion limit. *)
  Theorem C11_ranked_partial (rank : name -> nat) t0 (s0 : sys) (os : list op) t (rq : request V R) :
    fresh pdb_empty s0 -> Forall (on_thread t0) os -> calls_descend md5 BK rank s0 os ->
    rank (rq_fun rq) < e_limit (s_env s0) ->
    snd (step (runs s0 os) (OBegin t rq)) <> RErr RecursionErr.
  Proof. exact (validation_answers_ranked veq md5 rank t0 s0 os t rq). Qed.

  (** C14: if files are looked at only when they are at least one tick of the
      file system clock old, a recorded modification time vouches for the recorded digest ... *)
  Theorem C14_settled_partial res (s0 : sys) (os : list op) :
    (0 < res)%Z -> fresh pdb_empty s0 -> careful md5 BK s0 os -> stamped md5 BK res s0 os ->
    settled md5 BK veq res s0 os ->
    let s := runs s0 os in
    forall f m d c, c_files (mem s) !! f = Some (m, d) -> e_fs (s_env s) !! f = Some (m, c) -> d = md5 c.
  Proof.
    intros Hres Hf Hc Hst Hset. apply (trusted_end veq md5). apply shows_trusted; [done|done|].
    by eapply settled_shows.
  Qed.

  (** ... and a hit means that sources are unchanged. *)
  Theorem C14_hit_partial res (s0 : sys) (os : list op) t (rq : request V R) r srcs dsts :
    (0 < res)%Z -> fresh pdb_empty s0 -> careful md5 BK s0 os -> stamped md5 BK res s0 os ->
    settled md5 BK veq res s0 os ->
    let s := runs s0 os in
    snd (step s (OBegin t rq)) = RHit r srcs dsts ->
    exists ru, ran md5 BK s0 os ru /\ rq_fun (ru_req ru) = rq_fun rq /\
      veq (rq_bound rq) (rq_bound (ru_req ru)) = true /\ ru_result ru = r /\
      (forall f, f ∈ rq_srcs rq -> f ∈ rq_srcs (ru_req ru) ->
         is_Some (digest_at md5 (s_env s) f) /\
         digest_at md5 (s_env s) f = digest_at md5 (ru_begin ru) f) /\
      (forall f, f ∈ ru_xsrcs ru -> ru_recorded ru = true -> is_Some (e_fs (s_env s) !! f) ->
         digest_at md5 (s_env s) f = digest_at md5 (ru_end ru) f).
  Proof.
    intros Hres Hf Hc Hst Hset s Hhit.
    destruct (trusted_hit_facts veq md5 s0 os t rq r srcs dsts) as (ru & ?); [done| |done|].
    - apply shows_trusted; [done|done|]. by eapply settled_shows.
    - exists ru. tauto.
  Qed.

  (** C14, for any file system: it is enough that a file written after it was looked at
      does not keep the modification time it had then (or keeps its content). *)
  Theorem C14_rewrites_partial (s0 : sys) (os : list op) :
    fresh pdb_empty s0 -> careful md5 BK s0 os -> rewrites_show md5 BK veq s0 os ->
    let s := runs s0 os in
    forall f m d c, c_files (mem s) !! f = Some (m, d) -> e_fs (s_env s) !! f = Some (m, c) -> d = md5 c.
  Proof. intros Hf Hc Hr. apply (trusted_end veq md5). by apply shows_trusted. Qed.

  (** C16: when the external sources a run registered exist, its return is recorded
      and raises nothing. *)
  Theorem C16_recorded_partial (s0 : sys) (a b : list op) t (rq : request V R) r :
    fresh pdb_empty s0 -> orderly md5 BK s0 (a ++ OBegin t rq :: b) ->
    runs_during md5 BK s0 t rq a b ->
    let s := runs s0 (a ++ OBegin t rq :: b) in
    (forall f, registered md5 BK s0 (fun xs _ => xs) t rq a b f -> is_Some (e_fs (s_env s) !! f)) ->
    exists srcs dsts, snd (step s (OEnd t r)) = RDone r srcs dsts.
  Proof. exact (return_records veq md5 s0 a t rq b r). Qed.

  (** C17: no internal errors if calls that found their function changed run alone. *)
  Theorem C17_orderly_partial (s0 : sys) (os : list op) t r x :
    fresh pdb_empty s0 -> orderly md5 BK s0 os ->
    snd (step (runs s0 os) (OEnd t r)) = RErr x -> x = OSErr.
  Proof. exact (return_oserr veq md5 s0 os t r x). Qed.
End Props.

Print Assumptions C05_declared_partial.
Print Assumptions C08_nested_partial.
Print Assumptions C11_ranked_partial.
Print Assumptions C14_settled_partial.
Print Assumptions C14_hit_partial.
Print Assumptions C14_rewrites_partial.
Print Assumptions C16_recorded_partial.
Print Assumptions C17_orderly_partial.

(** *** Examples *)

(** Check a condition at every operation of a concrete history. *)
Lemma at_each {A} (q : list A -> A -> bool) (os : list A) :
  forallb (fun n => match os !! n with Some o => q (take n os) o | None => true end)
          (seq 0 (length os)) = true ->
  forall a o b, os = a ++ o :: b -> q a o = true.
Proof.
  intros H a o b ->. rewrite forallb_forall in H. specialize (H (length a)).
  rewrite take_app, list_lookup_middle in H by done. apply H. apply in_seq. rewrite app_length. simpl. lia.
Qed.

Definition unused (s : ssys) (f : name) : bool :=
  forallb (fun tf : nat * list _ =>
     forallb (fun fr => negb (bool_decide (f ∈ rq_srcs (fr_req fr)))) tf.2) (map_to_list (s_threads s)).
Definition careful_b (s0 : ssys) (a : list (op string string)) (o : op string string) : bool :=
  match o with
  | OWrite f _ _ | ORemove f => unused (runs ident sbk s0 a) f
  | ODelFun _ => false
  | _ => true
  end.
Lemma careful_sound s0 os :
  forallb (fun n => match os !! n with Some o => careful_b s0 (take n os) o | None => true end)
          (seq 0 (length os)) = true -> careful ident sbk s0 os.
Proof.
  intros H a o b Ho. pose proof (at_each _ _ H a o b Ho) as Hb.
  destruct o; simpl in *; try done; by apply not_in_use.
Qed.

Definition settled_b (res : Z) (s0 : ssys) (a : list (op string string)) (o : op string string) : bool :=
  match o with
  | OBegin _ _ | OEnd _ _ =>
      let e := s_env (runs ident sbk s0 a) in
      forallb (fun x : name * (Z * content) => Z.leb (x.2.1 + res) (e_now e)) (map_to_list (e_fs e))
  | _ => true
  end.
Lemma settled_sound res s0 os :
  forallb (fun n => match os !! n with Some o => settled_b res s0 (take n os) o | None => true end)
          (seq 0 (length os)) = true -> settled ident sbk String.eqb res s0 os.
Proof.
  intros H a o b f m c Ho Hl He. pose proof (at_each _ _ H a o b Ho) as Hb.
  assert (forallb (fun x : name * (Z * content) => Z.leb (x.2.1 + res) (e_now (s_env (runs ident sbk s0 a))))
            (map_to_list (e_fs (s_env (runs ident sbk s0 a)))) = true) as Hall by by destruct o.
  rewrite forallb_forall in Hall. specialize (Hall (f, (m, c))).
  rewrite <- elem_of_list_In, elem_of_map_to_list in Hall. apply Z.leb_le. by apply Hall.
Qed.

(** A file system with a resolution of two seconds. *)
Definition fat_build : list (op string string) :=
  [OTick 1; OWrite "a.c" "int a;" 0; OTick 3000000; OBegin 0 (call_src "f" "x" ["a.c"]);
   OEnd 0 "F"; OTick 1].
Definition fat_edit : list (op string string) := [OWrite "a.c" "int b;" 2000000; OTick 5000000].

Example C14_example :
  fresh pdb_empty (start 100) /\
  careful ident sbk (start 100) (fat_build ++ fat_edit) /\
  stamped ident sbk 2000000 (start 100) (fat_build ++ fat_edit) /\
  settled ident sbk String.eqb 2000000 (start 100) (fat_build ++ fat_edit) /\
  snd (step ident sbk (runs ident sbk (start 100) fat_build) (OBegin 0 (call_src "f" "x" ["a.c"]))) =
    RHit "F" ["a.c"] [] /\
  snd (step ident sbk (runs ident sbk (start 100) (fat_build ++ fat_edit))
        (OBegin 0 (call_src "f" "x" ["a.c"]))) = RRun.
Proof.
  split; [done|]. split; [apply careful_sound; vm_compute; reflexivity|].
  split; [vm_compute; repeat split; discriminate|].
  split; [apply settled_sound; vm_compute; reflexivity|]. split; vm_compute; reflexivity.
Qed.

(** The build of DbExamples.v, with a file written back and forth, meets the last condition. *)
Example C14_rewrites_example :
  careful ident sbk (start 100) ex_build /\ rewrites_show ident sbk String.eqb (start 100) ex_build.
Proof.
  split; [apply careful_sound; vm_compute; reflexivity|].
  intros a o b f c m c' rest Ho Hl He.
  assert (forall os s, fs_faithful ex_F (s_env s) -> history_ok ident sbk ex_F s os ->
    fs_faithful ex_F (s_env (runs ident sbk s os))) as Hpre.
  { induction os as [|o' os IH]; intros s Hf Hh; [done|]. destruct Hh as (H1 & _ & H3).
    apply IH; [|done]. by apply CacheTrust.faithful_step. }
  assert (forall os1 os2 s, history_ok ident sbk ex_F s (os1 ++ os2) ->
    history_ok ident sbk ex_F s os1 /\ history_ok ident sbk ex_F (runs ident sbk s os1) os2) as Happ.
  { induction os1 as [|o' os1 IH]; intros os2 s; simpl; [done|]. intros (H1 & H2 & H3).
    apply IH in H3 as [? ?]. done. }
  pose proof ex_ok as Hok. rewrite Ho in Hok.
  pose proof (Happ _ _ _ Hok) as [Hok1 Hok2]. destruct Hok2 as (_ & _ & Hok2).
  apply Happ in Hok2 as [_ (Hc & _)]. simpl in Hc. subst c. symmetry.
  by apply (Hpre a (start 100) ex_faithful Hok1).
Qed.

(** C08: f calls g; then g changes. *)
Definition dep_b : list (op string string) :=
  [OBegin 0 (call "g" "y"); OEnd 0 "G1"; OBegin 0 (call "h" "z"); OEnd 0 "H1"].
Definition dep_c : list (op string string) := [OBegin 0 (call "h" "z2"); OEnd 0 "H2"; OSave; ORestart funs2].

Example C08_example :
  fresh pdb_empty (start 100) /\
  not_called "f" ([] ++ dep_b) /\ Forall (on_thread 0) dep_b /\ Forall no_raise dep_b /\
  answered_during ident sbk (start 100) 0 (call "f" "x") [] dep_b "g" /\
  not_called "g" dep_c /\ not_called "f" dep_c /\
  runs_during ident sbk (start 100) 0 (call "f" "x") [] dep_b /\
  calls_during ident sbk (start 100) 0 (call "f" "x") [] dep_b "g" /\
  let s := runs ident sbk (start 100) ([] ++ OBegin 0 (call "f" "x") :: dep_b ++ OEnd 0 "F" :: dep_c) in
  e_fun (s_env s) !! "g" = Some "g2" /\
  snd (step ident sbk s (OBegin 0 (call "f" "x"))) = RRun /\
  snd (step ident sbk s (OBegin 0 (call "h" "z"))) = RHit "H1" [] [].
Proof.
  split; [done|]. split; [unfold not_called, dep_b; simpl; not_in|].
  split; [by repeat constructor|]. split; [by repeat constructor|].
  split; [exists [], (call "g" "y"), [OEnd 0 "G1"; OBegin 0 (call "h" "z"); OEnd 0 "H1"];
          split; [done|]; split; [done|]; intros x; by vm_compute|].
  split; [unfold not_called, dep_c; not_in|]. split; [unfold not_called, dep_c; not_in|].
  split; [split; [split; [by vm_compute|unfold dep_b; prefixes]|by vm_compute]|].
  split; [exists [], (call "g" "y"), [OEnd 0 "G1"; OBegin 0 (call "h" "z"); OEnd 0 "H1"];
          split; [done|]; split; [done|]; by vm_compute|].
  split; [by vm_compute|]. split; by vm_compute.
Qed.

(** C11: f calls g, which calls itself and h; exceptions do not matter. *)
Definition ex_rank (f : name) : nat :=
  if decide (f = "f") then 2 else if decide (f = "g") then 1 else 0.
Definition ranked_os : list (op string string) :=
  [OBegin 0 (call "f" "x"); OBegin 0 (call "g" "2"); OBegin 0 (call "g" "1"); OBegin 0 (call "h" "z");
   ORaise 0; OEnd 0 "G1"; OEnd 0 "G2"; OBegin 0 (call "h" "y"); OEnd 0 "H"; OEnd 0 "F"].
Definition descend_b (rank : name -> nat) (s0 : ssys) (a : list (op string string)) (o : op string string) : bool :=
  match o with
  | OBegin t rq =>
      match thread (runs ident sbk s0 a) t with
      | [] => true
      | fr :: _ => bool_decide (rq_fun rq = rq_fun (fr_req fr)) || Nat.ltb (rank (rq_fun rq)) (rank (rq_fun (fr_req fr)))
      end
  | _ => true
  end.
Example C11_example :
  Forall (on_thread 0) ranked_os /\ calls_descend ident sbk ex_rank (start 3) ranked_os /\
  ex_rank "f" < e_limit (s_env (start 3)) /\
  snd (step ident sbk (runs ident sbk (start 3) ranked_os) (OBegin 0 (call "f" "x"))) = RHit "F" [] [] /\
  snd (step ident sbk (runs ident sbk (start 2) ranked_os) (OBegin 0 (call "f" "x"))) = RErr RecursionErr.
Proof.
  split; [by repeat constructor|]. split.
  { intros a t rq b fr frs Ho Ht.
    assert (forallb (fun n => match ranked_os !! n with
        Some o => descend_b ex_rank (start 3) (take n ranked_os) o | None => true end)
          (seq 0 (length ranked_os)) = true) as H by (vm_compute; reflexivity).
    pose proof (at_each _ _ H _ _ _ Ho) as Hb. unfold descend_b in Hb. rewrite Ht in Hb.
    apply orb_prop in Hb as [Hb|Hb]; [left; by apply bool_decide_eq_true in Hb|right; by apply Nat.ltb_lt]. }
  split; [vm_compute; lia|]. split; vm_compute; reflexivity.
Qed.

(** C16, C17: f is called from two threads at once, twice, with a change of a source between. *)
Definition parallel_os : list (op string string) :=
  [OWrite "a.c" "1" 5; OWrite "a.h" "h" 5; OTick 2000000;
   OBegin 0 (call_src "f" "a" ["a.c"]); OBegin 1 (call "f" "b"); OAddExt 0 ["a.h"] [] false;
   OEnd 1 "Fb"; OEnd 0 "Fa"; OWrite "a.c" "2" 6;
   OBegin 1 (call_src "f" "c" ["a.c"]); OBegin 0 (call_src "f" "a" ["a.c"]); OAddExt 0 ["a.h"] [] false; OEnd 1 "Fc"].
Definition no_deleting (s : ssys) : bool :=
  forallb (fun tf : nat * list _ =>
     forallb (fun fr => negb (pr_fun_dirty (fr_prep fr) && bool_decide (is_Some (pr_fun_id (fr_prep fr))))) tf.2)
    (map_to_list (s_threads s)).
Lemma no_deleting_sound s : no_deleting s = true -> changes_alone s.
Proof.
  intros H t i fr t' j fr' Hi _ _ Hd Hs. exfalso. unfold no_deleting in H. unfold thread in Hi.
  destruct (s_threads s !! t) as [frs|] eqn:E; [|done].
  rewrite forallb_forall in H. specialize (H (t, frs)).
  rewrite <- elem_of_list_In, elem_of_map_to_list in H. specialize (H E). simpl in H.
  rewrite forallb_forall in H. specialize (H fr). rewrite <- elem_of_list_In in H.
  specialize (H (elem_of_list_lookup_2 _ _ _ Hi)). rewrite Hd, bool_decide_true in H by done. done.
Qed.
Example C17_example :
  orderly ident sbk (start 100) parallel_os /\
  thread (runs ident sbk (start 100) parallel_os) 0 <> [] /\
  snd (step ident sbk (runs ident sbk (start 100) parallel_os) (OEnd 0 "Fa2")) =
    RDone "Fa2" ["a.c"; "a.h"] [].
Proof.
  split.
  - split.
    + intros a b Ho. apply no_deleting_sound.
      assert (forallb (fun n => no_deleting (runs ident sbk (start 100) (take n parallel_os)))
                (seq 0 (S (length parallel_os))) = true) as H by (vm_compute; reflexivity).
      rewrite forallb_forall in H. specialize (H (length a)). rewrite Ho, take_app in H. apply H.
      apply in_seq. rewrite app_length. lia.
    + intros a f b Ho. exfalso. assert (ODelFun f ∈ parallel_os) as Hin by (rewrite Ho; set_solver).
      unfold parallel_os in Hin. rewrite ?elem_of_cons, elem_of_nil in Hin. naive_solver.
  - split; [by vm_compute|]. vm_compute. reflexivity.
Qed.

(** C16: the second run of thread 0 in that history, whose external source exists. *)
Definition parallel_a : list (op string string) := take 10 parallel_os.
Definition parallel_b : list (op string string) := drop 11 parallel_os.
Example C16_example :
  let rq := call_src "f" "a" ["a.c"] in
  parallel_os = parallel_a ++ OBegin 0 rq :: parallel_b /\
  runs_during ident sbk (start 100) 0 rq parallel_a parallel_b /\
  registered ident sbk (start 100) (fun xs _ => xs) 0 rq parallel_a parallel_b "a.h" /\
  e_fs (s_env (runs ident sbk (start 100) parallel_os)) !! "a.h" = Some (5%Z, "h").
Proof.
  cbv zeta. split; [reflexivity|].
  split; [split; [split; [by vm_compute|]|by vm_compute]|].
  { unfold parallel_b, parallel_os. cbn [drop]. prefixes. }
  split; [|by vm_compute].
  exists [], ["a.h"], [], false, [OEnd 1 "Fc"]. split; [reflexivity|]. split; [set_solver|]. by left.
Qed.

(** C05: the hit of [fat_build] reports its declared source, which exists. *)
Example C05_example :
  snd (step ident sbk (runs ident sbk (start 100) fat_build) (OBegin 0 (call_src "f" "x" ["a.c"]))) =
    RHit "F" ["a.c"] [] /\
  "a.c" ∈ rq_srcs (call_src "f" "x" ["a.c"]) /\
  is_Some (e_fs (s_env (runs ident sbk (start 100) fat_build)) !! "a.c").
Proof. split; [vm_compute; reflexivity|]. split; [set_solver|]. vm_compute. by eexists. Qed.
