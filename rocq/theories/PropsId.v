(** Which code the answer of a cached call comes from. *)
From stdpp Require Import base list strings gmap.
From Coq Require Import ZArith Lia.
From Verif Require Import PyMonad DbModel DbSpec CacheBackend CacheDeps IdModel IdSpec IdFacts PropsDb DbRefute.
Local Open Scope string_scope.
Local Open Scope list_scope.

Section Props.
  Context {A R : Type} (aeq : A -> A -> bool) (md5 : content -> digest).
  Notation V := (callable * A)%type.
  Notation BK := (cache_backend (V := V) (R := R) (aeq2 aeq) md5).
  Notation sys := (sys V R (pdb V R) name (name * nat) name).

  Lemma all_proper_at ok (s : sys) a t rq b :
    all_proper md5 BK ok s (a ++ OBegin t rq :: b) -> proper md5 ok (s_env (runs md5 BK s a)) rq.
  Proof.
    revert s. induction a as [|o a IH]; intros s H; [by destruct H|]. destruct H as [_ H]. by apply IH in H.
  Qed.

  Lemma proper_digest (e : env) (rq : request V R) : proper md5 own_name e rq ->
    e_fun e !! rq_fun rq = Some (md5 (code (callee rq))).
  Proof.
    intros (P & -> & Ho & ->). unfold table. rewrite lookup_fmap. exact (f_equal (fmap md5) (own_name_source _ _ Ho)).
  Qed.

  (** C65 *)
  Theorem C65_hit_same_code : same_code_claim aeq md5 BK pdb_empty own_name.
  Proof.
    intros F s0 os t rq r srcs dsts Hf HF Hok Hp Hh.
    destruct (C03_hit_function_unchanged _ md5 F s0 os t rq r srcs dsts Hf HF Hok Hh) as (ru & Hr & Hn & Hv & Hres & He).
    exists ru. split; [done|]. split; [done|]. split; [done|].
    pose proof (all_proper_at own_name s0 os t rq [] Hp) as H1. apply proper_digest in H1. rewrite H1 in He.
    destruct Hr as (t' & a & b & c & Hos & _ & _ & Hb & _). subst os.
    rewrite <- app_assoc in Hp. cbn [app] in Hp. apply all_proper_at, proper_digest in Hp.
    rewrite Hb, <- Hn, Hp in He. congruence.
  Qed.
End Props.

(** What the names are made of: the module of the function and its name; for a method also
    the name (not the module) of the class of the object. *)
Theorem C65_names f g c c' :
  undotted (f_name (unwrap f)) -> undotted (f_name (unwrap g)) -> undotted (c_name c) -> undotted (c_name c') ->
  (call_name (KFun f) = call_name (KFun g) <->
   f_module (unwrap f) = f_module (unwrap g) /\ f_name (unwrap f) = f_name (unwrap g)) /\
  (call_name (KMethod c f) = call_name (KMethod c' g) <->
   f_module (unwrap f) = f_module (unwrap g) /\ c_name c = c_name c' /\ f_name (unwrap f) = f_name (unwrap g)) /\
  (call_name (KFun f) = call_name (KMethod c g) <->
   f_module (unwrap f) = f_module (unwrap g) +:+ "." +:+ c_name c /\ f_name (unwrap f) = f_name (unwrap g)).
Proof.
  intros H1 H2 H3 H4. split; [by apply same_function|]. split; [by apply same_method|by apply function_method].
Qed.

(** *** Concrete programs *)
Notation tsys := (sys (callable * string) string (pdb (callable * string) string) name (name * nat) name).
Definition tbk := cache_backend (V := callable * string) (R := string) (aeq2 String.eqb) ident.
Definition load (P : list definition) : tsys := Sys (Env ∅ 0 (table ident P) 100) pdb_empty [] ∅ [].
Definition do (k : callable) (a : string) : request (callable * string) string :=
  Request (call_name k) (k, a) [] [] (fun _ => []).

(** Histories that touch no file meet the other hypotheses. *)
Definition no_files (o : op (callable * string) string) : bool :=
  match o with OWrite _ _ _ | ORemove _ | ODelFun _ => false | _ => true end.
Lemma no_files_ok F (s : tsys) os : forallb no_files os = true -> history_ok ident tbk F s os.
Proof.
  revert s. induction os as [|o os IH]; intros s; [done|]. cbn [forallb]. rewrite andb_true_iff. intros [H1 H2].
  split; [by destruct o|]. split; [by destruct o|]. by apply IH.
Qed.
Lemma load_faithful F P : fs_faithful F (s_env (load P)).
Proof. intros f m c. simpl. by rewrite lookup_empty. Qed.

(** No run in [os] with result [r] of code like that of [k]. *)
Lemma no_run (s0 : tsys) os (k : callable) r ru :
  forallb (fun o => match o with OBegin _ rq => bool_decide (code (callee rq) <> code k) | OEnd _ _ => true | _ => true end) os = true ->
  ran ident tbk s0 os ru -> code (callee (ru_req ru)) = code k -> ru_result ru = r -> False.
Proof.
  intros H (t & a & b & c & -> & _) Hc _. rewrite forallb_app in H. apply andb_true_iff in H as [_ H].
  cbn [forallb] in H. apply andb_true_iff in H as [H _]. by apply bool_decide_eq_true in H.
Qed.

(** A module with a cached function and a class with a cached method, which is inherited
    from a class of another module and calls it by [super]. *)
Definition ex_fun x := FObj "build" "config" x None.
Definition ex_base_m := FObj "lib" "compile" "lib compile" None.
Definition ex_m := FObj "build" "compile" "build compile" None.
Definition ex_base := Cls "lib" "Builder" "init" [ex_base_m] [].
Definition ex_cls := Cls "build" "Builder2" "init" [ex_m] [ex_base].
Definition ex_prog x := [DClass ex_base; DFun (ex_fun x); DClass ex_cls].

Lemma ex_distinct x : distinct (ex_prog x).
Proof.
  split.
  - intros i j d1 d2 n H1 H2 Hn1 Hn2.
    destruct i as [|[|[|i]]]; [..|done]; destruct j as [|[|[|j]]]; try done; exfalso;
      injection H1 as <-; injection H2 as <-; cbn in Hn1, Hn2;
      rewrite ?elem_of_cons, ?elem_of_nil in Hn1; rewrite ?elem_of_cons, ?elem_of_nil in Hn2;
      intuition (subst; discriminate).
  - intros c f g Hc Hf Hg _. unfold ex_prog in Hc. rewrite !elem_of_cons, elem_of_nil in Hc.
    destruct Hc as [[= ->]|[?|[[= ->]|[]]]]; [|done|];
      apply elem_of_list_singleton in Hf; apply elem_of_list_singleton in Hg; congruence.
  - intros [f|c f|c] Hk; [..|done]; cbn [defines] in Hk.
    + unfold ex_prog in Hk. rewrite !elem_of_cons, elem_of_nil in Hk. by destruct Hk as [?|[[= ->]|[?|[]]]].
    + destruct Hk as [Hc Hf]. unfold ex_prog in Hc. rewrite !elem_of_cons, elem_of_nil in Hc.
      destruct Hc as [[= ->]|[?|[[= ->]|[]]]]; [|done|]; by apply elem_of_list_singleton in Hf as ->.
  - intros c Hc. unfold ex_prog in Hc. rewrite !elem_of_cons, elem_of_nil in Hc.
    by destruct Hc as [[= ->]|[?|[[= ->]|[]]]].
Qed.

Lemma ex_own_fun x : own_name (ex_prog x) (KFun (ex_fun x)).
Proof. split; [apply ex_distinct|]. split; [done|]. left. right. left. Qed.
Lemma ex_own_method x : own_name (ex_prog x) (KMethod ex_cls ex_m).
Proof. split; [apply ex_distinct|]. split; [done|]. left. split; [|by left]. right. right. by left. Qed.
Lemma ex_own_super x : own_name (ex_prog x) (KMethod ex_cls ex_base_m).
Proof.
  split; [apply ex_distinct|]. split; [done|]. right. split; [right; right; by left|]. split; [by left|]. split; [done|].
  intros g Hg He. cbn in Hg. rewrite !elem_of_cons, elem_of_nil in Hg. destruct Hg as [->|[->|[]]]; [|done].
  vm_compute in He. discriminate He.
Qed.

(** config() runs; compile("a") runs and calls the inherited method by super; the function is
    edited; compile("a") and its super call are still answered from the database, config() runs again. *)
Definition ex_hist : list (op (callable * string) string) :=
  [OBegin 0 (do (KFun (ex_fun "v1")) ""); OEnd 0 "c1";
   OBegin 0 (do (KMethod ex_cls ex_m) "a"); OBegin 0 (do (KMethod ex_cls ex_base_m) "a"); OEnd 0 "a.tmp"; OEnd 0 "a.o";
   OSave; ORestart (table ident (ex_prog "v2"))].

Lemma ex_hist_proper k a : own_name (ex_prog "v2") k ->
  all_proper ident tbk own_name (load (ex_prog "v1")) (ex_hist ++ [OBegin 0 (do k a)]).
Proof.
  intros Hk. unfold ex_hist. cbn [app all_proper].
  split. { exists (ex_prog "v1"). split; [done|]. split; [apply ex_own_fun|done]. }
  split; [done|].
  split. { exists (ex_prog "v1"). split; [apply (bool_decide_unpack _); by vm_compute|]. split; [apply ex_own_method|done]. }
  split. { exists (ex_prog "v1"). split; [apply (bool_decide_unpack _); by vm_compute|]. split; [apply ex_own_super|done]. }
  split; [exact I|]. split; [exact I|]. split; [exact I|]. split; [exact I|].
  split; [|exact I]. exists (ex_prog "v2"). split; [apply (bool_decide_unpack _); by vm_compute|]. by split.
Qed.

Example C65_example :
  fresh pdb_empty (load (ex_prog "v1")) /\
  (forall F, fs_faithful F (s_env (load (ex_prog "v1"))) /\ history_ok ident tbk F (load (ex_prog "v1")) ex_hist) /\
  (forall k a, own_name (ex_prog "v2") k ->
     all_proper ident tbk own_name (load (ex_prog "v1")) (ex_hist ++ [OBegin 0 (do k a)])) /\
  snd (step ident tbk (runs ident tbk (load (ex_prog "v1")) ex_hist) (OBegin 0 (do (KMethod ex_cls ex_m) "a"))) =
    RHit "a.o" [] [] /\
  snd (step ident tbk (runs ident tbk (load (ex_prog "v1")) ex_hist) (OBegin 0 (do (KMethod ex_cls ex_base_m) "a"))) =
    RHit "a.tmp" [] [] /\
  snd (step ident tbk (runs ident tbk (load (ex_prog "v1")) ex_hist) (OBegin 0 (do (KFun (ex_fun "v2")) ""))) = RRun.
Proof.
  split; [done|]. split. { intros F. split; [apply load_faithful|]. by apply no_files_ok. }
  split; [exact ex_hist_proper|]. split; [by vm_compute|]. split; by vm_compute.
Qed.

(** *** What is not noticed *)
(** Claims with weaker conditions on the program and the call. *)
Definition constructors_too (P : list definition) (k : callable) : Prop := distinct P /\ defines P k.
Definition overridden_too (P : list definition) (k : callable) : Prop :=
  distinct P /\ creates k = false /\ (defines P k \/ by_super P k).
Definition same_names_too (P : list definition) (k : callable) : Prop :=
  defines P k /\ exists f, k = KFun f /\ plain f.
Definition decorated_too (P : list definition) (k : callable) : Prop :=
  defines P k /\ creates k = false /\
  forall k', defines P k' -> call_name k' = call_name k -> k' = k.

(** Editing __init__ goes unnoticed: the text of no constructor matters ... *)
Theorem C65_constructors_forgotten md5 P : table md5 (forget_def <$> P) = table md5 P.
Proof. unfold table. by rewrite forget_registry. Qed.

(** ... so that an object made by the old constructor is returned. *)
Definition new_prog x := [DClass (Cls "build" "Tool" x [] [])].
Lemma new_distinct x : distinct (new_prog x).
Proof.
  split.
  - intros i j d1 d2 n H1 H2 _ _. destruct i; [|done]. by destruct j.
  - intros c f g Hc%elem_of_list_singleton. injection Hc as ->. intros Hf. by apply elem_of_nil in Hf.
  - intros [f|c f|c] Hk; [..|done]; cbn [defines] in Hk.
    + by apply elem_of_list_singleton in Hk.
    + destruct Hk as [Hc%elem_of_list_singleton Hf]. injection Hc as ->. by apply elem_of_nil in Hf.
  - intros c Hc%elem_of_list_singleton. by injection Hc as ->.
Qed.
Theorem C65_constructor_refuted : ~ same_code_claim String.eqb ident tbk pdb_empty constructors_too.
Proof.
  intros H. set (k x := KNew (Cls "build" "Tool" x [] [])).
  destruct (H (fun _ _ => "") (load (new_prog "v1"))
    [OBegin 0 (do (k "v1") "cc"); OEnd 0 "tool1"; OSave; ORestart (table ident (new_prog "v2"))]
    0 (do (k "v2") "cc") "tool1" [] []) as (ru & Hr & Hres & _ & Hc).
  - done.
  - apply load_faithful.
  - by apply no_files_ok.
  - cbn [app all_proper].
    split. { exists (new_prog "v1"). split; [done|]. split; [|done]. split; [apply new_distinct|]. by left. }
    split; [exact I|]. split; [exact I|]. split; [exact I|]. split; [|exact I].
    exists (new_prog "v2"). split; [apply (bool_decide_unpack _); by vm_compute|]. split; [|done].
    split; [apply new_distinct|]. by left.
  - by vm_compute.
  - refine (no_run _ _ (k "v2") _ _ _ Hr Hc Hres). by vm_compute.
Qed.

(** Two functions of one name in a module: the text of the first is the one compared. *)
Definition twice_prog x := [DFun (FObj "build" "<lambda>" "first" None); DFun (FObj "build" "<lambda>" x None)].
Theorem C65_same_name_refuted : ~ same_code_claim String.eqb ident tbk pdb_empty same_names_too.
Proof.
  intros H. set (k x := KFun (FObj "build" "<lambda>" x None)).
  destruct (H (fun _ _ => "") (load (twice_prog "v1"))
    [OBegin 0 (do (k "v1") "a"); OEnd 0 "r1"; OSave; ORestart (table ident (twice_prog "v2"))]
    0 (do (k "v2") "a") "r1" [] []) as (ru & Hr & Hres & _ & Hc).
  - done.
  - apply load_faithful.
  - by apply no_files_ok.
  - cbn [app all_proper].
    split. { exists (twice_prog "v1"). split; [done|]. split; [|done]. split; [right; by left|]. by eexists. }
    split; [exact I|]. split; [exact I|]. split; [exact I|]. split; [|exact I].
    exists (twice_prog "v2"). split; [apply (bool_decide_unpack _); by vm_compute|]. split; [|done].
    split; [right; by left|]. by eexists.
  - by vm_compute.
  - refine (no_run _ _ (k "v2") _ _ _ Hr Hc Hres). by vm_compute.
Qed.

(** A method decorated twice: the text compared is that of the inner decorator. *)
Definition deco_m x := FObj "build" "run" "_wrapper" (Some (FObj "build" "run" "_wrapper" (Some (FObj "build" "run" x None)))).
Definition deco_c x := Cls "build" "Tool" "init" [deco_m x] [].
Definition deco_prog x := [DClass (deco_c x)].
Theorem C65_decorated_refuted : ~ same_code_claim String.eqb ident tbk pdb_empty decorated_too.
Proof.
  intros H. set (k x := KMethod (deco_c x) (deco_m x)).
  assert (forall x, decorated_too (deco_prog x) (k x)) as Hok.
  { intros x. split; [split; by left|]. split; [done|]. intros [f|c f|c] Hd Hn; cbn [defines] in Hd.
    - by apply elem_of_list_singleton in Hd.
    - destruct Hd as [Hd%elem_of_list_singleton Hf]. injection Hd as ->. by apply elem_of_list_singleton in Hf as ->.
    - apply elem_of_list_singleton in Hd. injection Hd as ->. vm_compute in Hn. discriminate Hn. }
  destruct (H (fun _ _ => "") (load (deco_prog "v1"))
    [OBegin 0 (do (k "v1") "a"); OEnd 0 "r1"; OSave; ORestart (table ident (deco_prog "v2"))]
    0 (do (k "v2") "a") "r1" [] []) as (ru & Hr & Hres & _ & Hc).
  - done.
  - apply load_faithful.
  - by apply no_files_ok.
  - cbn [app all_proper].
    split. { exists (deco_prog "v1"). split; [done|]. split; [apply Hok|done]. }
    split; [exact I|]. split; [exact I|]. split; [exact I|]. split; [|exact I].
    exists (deco_prog "v2"). split; [apply (bool_decide_unpack _); by vm_compute|]. split; [apply Hok|done].
  - by vm_compute.
  - refine (no_run _ _ (k "v2") _ _ _ Hr Hc Hres). by vm_compute.
Qed.

(** A cached method calls by [super] the cached method it overrides, defined in the same
    module: both have the same name and arguments, and the result of the inner call is later
    returned for the outer one. *)
Definition over_b := FObj "build" "compile" "base" None.
Definition over_d := FObj "build" "compile" "derived" None.
Definition over_base := Cls "build" "Base" "init" [over_b] [].
Definition over_cls := Cls "build" "Derived" "init" [over_d] [over_base].
Definition over_prog := [DClass over_base; DClass over_cls].
Lemma over_distinct : distinct over_prog.
Proof.
  split.
  - intros i j d1 d2 n H1 H2 Hn1 Hn2.
    destruct i as [|[|i]]; [..|done]; destruct j as [|[|j]]; try done; exfalso;
      injection H1 as <-; injection H2 as <-; cbn in Hn1, Hn2;
      rewrite ?elem_of_cons, ?elem_of_nil in Hn1; rewrite ?elem_of_cons, ?elem_of_nil in Hn2;
      intuition (subst; discriminate).
  - intros c f g Hc Hf Hg _. unfold over_prog in Hc. rewrite !elem_of_cons, elem_of_nil in Hc.
    destruct Hc as [[= ->]|[[= ->]|[]]];
      apply elem_of_list_singleton in Hf; apply elem_of_list_singleton in Hg; congruence.
  - intros [f|c f|c] Hk; [..|done]; cbn [defines] in Hk.
    + unfold over_prog in Hk. rewrite !elem_of_cons, elem_of_nil in Hk. by destruct Hk as [?|[?|[]]].
    + destruct Hk as [Hc Hf]. unfold over_prog in Hc. rewrite !elem_of_cons, elem_of_nil in Hc.
      destruct Hc as [[= ->]|[[= ->]|[]]]; by apply elem_of_list_singleton in Hf as ->.
  - intros c Hc. unfold over_prog in Hc. rewrite !elem_of_cons, elem_of_nil in Hc.
    by destruct Hc as [[= ->]|[[= ->]|[]]].
Qed.
Definition over_hist : list (op (callable * string) string) :=
  let d := KMethod over_cls over_d in let b := KMethod over_cls over_b in
  [OBegin 0 (do d "x"); OBegin 0 (do b "x"); OEnd 0 "base x"; OEnd 0 "derived x";
   OBegin 0 (do d "y"); OBegin 0 (do b "y"); OEnd 0 "base y"; OEnd 0 "derived y"].

Theorem C65_overridden_refuted : ~ same_code_claim String.eqb ident tbk pdb_empty overridden_too.
Proof.
  intros H. set (d := KMethod over_cls over_d). set (b := KMethod over_cls over_b).
  assert (overridden_too over_prog d) as Hd.
  { split; [apply over_distinct|]. split; [done|]. left. split; [right|]; by left. }
  assert (overridden_too over_prog b) as Hb.
  { split; [apply over_distinct|]. split; [done|]. right. split; [right; by left|]. exists over_base. split; by left. }
  destruct (H (fun _ _ => "") (load over_prog) over_hist 0 (do d "y") "base y" [] []) as (ru & Hr & Hres & Ha & Hc).
  - done.
  - apply load_faithful.
  - by apply no_files_ok.
  - unfold over_hist. cbn [app all_proper]. fold d b.
    repeat match goal with
    | |- _ /\ _ => split
    | |- True => exact I
    | |- proper _ _ _ _ => exists over_prog; split; [apply (bool_decide_unpack _); by vm_compute|]; split; [assumption|done]
    end.
  - by vm_compute.
  - destruct Hr as (t & a & m & c & Hos & _ & Hdep & _). rewrite Hres in Hos.
    assert (exists n, a = take n over_hist /\ m = take (length m) (drop (S n) over_hist) /\ n < 8 /\ length m < 8 /\
              over_hist !! n = Some (OBegin t (ru_req ru)) /\ over_hist !! (n + S (length m)) = Some (OEnd t "base y")) as
      (n & Han & Hmn & Hn & Hm & Hbeg & Hend).
    { exists (length a). rewrite Hos.
      assert (length over_hist = 8) as Hl by done. rewrite Hos, app_length in Hl. cbn [length] in Hl. rewrite app_length in Hl.
      cbn [length] in Hl.
      split; [by rewrite take_app|]. split.
      { replace (drop (S (length a)) (a ++ OBegin t (ru_req ru) :: m ++ OEnd t "base y" :: c)) with (m ++ OEnd t "base y" :: c).
        - by rewrite take_app.
        - replace (S (length a)) with (length a + 1) by lia. by rewrite <- drop_drop, drop_app. }
      split; [lia|]. split; [lia|]. split; [by rewrite list_lookup_middle|].
      rewrite lookup_app_r by lia. replace (length a + S (length m) - length a) with (S (length m)) by lia. simpl.
      by rewrite list_lookup_middle. }
    assert (forallb (fun i => forallb (fun j =>
        match over_hist !! i, over_hist !! (i + S j) with
        | Some (OBegin u rq), Some (OEnd v r) =>
            negb (bool_decide (u = v)) || negb (bool_decide (r = "base y")) ||
            negb (String.eqb "y" (rq_bound rq).2) || negb (bool_decide (code (callee rq) = code d)) ||
            negb (Nat.eqb (depth (runs ident tbk (load over_prog) (take i over_hist ++ OBegin u rq :: take j (drop (S i) over_hist))) u)
                          (S (depth (runs ident tbk (load over_prog) (take i over_hist)) u)))
        | _, _ => true end) (seq 0 8)) (seq 0 8) = true) as Hall by by vm_compute.
    rewrite forallb_forall in Hall. specialize (Hall n). rewrite in_seq in Hall. specialize (Hall ltac:(lia)).
    rewrite forallb_forall in Hall. specialize (Hall (length m)). rewrite in_seq in Hall. specialize (Hall ltac:(lia)).
    rewrite Hbeg, Hend, <- Han, <- Hmn in Hall. rewrite Hdep, Nat.eqb_refl in Hall.
    rewrite !bool_decide_true in Hall by done. change ((rq_bound (do d "y")).2) with "y" in Ha. by rewrite Ha in Hall.
Qed.

(** A decorated plain function cannot be called at all, and one of the entries of a class
    named PersistentObject is missing. *)
Example C65_never m n x g : called (KFun (FObj m n x (Some g))) = None.
Proof. done. Qed.
Example C65_missing : registry [DClass (Cls "build" "PersistentObject" "init" [over_b] [])] = ∅.
Proof. apply (bool_decide_unpack _). by vm_compute. Qed.

Print Assumptions C65_hit_same_code.
Print Assumptions C65_names.
Print Assumptions C65_constructors_forgotten.
Print Assumptions C65_constructor_refuted.
Print Assumptions C65_same_name_refuted.
Print Assumptions C65_decorated_refuted.
Print Assumptions C65_overridden_refuted.
