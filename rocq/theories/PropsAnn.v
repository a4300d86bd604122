(** The files of a cached call, and what a hit means for the call as it was written. *)
From stdpp Require Import base list strings gmap.
From Coq Require Import ZArith Lia.
From Verif Require Import PyMonad DbModel DbSpec CacheBackend DbTheorems ArgsModel ArgsSpec ArgsFacts IdModel IdSpec
  IdFacts AnnModel AnnSpec AnnFacts PropsArgs PropsDb DbRefute.
Local Open Scope list_scope.

Section Props.
  Context {V : Type} {HV : EqDecision V}.
  Context (is_none : V -> bool) (elems : V -> option (list V)) (hashable : V -> bool)
    (str : name -> V) (path : bvalue V -> name).
  Context (probe_of : V -> probe V) (is_inner : V -> bool).
  Context (sig_of : content -> sig V) (ann_of : content -> list (name * annotation)).
  Context (md5 : content -> digest).
  Notation B := (gmap name (bvalue V)).
  Notation request_of := (request_of is_none elems hashable str path probe_of is_inner sig_of ann_of).
  Notation declared_source := (declared_source is_none elems str path sig_of ann_of).
  Notation declared_target := (declared_target is_none elems str path sig_of ann_of).
  Notation well_annotated := (well_annotated is_none elems hashable str).
  Notation locals := (locals sig_of).
  Notation plainly := (plainly sig_of ann_of).
  Notation result_target := (result_target is_none elems str path ann_of).
  Notation requests := (requests is_none elems hashable str path probe_of is_inner sig_of ann_of md5).
  Notation all_requests := (all_requests is_none elems hashable str path probe_of is_inner sig_of ann_of md5).
  Definition same_args (b b' : B) : bool := bool_decide (b = b').
  Notation BK := (cache_backend (V := callable * B) (R := V) (aeq2 same_args) md5).
  Notation sys := (sys (callable * B) V (pdb (callable * B) V) name (name * nat) name).

  (** What a request says about its call. *)
  Lemma request_inv c rq : plainly c -> request_of c = Some rq ->
    exists b, locals c b /\ py_accepts (sig_of (code (pc_callee c))) (pc_args c) (pc_kw c) /\
      rq_bound rq = (pc_callee c, b) /\ rq_fun rq = call_name (pc_callee c) /\
      (forall f, f ∈ rq_srcs rq <-> declares is_none elems str path Source (ann_of (code (pc_callee c))) b f) /\
      (forall f, f ∈ rq_dsts rq <-> declares is_none elems str path Target (ann_of (code (pc_callee c))) b f) /\
      (forall r f, f ∈ rq_ret rq r <-> result_target c r f).
  Proof.
    intros ([_ Hnd] & Hsg & Hpc) H. unfold AnnModel.request_of in H.
    destruct (bind_args _ _ _ _ _) as [b|] eqn:Hb; [|done].
    destruct (filenames _ _ _ _ _ _ _ _ _) as [[[srcs dsts] ret]|] eqn:Hf; [|done]. injection H as <-.
    apply C37_agrees_partial in Hb as [Ha Hb]; [|done|done].
    destruct (filenames_ret _ _ _ _ _ _ _ _ _ _ _ _ Hnd Hf) as [R1 R2].
    apply (filenames_exact _ _ _ _ path) in Hf as [H1 H2].
    exists b. split; [done|]. split; [done|]. split; [done|]. split; [done|]. simpl.
    split; [|split].
    - intros f. rewrite H1. split; try tauto; (intros [H|]; [by apply elem_of_nil in H|done]).
    - intros f. rewrite H2. split; try tauto; (intros [H|]; [by apply elem_of_nil in H|done]).
    - intros r f. rewrite (result_files_spec is_none elems str path). split.
      + intros (a & -> & Hk & Hn). exists a. split; [|done].
        destruct (decide (Exists (fun x => x.1 = "return"%string) (ann_of (code (pc_callee c))))) as [He|He].
        * apply Exists_exists in He as ([k a'] & Hin & Hk'). simpl in Hk'. subst k. by pose proof (R1 a' Hin) as [= <-].
        * exfalso. assert (Some a = None); [|done]. apply R2. intros a' Hin. apply He. apply Exists_exists. by exists ("return"%string, a').
      + intros (a & Hin & Hk & Hn). exists a. split; [by apply R1|done].
  Qed.

  Lemma locals_unique c b b' : plainly c -> py_accepts (sig_of (code (pc_callee c))) (pc_args c) (pc_kw c) ->
    locals c b -> locals c b' -> b = b'.
  Proof.
    intros (_ & Hsg & Hpc) Ha Hb Hb'.
    pose proof (proj2 (C37_agrees_partial probe_of is_inner _ _ _ b Hsg Hpc) (conj Ha Hb)) as H1.
    pose proof (proj2 (C37_agrees_partial probe_of is_inner _ _ _ b' Hsg Hpc) (conj Ha Hb')) as H2. congruence.
  Qed.

  (** C66: the sources and destinations handed to the database are exactly the files named by
      the annotated parameters, and the call is refused exactly if Python refuses it or an
      annotated value cannot be used. *)
  Theorem C66_files c rq : plainly c -> request_of c = Some rq ->
    (forall f, f ∈ rq_srcs rq <-> declared_source c f) /\ (forall f, f ∈ rq_dsts rq <-> declared_target c f).
  Proof.
    intros Hp H. destruct (request_inv c rq Hp H) as (b & Hb & Ha & _ & _ & H1 & H2 & _).
    split; intros f; [rewrite H1|rewrite H2]; split.
    - intros Hd. by exists b.
    - intros (b' & Hb' & Hd). by rewrite (locals_unique c b b').
    - intros Hd. by exists b.
    - intros (b' & Hb' & Hd). by rewrite (locals_unique c b b').
  Qed.

  (** The files a result names, which are looked for before it is returned again. *)
  Theorem C66_result c rq r f : plainly c -> request_of c = Some rq -> f ∈ rq_ret rq r <-> result_target c r f.
  Proof. intros Hp H. destruct (request_inv c rq Hp H) as (b & _ & _ & _ & _ & _ & _ & H3). apply H3. Qed.

  Theorem C66_accepted c : plainly c ->
    is_Some (request_of c) <->
    py_accepts (sig_of (code (pc_callee c))) (pc_args c) (pc_kw c) /\
    exists b, locals c b /\ well_annotated (ann_of (code (pc_callee c))) b.
  Proof.
    intros Hp. split.
    - intros [rq H]. destruct (request_inv c rq Hp H) as (b & Hb & Ha & _). split; [done|]. exists b. split; [done|].
      unfold AnnModel.request_of in H. destruct Hp as (_ & Hsg & Hpc).
      rewrite (proj2 (C37_agrees_partial probe_of is_inner _ _ _ b Hsg Hpc) (conj Ha Hb)) in H.
      eapply (filenames_ok is_none elems hashable str). destruct (filenames _ _ _ _ _ _ _ _ _) eqn:E; [by rewrite E; eexists|done].
    - intros (Ha & b & Hb & Hw). destruct Hp as (_ & Hsg & Hpc). unfold AnnModel.request_of.
      rewrite (proj2 (C37_agrees_partial probe_of is_inner _ _ _ b Hsg Hpc) (conj Ha Hb)).
      apply (filenames_ok is_none elems hashable str _ _ [] [] None) in Hw as [[[srcs dsts] ret] ->]. by eexists.
  Qed.

  (** Calls that bind the parameters alike are the same request, however they are written. *)
  Theorem C66_spelling c c' b : plainly c -> plainly c' -> pc_callee c = pc_callee c' ->
    py_accepts (sig_of (code (pc_callee c))) (pc_args c) (pc_kw c) ->
    py_accepts (sig_of (code (pc_callee c'))) (pc_args c') (pc_kw c') ->
    locals c b -> locals c' b -> request_of c = request_of c'.
  Proof.
    intros (_ & Hsg & Hpc) (_ & Hsg' & Hpc') He Ha Ha' Hb Hb'. unfold AnnModel.request_of.
    rewrite (proj2 (C37_agrees_partial probe_of is_inner _ _ _ b Hsg Hpc) (conj Ha Hb)).
    rewrite (proj2 (C37_agrees_partial probe_of is_inner _ _ _ b Hsg' Hpc') (conj Ha' Hb')). by rewrite He.
  Qed.

  Lemma all_requests_at (s : sys) a t rq b :
    all_requests BK s (a ++ OBegin t rq :: b) -> exists c, requests (s_env (runs md5 BK s a)) c rq.
  Proof.
    revert s. induction a as [|o a IH]; intros s H; [by destruct H|]. destruct H as [_ H]. by apply IH in H.
  Qed.

  Lemma requests_digest (e : env) c rq : requests e c rq ->
    e_fun e !! rq_fun rq = Some (md5 (code (pc_callee c))).
  Proof.
    intros (Hp & Hr & P & -> & Ho). destruct (request_inv c rq Hp Hr) as (b & _ & _ & _ & -> & _).
    unfold table. rewrite lookup_fmap. exact (f_equal (fmap md5) (own_name_source _ _ Ho)).
  Qed.

  (** C67: everything a hit means, for the call as it was written in the program. *)
  Theorem C67_hit_means F (s0 : sys) os t c rq r srcs dsts :
    (forall x y, md5 x = md5 y -> ann_of x = ann_of y) ->
    fresh pdb_empty s0 -> fs_faithful F (s_env s0) -> history_ok md5 BK F s0 os ->
    all_requests BK s0 os ->
    let s := runs md5 BK s0 os in
    requests (s_env s) c rq ->
    snd (step md5 BK s (OBegin t rq)) = RHit r srcs dsts ->
    exists ru c', ran md5 BK s0 os ru /\ ru_result ru = r /\ requests (ru_begin ru) c' (ru_req ru) /\
      call_name (pc_callee c') = call_name (pc_callee c) /\ md5 (code (pc_callee c')) = md5 (code (pc_callee c)) /\
      (exists b, locals c b /\ locals c' b) /\
      (forall f, declared_source c f -> f ∈ srcs /\ is_Some (digest_at md5 (s_env s) f) /\
         digest_at md5 (s_env s) f = digest_at md5 (ru_begin ru) f) /\
      (forall f, f ∈ ru_xsrcs ru -> f ∈ srcs /\
         (ru_recorded ru = true -> is_Some (e_fs (s_env s) !! f) ->
          digest_at md5 (s_env s) f = digest_at md5 (ru_end ru) f)) /\
      (forall f, declared_target c f \/ f ∈ ru_xdsts ru \/ result_target c r f -> f ∈ dsts) /\
      (forall f, f ∈ dsts -> is_Some (e_fs (s_env s) !! f)).
  Proof.
    intros Hann Hf HF Hok Hall s Hrq Hh.
    destruct (hit_facts (aeq2 same_args) md5 F s0 os t rq r srcs dsts Hf HF Hok Hh)
      as (ru & Hran & Hfn & Hv & Hres & Hd & Hsrcs & Hdsts & Hs & Hx & Ho).
    assert (exists c', requests (ru_begin ru) c' (ru_req ru)) as [c' Hrq'].
    { destruct Hran as (t' & a & b & cc & Hos & _ & _ & Hb & _). rewrite Hb. subst os. by eapply all_requests_at. }
    pose proof (requests_digest _ _ _ Hrq) as Hd1. pose proof (requests_digest _ _ _ Hrq') as Hd2.
    assert (md5 (code (pc_callee c')) = md5 (code (pc_callee c))) as Hcode.
    { destruct Hran as (t' & a & b & cc & _ & _ & _ & _ & _ & He & _). rewrite Hfn in He, Hd2.
      fold s in Hd. rewrite Hd1 in Hd. congruence. }
    destruct Hrq as (Hp & Hr & _). destruct Hrq' as (Hp' & Hr' & HP').
    destruct (request_inv c rq Hp Hr) as (b & Hb & Ha & Hbd & Hn & H1 & H2 & H3).
    destruct (request_inv c' _ Hp' Hr') as (b' & Hb' & Ha' & Hbd' & Hn' & H1' & _).
    assert (b' = b) as ->.
    { rewrite Hbd, Hbd' in Hv. apply bool_decide_eq_true in Hv. simpl in Hv. done. }
    exists ru, c'. split; [done|]. split; [done|]. split; [done|]. split; [congruence|]. split; [done|].
    split; [by exists b|]. split_and!.
    - intros f (b2 & Hb2 & Hdec). rewrite (locals_unique c b2 b) in Hdec by done.
      assert (f ∈ rq_srcs rq) as Hin by by apply H1.
      split; [rewrite Hsrcs, elem_of_app; by left|]. apply Hs; [done|]. apply H1'. by rewrite (Hann _ _ Hcode).
    - intros f Hin. split; [rewrite Hsrcs, elem_of_app; by right|]. intros Hrec He. by apply Hx.
    - intros f Hin. rewrite Hdsts, !elem_of_app. destruct Hin as [(b2 & Hb2 & Hdec)|[?|?%H3]]; [|tauto..].
      left. apply H2. by rewrite (locals_unique c b b2).
    - done.
  Qed.
End Props.

Print Assumptions C66_files.
Print Assumptions C66_result.
Print Assumptions C66_accepted.
Print Assumptions C66_spelling.
Print Assumptions C67_hit_means.

(** *** Concrete calls *)
Local Open Scope string_scope.
(** Strings, lists of strings, None and the context. *)
Inductive pv := Str (s : string) | Lst (l : list string) | Non | Ctx.
Global Instance pv_eq_dec : EqDecision pv.
Proof. solve_decision. Defined.
Definition pv_none (v : pv) : bool := match v with Non => true | _ => false end.
Fixpoint chars (s : string) : list pv :=
  match s with EmptyString => [] | String a s' => Str (String a EmptyString) :: chars s' end.
Definition pv_elems (v : pv) : option (list pv) :=
  match v with Str s => Some (chars s) | Lst l => Some (Str <$> l) | _ => None end.
Definition pv_hash (v : pv) : bool := match v with Lst _ => false | _ => true end.
Definition pv_path (v : bvalue pv) : name := match v with BVal (Str s) => s | _ => "<object>" end.
Definition pv_probe (v : pv) : probe pv := match v with Str _ | Lst _ => PAbsent | _ => PTypeError end.
Definition pv_inner (v : pv) : bool := bool_decide (v = Str "__FBUILD_INNER").

(** [def compile(ctx, src:SRC, *, hdrs:SRCS=[], log:OPTIONAL_DST=None) -> DST] *)
Definition cc_text := "def compile(ctx, src:SRC, *, hdrs:SRCS=[], log:OPTIONAL_DST=None) -> DST: ...".
Definition cc_sig (x : content) : sig pv :=
  Sig ["ctx"; "src"] 0 [] None ["hdrs"; "log"] {["hdrs" := Lst []; "log" := Non]} None.
Definition cc_ann (x : content) : list (name * annotation) :=
  [("src", ASrc); ("hdrs", ASrcs); ("log", AOptDst); ("return", ADst)].
Definition cc_fun := KFun (FObj "build" "compile" cc_text None).
Definition cc_prog := [DFun (FObj "build" "compile" cc_text None)].
Definition cc_request := request_of pv_none pv_elems pv_hash Str pv_path pv_probe pv_inner cc_sig cc_ann.
(** compile(ctx, "a.c", hdrs=["a.h"]), and the same call written differently. *)
Definition cc_call : pcall pv := PCall cc_fun [Ctx; Str "a.c"] {["hdrs" := Lst ["a.h"]]}.
Definition cc_call' : pcall pv := PCall cc_fun [Ctx] {["src" := Str "a.c"; "hdrs" := Lst ["a.h"]; "log" := Non]}.
Definition cc_req : request (callable * gmap name (bvalue pv)) pv :=
  Request "build.compile"
    (cc_fun, {["ctx" := BVal Ctx; "src" := BVal (Str "a.c"); "hdrs" := BVal (Lst ["a.h"]); "log" := BVal Non]})
    ["a.c"; "a.h"] [] (result_files pv_none pv_elems Str pv_path (Some ADst)).

Lemma cc_req_ok : cc_request cc_call = Some cc_req.
Proof.
  unfold cc_request, request_of. cbn [pc_callee pc_args pc_kw cc_call].
  assert (bind_args pv_probe pv_inner (cc_sig (code cc_fun)) [Ctx; Str "a.c"] {["hdrs" := Lst ["a.h"]]} =
    Some {["ctx" := BVal Ctx; "src" := BVal (Str "a.c"); "hdrs" := BVal (Lst ["a.h"]); "log" := BVal Non]}) as ->.
  { apply (bool_decide_unpack _). by vm_compute. }
  reflexivity.
Qed.
Lemma cc_req_ok' : cc_request cc_call' = Some cc_req.
Proof.
  unfold cc_request, request_of. cbn [pc_callee pc_args pc_kw cc_call'].
  assert (bind_args pv_probe pv_inner (cc_sig (code cc_fun)) [Ctx] {["src" := Str "a.c"; "hdrs" := Lst ["a.h"]; "log" := Non]} =
    Some {["ctx" := BVal Ctx; "src" := BVal (Str "a.c"); "hdrs" := BVal (Lst ["a.h"]); "log" := BVal Non]}) as ->.
  { apply (bool_decide_unpack _). by vm_compute. }
  reflexivity.
Qed.

Lemma cc_sig_ok x : sig_ok (cc_sig x).
Proof.
  split; simpl; [|lia..]. apply (bool_decide_unpack _). by vm_compute.
Qed.
Lemma cc_plainly args kw : length args <= 2 -> kw !! inner = None -> plainly cc_sig cc_ann (PCall cc_fun args kw).
Proof.
  intros Hl Hi. split; [split; [done|apply (bool_decide_unpack _); by vm_compute]|]. split; [apply cc_sig_ok|]. split; simpl; [done|by left|done|].
  intros p Hp. split_and!; [| |done]; rewrite !elem_of_cons, elem_of_nil; destruct Hp as [->| ->]; intuition discriminate.
Qed.
Lemma cc_distinct : distinct cc_prog.
Proof.
  split.
  - intros i j d1 d2 n H1 H2 _ _. destruct i; [|done]. by destruct j.
  - by intros c f g Hc%elem_of_list_singleton.
  - intros [f|c f|c] Hk; [..|done]; cbn [defines] in Hk.
    + apply elem_of_list_singleton in Hk. by injection Hk as ->.
    + by destruct Hk as [Hc%elem_of_list_singleton Hf].
  - by intros c Hc%elem_of_list_singleton.
Qed.
Notation csys := (sys (callable * gmap name (bvalue pv)) pv (pdb (callable * gmap name (bvalue pv)) pv) name (name * nat) name).
Definition cbk := cache_backend (V := callable * gmap name (bvalue pv)) (R := pv) (aeq2 same_args) ident.
Definition cc_start : csys := Sys (Env ∅ 0 (table ident cc_prog) 100) pdb_empty [] ∅ [].
Definition cc_requests :=
  requests pv_none pv_elems pv_hash Str pv_path pv_probe pv_inner cc_sig cc_ann ident.
Lemma cc_requests_ok e c : e_fun e = table ident cc_prog -> c = cc_call \/ c = cc_call' -> cc_requests e c cc_req.
Proof.
  intros He Hc. split.
  { destruct Hc as [-> | ->]; apply cc_plainly; simpl; [lia|by vm_compute|lia|by vm_compute]. }
  split. { destruct Hc as [-> | ->]; [exact cc_req_ok|exact cc_req_ok']. }
  exists cc_prog. split; [done|]. split; [exact cc_distinct|]. destruct Hc as [-> | ->]; (split; [done|]; left; by left).
Qed.

(** The call runs and writes a.o; later the build is started again and the call, written
    differently, is answered from the database. *)
Definition cc_F (f : name) (m : Z) : content := f.
Definition cc_hist : list (op (callable * gmap name (bvalue pv)) pv) :=
  [OWrite "a.c" "a.c" 1; OWrite "a.h" "a.h" 2; OTick 3000000; OBegin 0 cc_req; OWrite "a.o" "a.o" 4; OEnd 0 (Str "a.o");
   OSave; ORestart (table ident cc_prog)].

Lemma idle_not_in_use (s : csys) f : s_threads s = ∅ -> ~ in_use s f.
Proof. intros H (t & fr & Hin & _). unfold thread in Hin. rewrite H, lookup_empty in Hin. by apply elem_of_nil in Hin. Qed.

Example C67_example :
  (forall x y, ident x = ident y -> cc_ann x = cc_ann y) /\
  fresh pdb_empty cc_start /\ fs_faithful cc_F (s_env cc_start) /\ history_ok ident cbk cc_F cc_start cc_hist /\
  all_requests pv_none pv_elems pv_hash Str pv_path pv_probe pv_inner cc_sig cc_ann ident cbk cc_start cc_hist /\
  cc_requests (s_env (runs ident cbk cc_start cc_hist)) cc_call' cc_req /\
  snd (step ident cbk (runs ident cbk cc_start cc_hist) (OBegin 0 cc_req)) = RHit (Str "a.o") ["a.c"; "a.h"] ["a.o"].
Proof.
  split; [done|]. split; [done|]. split; [intros f m c; simpl; by rewrite lookup_empty|].
  split.
  { unfold cc_hist. cbn [history_ok op_faithful well_behaved].
    split; [done|]. split; [by apply idle_not_in_use|]. split; [done|]. split; [by apply idle_not_in_use|].
    split; [exact I|]. split; [exact I|]. split; [exact I|]. split; [exact I|]. split; [done|]. split.
    { intros (t & fr & Hin & Hf).
      assert (forallb (fun tf : nat * list _ => forallb (fun fr => negb (bool_decide ("a.o" ∈ rq_srcs (fr_req fr)))) tf.2)
        (map_to_list (s_threads (runs ident cbk cc_start (take 4 cc_hist)))) = true) as H by by vm_compute.
      change (fr ∈ thread (runs ident cbk cc_start (take 4 cc_hist)) t) in Hin. unfold thread in Hin.
      destruct (s_threads _ !! t) as [frs|] eqn:E; [|by apply elem_of_nil in Hin].
      apply elem_of_map_to_list in E. rewrite forallb_elem in H. specialize (H _ E). rewrite forallb_elem in H.
      specialize (H _ Hin). by rewrite bool_decide_true in H. }
    repeat (split; [exact I|]). exact I. }
  split.
  { unfold cc_hist. cbn [all_requests]. split; [exact I|]. split; [exact I|]. split; [exact I|]. split.
    { exists cc_call. apply cc_requests_ok; [|by left]. apply (bool_decide_unpack _). by vm_compute. }
    repeat (split; [exact I|]). exact I. }
  split. { apply cc_requests_ok; [|by right]. apply (bool_decide_unpack _). by vm_compute. }
  by vm_compute.
Qed.

(** A string given for a parameter annotated SRCS declares its letters, not the file it names. *)
Example C66_letters :
  exists rq, cc_request (PCall cc_fun [Ctx; Str "a.c"] {["hdrs" := Str "a.h"]}) = Some rq /\
    rq_srcs rq = ["a.c"; "a"; "."; "h"].
Proof.
  unfold cc_request, request_of. cbn [pc_callee pc_args pc_kw].
  assert (bind_args pv_probe pv_inner (cc_sig (code cc_fun)) [Ctx; Str "a.c"] {["hdrs" := Str "a.h"]} =
    Some {["ctx" := BVal Ctx; "src" := BVal (Str "a.c"); "hdrs" := BVal (Str "a.h"); "log" := BVal Non]}) as ->.
  { apply (bool_decide_unpack _). by vm_compute. }
  eexists. split; [reflexivity|]. reflexivity.
Qed.
