(** Properties of platform options (builders/platform.py). *)
From Coq Require Import String Ascii.
From stdpp Require Import base list gmap.
From Coq Require Import NArith Lia.
From Verif Require Import FnModel PlatModel PlatSpec PlatFacts.
Local Open Scope nat_scope.

Definition text (s : string) : str := map N_of_ascii (list_ascii_of_string s).

(** C45: an entry applies exactly when the platform matches. *)
Theorem C45_match platform matcher : platform_match platform matcher = true <-> matches platform matcher.
Proof. exact (platform_match_ok platform matcher). Qed.

Example C45_match_ex : matches [text "posix"; text "linux"] [text "posix"; text "!darwin"].
Proof. apply C45_match. vm_compute. reflexivity. Qed.
Example C45_match_ex2 : ~ matches [text "posix"; text "linux"] [text "posix"; text "!linux"].
Proof. intros H%C45_match. vm_compute in H. discriminate. Qed.

(** C45, the claim: whatever the sharing between the values, the keywords end with
    the values the matched options give, in order; and an exception means that the
    options have no such effect. *)
Definition options_do (E : Type) `{EqDecision E} (in_str : E -> list E -> option bool)
  (h : heap E) (kw : kwargs E) (sel : list (str * value E)) (r : option (heap E * kwargs E)) : Prop :=
  match r with
  | Some (h', kw') => exists sopts, reads_all h sel sopts /\ effects in_str (den_kw h kw) sopts (den_kw h' kw')
  | None => forall sopts g, reads_all h sel sopts -> ~ effects in_str (den_kw h kw) sopts g
  end.

(** All locations exist. *)
Definition valid {E : Type} (h : heap E) (kw : kwargs E) (ms : list (value E)) : Prop :=
  (forall k v l, kw !! k = Some v -> ref v = Some l -> l < length h) /\
  (forall m l, m ∈ ms -> ref m = Some l -> l < length h).

Definition options_claim : Prop :=
  forall (E : Type) (dec : EqDecision E) (in_str : E -> list E -> option bool) platform popts sel (h : heap E) kw,
    selects platform popts sel -> valid h kw (sel.*2) ->
    options_do E in_str h kw sel (parse_platform_options in_str platform popts h kw).

(** Elements as strings, [x in s] is the substring test. *)
Fixpoint starts (x s : str) : bool :=
  match x, s with
  | [], _ => true
  | c :: x, d :: s => N.eqb c d && starts x s
  | _ :: _, [] => false
  end.
Fixpoint substr (x s : str) : bool :=
  starts x s || match s with [] => false | _ :: s => substr x s end.
Definition py_in (x : str) (s : list str) : option bool := Some (substr x (concat s)).

(** Two keywords given the same list: adding to one adds to the other. *)
Definition kw_shared : kwargs str := {[ text "libs" := VList 0; text "exports" := VList 0 ]}.
Definition popts_add : list (list str * list (str * value str)) :=
  [([text "posix"], [(text "libs+", VTuple [text "m"])])].

Theorem C45_options_refuted : ~ options_claim.
Proof.
  intros H.
  specialize (H str _ py_in [text "posix"] popts_add [(text "libs+", VTuple [text "m"])] [[]] kw_shared).
  assert (selects [text "posix"] popts_add ([(text "libs+", VTuple [text "m"])] ++ [])) as Hs.
  { apply sel_take; [apply C45_match; vm_compute; reflexivity|constructor]. }
  specialize (H Hs).
  assert (valid [[]] kw_shared ([(text "libs+", VTuple [text "m"])].*2)) as Hv.
  { split.
    - intros k v l Hk Hr. unfold kw_shared in Hk.
      apply lookup_insert_Some in Hk as [[_ <-]|[_ Hk]].
      + injection Hr as <-. cbn. lia.
      + apply lookup_singleton_Some in Hk as [_ <-]. injection Hr as <-. cbn. lia.
    - intros m l Hm Hr. apply elem_of_list_singleton in Hm as ->. discriminate. }
  specialize (H Hv). unfold options_do in H.
  destruct (parse_platform_options _ _ _ _ _) as [[h' kw']|] eqn:Ep; [|vm_compute in Ep; discriminate].
  destruct H as (sopts & Hra & Hef).
  inversion Hra as [|? [k a] ? sopts' Hr Hra']; subst. inversion Hra'; subst. cbn in Hr.
  assert (k = text "libs" /\ a = AAdd (PSeq KTuple [text "m"])) as [-> ->].
  { eapply (reads_fun (E := str)); [exact Hr|]. apply (reads_add (text "libs")). }
  inversion Hef as [|? ? ? v ? ? He Hs']; subst. inversion Hs' as [? ? Hg|]; subst.
  specialize (Hg (text "exports")).
  assert (h' = [[text "m"]] /\ kw' !! text "exports" = Some (VList 0)) as [-> Hx].
  { vm_compute in Ep. injection Ep as <- <-. split; reflexivity. }
  unfold den_kw in Hg at 1. rewrite Hx in Hg. vm_compute in Hg. discriminate.
Qed.

(** Without sharing, the claim holds. *)
Theorem C45_options_partial (E : Type) (dec : EqDecision E) in_str platform popts sel (h : heap E) kw :
  selects platform popts sel -> separate h kw (sel.*2) ->
  options_do E in_str h kw sel (parse_platform_options in_str platform popts h kw).
Proof. exact (parse_ok in_str platform popts sel h kw). Qed.

(** The specification determines the result. *)
Theorem C45_spec_determines (E : Type) (dec : EqDecision E) in_str (f : str -> option (pval E)) opts g g' :
  effects in_str f opts g -> effects in_str f opts g' -> forall k, g k = g' k.
Proof. exact (effects_fun in_str f opts g g'). Qed.

(** An instance: add to a list, remove from another, set a third; one entry not matched. *)
Definition ex_heap : heap str := [[text "a"]; [text "x"; text "y"]; [text "b"]].
Definition ex_kw : kwargs str := {[ text "libs" := VList 0; text "flags" := VList 1 ]}.
Definition ex_opts : list (str * value str) :=
  [(text "libs+", VList 2); (text "flags-", VTuple [text "x"]); (text "debug", VStr [text "1"])].
Definition ex_popts : list (list str * list (str * value str)) :=
  [([text "windows"], [(text "libs", VNone)]); ([text "posix"; text "!darwin"], ex_opts)].

Lemma ex_selects : selects [text "posix"; text "linux"] ex_popts (ex_opts ++ []).
Proof.
  apply sel_skip; [intros H%C45_match; vm_compute in H; discriminate|].
  apply sel_take; [apply C45_match; vm_compute; reflexivity|constructor].
Qed.

Lemma ex_kw_inv k v : ex_kw !! k = Some v -> k = text "libs" /\ v = VList 0 \/ k = text "flags" /\ v = VList 1.
Proof.
  unfold ex_kw. intros Hk. apply lookup_insert_Some in Hk as [[<- <-]|[_ Hk]]; [by left|].
  apply lookup_singleton_Some in Hk as [<- <-]. by right.
Qed.

Lemma ex_separate : separate ex_heap ex_kw ((ex_opts ++ []).*2).
Proof.
  split.
  - intros k v l Hk Hr. destruct (ex_kw_inv _ _ Hk) as [[_ ->]|[_ ->]]; injection Hr as <-; cbn; lia.
  - intros m l Hm Hr. cbn in Hm. repeat (apply elem_of_cons in Hm as [->|Hm]; [try discriminate; injection Hr as <-; cbn; lia|]).
    by apply elem_of_nil in Hm.
  - intros k k' v v' l Hk Hk' Hr Hr'.
    destruct (ex_kw_inv _ _ Hk) as [[-> ->]|[-> ->]], (ex_kw_inv _ _ Hk') as [[-> ->]|[-> ->]]; try done; cbn in *; congruence.
  - apply (bool_decide_unpack _). vm_compute. exact I.
  - intros k v l Hk Hr. cbn. rewrite elem_of_list_singleton.
    destruct (ex_kw_inv _ _ Hk) as [[_ ->]|[_ ->]]; injection Hr as <-; discriminate.
Qed.

Example C45_options_ex :
  exists h' kw', parse_platform_options py_in [text "posix"; text "linux"] ex_popts ex_heap ex_kw = Some (h', kw') /\
    den_kw h' kw' (text "libs") = Some (PSeq KList [text "a"; text "b"]) /\
    den_kw h' kw' (text "flags") = Some (PSeq KList [text "y"]) /\
    den_kw h' kw' (text "debug") = Some (PSeq KStr [text "1"]).
Proof.
  pose proof (C45_options_partial str _ py_in _ _ _ _ _ ex_selects ex_separate) as H. clear H.
  destruct (parse_platform_options py_in [text "posix"; text "linux"] ex_popts ex_heap ex_kw) as [[h' kw']|] eqn:Ep;
    [|vm_compute in Ep; discriminate].
  exists h', kw'. split; [done|]. vm_compute in Ep. injection Ep as <- <-. split_and!; vm_compute; reflexivity.
Qed.

(** C46, the claim: existing lists keep their contents, and a second use of the same
    arguments gives the same result. *)
Definition caller_unchanged : Prop :=
  forall (E : Type) (dec : EqDecision E) (in_str : E -> list E -> option bool) platform popts sel (h : heap E) kw h1 kw1,
    selects platform popts sel -> separate h kw (sel.*2) ->
    parse_platform_options in_str platform popts h kw = Some (h1, kw1) ->
    forall l, l < length h -> h1 !! l = h !! l.
Definition second_same : Prop :=
  forall (E : Type) (dec : EqDecision E) (in_str : E -> list E -> option bool) platform popts sel (h : heap E) kw h1 kw1 h2 kw2,
    selects platform popts sel -> separate h kw (sel.*2) ->
    parse_platform_options in_str platform popts h kw = Some (h1, kw1) ->
    parse_platform_options in_str platform popts h1 kw = Some (h2, kw2) ->
    forall k, den_kw h2 kw2 k = den_kw h1 kw1 k.

(** A list given by the caller grows in place ... *)
Theorem C46_unchanged_refuted : ~ caller_unchanged.
Proof.
  intros H.
  destruct (parse_platform_options py_in [text "posix"; text "linux"] ex_popts ex_heap ex_kw) as [[h1 kw1]|] eqn:Ep;
    [|vm_compute in Ep; discriminate].
  pose proof (H str _ py_in _ _ _ _ _ _ _ ex_selects ex_separate Ep 0 ltac:(cbn; lia)) as H0.
  vm_compute in Ep. injection Ep as <- _. vm_compute in H0. discriminate.
Qed.

(** ... and once more with every use. *)
Theorem C46_second_refuted : ~ second_same.
Proof.
  intros H.
  destruct (parse_platform_options py_in [text "posix"; text "linux"] ex_popts ex_heap ex_kw) as [[h1 kw1]|] eqn:Ep;
    [|vm_compute in Ep; discriminate].
  destruct (parse_platform_options py_in [text "posix"; text "linux"] ex_popts h1 ex_kw) as [[h2 kw2]|] eqn:Eq.
  - pose proof (H str _ py_in _ _ _ _ _ _ _ _ _ ex_selects ex_separate Ep Eq (text "libs")) as H0.
    vm_compute in Ep. injection Ep as <- <-. vm_compute in Eq. injection Eq as <- <-. vm_compute in H0. discriminate.
  - vm_compute in Ep. injection Ep as <- <-. vm_compute in Eq. discriminate.
Qed.

(** What can change: the list of a keyword with a matched [+] option, or a list set
    for it by another matched option.  Everything else keeps its contents. *)
Theorem C46_unchanged_partial (E : Type) (dec : EqDecision E) in_str platform popts sel (h : heap E) kw h1 kw1 :
  selects platform popts sel ->
  parse_platform_options in_str platform popts h kw = Some (h1, kw1) ->
  forall l, l < length h -> ~ touched kw sel l -> h1 !! l = h !! l.
Proof. exact (parse_frame in_str platform popts sel h kw h1 kw1). Qed.

Theorem C46_second_partial (E : Type) (dec : EqDecision E) in_str platform popts sel (h : heap E) kw h1 kw1 :
  selects platform popts sel -> separate h kw (sel.*2) ->
  (forall l, ~ touched kw sel l) ->
  parse_platform_options in_str platform popts h kw = Some (h1, kw1) ->
  exists h2 kw2, parse_platform_options in_str platform popts h1 kw = Some (h2, kw2) /\
    forall k, den_kw h2 kw2 k = den_kw h1 kw1 k.
Proof. exact (parse_twice in_str platform popts sel h kw h1 kw1). Qed.

(** An instance: the keyword starts missing, and the list is made afresh. *)
Definition ex2_sel : list (str * value str) := [(text "libs+", VList 2); (text "flags-", VTuple [text "x"])].
Definition ex2_kw : kwargs str := {[ text "flags" := VList 1 ]}.
Example C46_second_ex :
  selects [text "posix"] [([text "posix"], ex2_sel)] (ex2_sel ++ []) /\
  separate ex_heap ex2_kw ((ex2_sel ++ []).*2) /\
  (forall l, ~ touched ex2_kw (ex2_sel ++ []) l).
Proof.
  unfold ex2_kw. split_and!.
  - apply sel_take; [apply C45_match; vm_compute; reflexivity|constructor].
  - split.
    + intros k v l [<- <-]%lookup_singleton_Some [= <-]. cbn. lia.
    + intros m l Hm Hr. cbn in Hm. repeat (apply elem_of_cons in Hm as [->|Hm]; [try discriminate; injection Hr as <-; cbn; lia|]).
      by apply elem_of_nil in Hm.
    + by intros k k' v v' l [<- <-]%lookup_singleton_Some [<- <-]%lookup_singleton_Some.
    + apply (bool_decide_unpack _). vm_compute. exact I.
    + intros k v l [<- <-]%lookup_singleton_Some [= <-]. cbn. rewrite elem_of_list_singleton. discriminate.
  - intros l (k & m & Hin & Hk). cbn in Hin.
    apply elem_of_cons in Hin as [Hin|Hin].
    + injection Hin as Hin _. apply (app_inj_tail k (text "libs")) in Hin as [-> _].
      destruct Hk as [[Hk _]%lookup_singleton_Some|Hk]; [discriminate|].
      cbn in Hk. repeat (apply elem_of_cons in Hk as [Hk|Hk]; [discriminate|]). by apply elem_of_nil in Hk.
    + apply elem_of_list_singleton in Hin. injection Hin as Hin _.
      apply (app_inj_tail k (text "flags")) in Hin as [_ Hc]. discriminate.
Qed.

Print Assumptions C45_match.
Print Assumptions C45_options_refuted.
Print Assumptions C45_options_partial.
Print Assumptions C45_spec_determines.
Print Assumptions C46_unchanged_refuted.
Print Assumptions C46_second_refuted.
Print Assumptions C46_unchanged_partial.
Print Assumptions C46_second_partial.
