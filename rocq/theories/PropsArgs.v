(** Properties of argument binding (functools.py). *)
From stdpp Require Import base list strings gmap.
From Coq Require Import Lia.
From Verif Require Import PyMonad ArgsModel ArgsSpec ArgsFacts.

(** C37, the claim: bind_args answers exactly for the calls Python accepts, with
    Python's values. *)
Definition binding_agrees {V} (probe_of : V -> probe V) (is_inner : V -> bool) : Prop :=
  forall sg args kw b, sig_ok sg ->
    bind_args probe_of is_inner sg args kw = Some b <-> py_accepts sg args kw /\ py_binds sg args kw b.

(** C38, the claim: equal dictionaries only for calls that Python binds equally. *)
Definition keys_tell_calls_apart {V} (probe_of : V -> probe V) (is_inner : V -> bool) : Prop :=
  forall sg args kw args' kw' k b b', sig_ok sg ->
    py_accepts sg args kw -> py_accepts sg args' kw' ->
    bind_args probe_of is_inner sg args kw = Some k ->
    bind_args probe_of is_inner sg args' kw' = Some k ->
    py_binds sg args kw b -> py_binds sg args' kw' b' -> b = b'.

(** Numbers as argument values: [in] on a number is a TypeError. *)
Definition num_probe (v : nat) : probe nat := PTypeError.
Definition num_inner (v : nat) : bool := false.
Notation nbind := (bind_args num_probe num_inner).

(** def f(a, *, b=1): *)
Definition sig_kwonly : sig nat := Sig ["a"%string] 0 [] None ["b"%string] {["b"%string := 1]} None.
(** def f(kw): *)
Definition sig_kw : sig nat := Sig ["kw"%string] 0 [] None [] ∅ None.
(** def f(a=0, /, **k): *)
Definition sig_posonly : sig nat := Sig ["a"%string] 1 [0] None [] ∅ (Some "k"%string).

Ltac sig_ok_tac := split; [apply (bool_decide_unpack _); vm_compute; exact I|simpl; lia|simpl; lia].

Lemma sig_kwonly_ok : sig_ok sig_kwonly. Proof. sig_ok_tac. Qed.
Lemma sig_kw_ok : sig_ok sig_kw. Proof. sig_ok_tac. Qed.
Lemma sig_posonly_ok : sig_ok sig_posonly. Proof. sig_ok_tac. Qed.

(** f(5, 6) is a TypeError in Python; bind_args drops the 6. *)
Lemma kwonly_dropped : exists b, nbind sig_kwonly [5; 6] ∅ = Some b.
Proof. eexists. vm_compute. reflexivity. Qed.

Theorem C37_agrees_refuted : ~ binding_agrees num_probe num_inner.
Proof.
  intros H. destruct kwonly_dropped as [b Hb].
  destruct (proj1 (H sig_kwonly [5; 6] ∅ b sig_kwonly_ok) Hb) as [[Hc _ _ _ _] _].
  specialize (Hc eq_refl). simpl in Hc. lia.
Qed.

(** f(5) is fine in Python; bind_args raises TypeError as 5 is not a container. *)
Theorem C37_agrees_refuted_kw :
  nbind sig_kw [5] ∅ = None /\ py_accepts sig_kw [5] ∅.
Proof.
  split; [by vm_compute|]. split; simpl; try done.
  - intros [|i] p; simpl; [|done]. intros _. by eexists.
  - intros p Hp. by apply elem_of_nil in Hp.
  - intros _ k [? Hk]. by rewrite lookup_empty in Hk.
Qed.

Theorem C37_agrees_partial {V} (probe_of : V -> probe V) (is_inner : V -> bool) :
  forall sg args kw b, sig_ok sg -> plain_call sg args kw ->
    bind_args probe_of is_inner sg args kw = Some b <-> py_accepts sg args kw /\ py_binds sg args kw b.
Proof. intros sg args kw b Hs Hp. apply (bind_args_python probe_of is_inner); [done|]. by apply plain_ordinary. Qed.
(** More generally, with ordinary parameters called kw and kwargs. *)
Theorem C37_ordinary {V} (probe_of : V -> probe V) (is_inner : V -> bool) :
  forall sg args kw b, sig_ok sg -> ordinary_call probe_of is_inner sg args kw ->
    bind_args probe_of is_inner sg args kw = Some b <-> py_accepts sg args kw /\ py_binds sg args kw b.
Proof. exact (bind_args_python probe_of is_inner). Qed.
(** def f(kw, *kwargs), called with a list of numbers and more. *)
Inductive pv := PNum (n : nat) | PList (l : list nat) | PInner.
Global Instance pv_eq : EqDecision pv. Proof. solve_decision. Defined.
Definition pv_probe (v : pv) : probe pv := match v with PNum _ => PTypeError | _ => PAbsent end.
Definition pv_inner (v : pv) : bool := match v with PInner => true | _ => false end.
Definition sig_names : sig pv := Sig ["kw"%string] 0 [] (Some "kwargs"%string) [] ∅ None.
Example C37_ordinary_ex : sig_ok sig_names /\ ordinary_call pv_probe pv_inner sig_names [PList [1]; PNum 2] ∅ /\
  bind_args pv_probe pv_inner sig_names [PList [1]; PNum 2] ∅ = Some {["kw"%string := BVal (PList [1]); "kwargs"%string := BTuple [PNum 2]]}.
Proof.
  split; [sig_ok_tac|]. split; [|apply (bool_decide_unpack _); vm_compute; exact I]. split; [done|done|done|]. intros p Hp. split_and!.
  - intros [|i] v Hi; [|done]. cbn. by intros [= <-].
  - intros v Hx. by apply elem_of_nil in Hx.
  - intros v _ Hx. cbn in Hx. by apply elem_of_list_singleton in Hx as ->.
Qed.

(** f(a=5) and f(5). *)
Theorem C38_keys_refuted : ~ keys_tell_calls_apart num_probe num_inner.
Proof.
  intros H.
  set (b1 := {["a"%string := BVal 0; "k"%string := BDict {["a"%string := 5]}]} : gmap name (bvalue nat)).
  set (b2 := {["a"%string := BVal 5; "k"%string := BDict ∅]} : gmap name (bvalue nat)).
  assert (b1 = b2) as Heq; [|discriminate Heq].
  eapply (H sig_posonly [] {["a"%string := 5]} [5] ∅ b2).
  - exact sig_posonly_ok.
  - split; simpl; try done; try (intros; lia).
    + intros [|i] p; simpl; [|done]. intros _. by eexists.
    + intros p Hp. by apply elem_of_nil in Hp.
  - split; simpl; try done; try (intros; lia).
    + intros [|i] p; simpl; [|done]. intros _. by eexists.
    + intros p Hp. by apply elem_of_nil in Hp.
  - apply (bool_decide_unpack _). vm_compute. exact I.
  - apply (bool_decide_unpack _). vm_compute. exact I.
  - split; simpl.
    + intros [|i] p; simpl; [|done]. intros [= <-]. done.
    + intros p Hp. by apply elem_of_nil in Hp.
    + done.
    + intros a [= <-]. apply (bool_decide_unpack _). vm_compute. exact I.
    + intros p Hp. unfold params in Hp. simpl in Hp. rewrite !elem_of_cons in Hp.
      unfold b1. rewrite lookup_insert_ne, lookup_singleton_ne; [done| |]; intros <-; tauto.
  - split; simpl.
    + intros [|i] p; simpl; [|done]. intros [= <-]. done.
    + intros p Hp. by apply elem_of_nil in Hp.
    + done.
    + intros a [= <-]. apply (bool_decide_unpack _). vm_compute. exact I.
    + intros p Hp. unfold params in Hp. simpl in Hp. rewrite !elem_of_cons in Hp.
      unfold b2. rewrite lookup_insert_ne, lookup_singleton_ne; [done| |]; intros <-; tauto.
Qed.

(** Without positional-only parameters, without the reserved keyword, and without
    an ordinary parameter called kw or kwargs, it holds. *)
Theorem C38_keys_partial {V} (probe_of : V -> probe V) (is_inner : V -> bool) :
  forall sg args kw args' kw' k b b', sig_ok sg -> sg_posonly sg = 0 ->
    kw !! inner = None -> kw' !! inner = None ->
    (forall p, p = "kw"%string \/ p = "kwargs"%string ->
      p ∉ sg_args sg /\ p ∉ sg_kwonly sg /\ sg_varargs sg <> Some p) ->
    py_accepts sg args kw -> py_accepts sg args' kw' ->
    bind_args probe_of is_inner sg args kw = Some k ->
    bind_args probe_of is_inner sg args' kw' = Some k ->
    py_binds sg args kw b -> py_binds sg args' kw' b' -> b = b'.
Proof.
  intros sg args kw args' kw' k b b' Hs Hp Hi Hi' Hn Ha Ha' Hk Hk' Hb Hb'.
  apply (bind_args_python _ _ sg args kw) in Hk as [_ Hk];
    [|done|apply plain_ordinary; split; [done|intros ?; left; by apply (pa_count _ _ _ Ha)|done|done]].
  apply (bind_args_python _ _ sg args' kw') in Hk' as [_ Hk'];
    [|done|apply plain_ordinary; split; [done|intros ?; left; by apply (pa_count _ _ _ Ha')|done|done]].
  transitivity k; [by eapply py_binds_unique|by eapply py_binds_unique].
Qed.

(** Every parameter kind, and a call that uses all of them: the docstring's
    def foo(a, b, c=1, *args, d, e=2, **kwargs). *)
Definition sig_doc : sig nat :=
  Sig ["a"; "b"; "c"]%string 0 [1] (Some "args"%string) ["d"; "e"]%string {["e"%string := 2]}
      (Some "kwargs"%string).
Definition kw_doc : gmap name nat := {["d"%string := 6; "e"%string := 7; "f"%string := 8]}.

Example ex_doc_ok : sig_ok sig_doc. Proof. sig_ok_tac. Qed.
Example ex_doc_plain : plain_call sig_doc [1; 2; 3; 4; 5] kw_doc.
Proof.
  split; simpl; try done. intros p [->| ->]; split_and!; try done;
    rewrite !elem_of_cons, elem_of_nil; intros H; repeat destruct H as [H|H]; done.
Qed.
Example ex_doc : nbind sig_doc [1; 2; 3; 4; 5] kw_doc =
  Some {["a"%string := BVal 1; "b"%string := BVal 2; "c"%string := BVal 3;
         "args"%string := BTuple [4; 5]; "d"%string := BVal 6; "e"%string := BVal 7;
         "kwargs"%string := BDict {["f"%string := 8]}]}.
Proof. apply (bool_decide_unpack _). vm_compute. exact I. Qed.
Example ex_doc_defaults : nbind sig_doc [1] {["b"%string := 2; "d"%string := 3]} =
  Some {["a"%string := BVal 1; "b"%string := BVal 2; "c"%string := BVal 1;
         "args"%string := BTuple []; "d"%string := BVal 3; "e"%string := BVal 2;
         "kwargs"%string := BDict ∅]}.
Proof. apply (bool_decide_unpack _). vm_compute. exact I. Qed.
Example ex_doc_missing : nbind sig_doc [1] {["d"%string := 3]} = None.
Proof. apply (bool_decide_unpack _). vm_compute. exact I. Qed.
Example ex_doc_twice : nbind sig_doc [1; 2] {["b"%string := 2; "d"%string := 3]} = None.
Proof. apply (bool_decide_unpack _). vm_compute. exact I. Qed.

Print Assumptions C37_agrees_refuted.
Print Assumptions C37_agrees_refuted_kw.
Print Assumptions C37_agrees_partial.
Print Assumptions C37_ordinary.
Print Assumptions C38_keys_refuted.
Print Assumptions C38_keys_partial.
