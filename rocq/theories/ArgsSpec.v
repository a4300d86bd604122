(** How Python binds the arguments of a call (the language reference, section
    "Calls"), stated independently of the model of functools.py. *)
From stdpp Require Import base list strings gmap.
From Verif Require Import PyMonad ArgsModel.

Section Spec.
  Context {V : Type}.
  Notation sig := (sig V).

  Definition opt_list (o : option name) : list name := match o with Some a => [a] | None => [] end.
  Definition params (sg : sig) : list name :=
    sg_args sg ++ sg_kwonly sg ++ opt_list (sg_varargs sg) ++ opt_list (sg_varkw sg).

  (** What the Python compiler guarantees. *)
  Record sig_ok (sg : sig) : Prop := SigOk {
    so_nodup : NoDup (params sg);
    so_defaults : length (sg_defaults sg) <= length (sg_args sg);
    so_posonly : sg_posonly sg <= length (sg_args sg)
  }.

  (** Default of the [i]-th positional parameter. *)
  Definition default_of (sg : sig) (i : nat) : option V :=
    let first := length (sg_args sg) - length (sg_defaults sg) in
    if decide (first <= i) then sg_defaults sg !! (i - first) else None.

  (** Value of the [i]-th positional parameter, called [p]. *)
  Definition pos_value (sg : sig) (args : list V) (kw : gmap name V) (i : nat) (p : name) : option V :=
    match args !! i with
    | Some v => Some v
    | None => match (if decide (i < sg_posonly sg) then None else kw !! p) with
              | Some v => Some v
              | None => default_of sg i
              end
    end.

  Definition kwonly_value (sg : sig) (kw : gmap name V) (p : name) : option V :=
    match kw !! p with Some v => Some v | None => sg_kwdefaults sg !! p end.

  (** Parameters that can be given by keyword. *)
  Definition keywords (sg : sig) : list name := drop (sg_posonly sg) (sg_args sg) ++ sg_kwonly sg.

  Record py_accepts (sg : sig) (args : list V) (kw : gmap name V) : Prop := PyAccepts {
    pa_count : sg_varargs sg = None -> length args <= length (sg_args sg);
    pa_all : forall i p, sg_args sg !! i = Some p -> is_Some (pos_value sg args kw i p);
    pa_once : forall i p, sg_args sg !! i = Some p -> sg_posonly sg <= i -> i < length args -> kw !! p = None;
    pa_kwonly : forall p, p ∈ sg_kwonly sg -> is_Some (kwonly_value sg kw p);
    pa_known : sg_varkw sg = None -> forall k, is_Some (kw !! k) -> k ∈ keywords sg
  }.

  (** The local variables of the callee. *)
  Record py_binds (sg : sig) (args : list V) (kw : gmap name V) (b : gmap name (bvalue V)) : Prop := PyBinds {
    pb_args : forall i p, sg_args sg !! i = Some p -> b !! p = BVal <$> pos_value sg args kw i p;
    pb_kwonly : forall p, p ∈ sg_kwonly sg -> b !! p = BVal <$> kwonly_value sg kw p;
    pb_varargs : forall a, sg_varargs sg = Some a ->
      b !! a = Some (BTuple (drop (length (sg_args sg)) args));
    pb_varkw : forall a, sg_varkw sg = Some a ->
      b !! a = Some (BDict (filter (fun kv => kv.1 ∉ keywords sg) kw));
    pb_dom : forall p, p ∉ params sg -> b !! p = None
  }.

  (** Restrictions under which bind_args agrees with Python. *)
  Record plain_call (sg : sig) (args : list V) (kw : gmap name V) : Prop := PlainCall {
    pc_posonly : sg_posonly sg = 0;
    pc_kwonly : sg_varargs sg = None -> length args <= length (sg_args sg) \/
                length (sg_args sg) + length (sg_kwonly sg) < length args;
    pc_inner : kw !! inner = None;
    pc_names : forall p, p = "kw"%string \/ p = "kwargs"%string ->
      p ∉ sg_args sg /\ p ∉ sg_kwonly sg /\ sg_varargs sg <> Some p
  }.
  (** More generally, a parameter called kw or kwargs may be an ordinary one if its value can be asked
      whether it contains the reserved keyword, and does not. *)
  Context (probe_of : V -> probe V) (is_inner : V -> bool).
  Record ordinary_call (sg : sig) (args : list V) (kw : gmap name V) : Prop := OrdinaryCall {
    oc_posonly : sg_posonly sg = 0;
    oc_kwonly : sg_varargs sg = None -> length args <= length (sg_args sg) \/
                length (sg_args sg) + length (sg_kwonly sg) < length args;
    oc_inner : kw !! inner = None;
    oc_names : forall p, p = "kw"%string \/ p = "kwargs"%string ->
      (forall i v, sg_args sg !! i = Some p -> pos_value sg args kw i p = Some v -> probe_of v = PAbsent) /\
      (forall v, p ∈ sg_kwonly sg -> kwonly_value sg kw p = Some v -> probe_of v = PAbsent) /\
      (forall v, sg_varargs sg = Some p -> v ∈ drop (length (sg_args sg)) args -> is_inner v = false)
  }.
  Lemma plain_ordinary (sg : sig) args kw : plain_call sg args kw -> ordinary_call sg args kw.
  Proof.
    intros [H1 H2 H3 H4]. split; [done..|]. intros p Hp. destruct (H4 p Hp) as (A & B & C). split_and!.
    - intros i v Hi. destruct A. by eapply elem_of_list_lookup_2.
    - done.
    - done.
  Qed.
End Spec.
