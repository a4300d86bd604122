(** Model of lib/fbuild/functools.py: normalize_args and bind_args, which turn a
    call into the dictionary used as cache key (database.py:293-311). *)
From stdpp Require Import base list strings gmap.
From Verif Require Import PyMonad.

Section Args.
  Context {V : Type}.

  (** inspect.getfullargspec.  [sg_posonly] counts the leading parameters that are
      positional-only; getfullargspec does not tell them apart.  For a bound method
      the first parameter is already removed (functools.py:95-96, 235-236). *)
  Record sig := Sig {
    sg_args : list name;
    sg_posonly : nat;
    sg_defaults : list V;             (* of the last parameters *)
    sg_varargs : option name;
    sg_kwonly : list name;
    sg_kwdefaults : gmap name V;
    sg_varkw : option name
  }.

  (** Values in the bound dictionary. *)
  Inductive bvalue :=
    | BVal (v : V)
    | BTuple (vs : list V)
    | BDict (m : gmap name V).

  (** What [ '__FBUILD_INNER' in v ] does for an ordinary argument value. *)
  Inductive probe := PTypeError | PAbsent | PPopped (v : V) | PAttributeError.
  Context (probe_of : V -> probe).
  Context (is_inner : V -> bool).      (* v == '__FBUILD_INNER' *)

  Definition inner : name := "__FBUILD_INNER"%string.

  (** The loop over the positional parameters, functools.py:141-169.  Result: bound
      values, argcount, the remaining keywords; None is TypeError. *)
  Fixpoint pos_loop (sg : sig) (args : list V) (i : nat) (keys : list name) (kw : gmap name V)
    : option (list V * nat * gmap name V) :=
    match keys with
    | [] => Some ([], 0, kw)
    | k :: ks =>
        let continue v kw' :=
          match pos_loop sg args (S i) ks kw' with
          | Some (vs, n, kw'') => Some (v :: vs, S n, kw'')
          | None => None
          end in
        match kw !! k with
        | None =>
            match args !! i with
            | Some v => continue v kw
            | None =>
                let rest := length (sg_args sg) - i in
                let defcount := length (sg_defaults sg) in
                if decide (rest <= defcount) then
                  match sg_defaults sg !! (defcount - rest) with
                  | Some v => continue v kw
                  | None => None
                  end
                else Some ([], 0, kw)                      (* break *)
            end
        | Some v => if decide (i < length args) then None  (* multiple values *)
                    else continue v (delete k kw)
        end
    end.

  (** The loop over the keyword-only parameters, functools.py:187-199.
      [spec.kwonlydefaults] may be None, in which case subscripting it is a
      TypeError as well. *)
  Fixpoint kw_loop (sg : sig) (keys : list name) (kw : gmap name V)
    : option (gmap name V * gmap name V) :=
    match keys with
    | [] => Some (∅, kw)
    | k :: ks =>
        match kw !! k with
        | Some v => match kw_loop sg ks (delete k kw) with
                    | Some (b, kw') => Some (<[k := v]> b, kw')
                    | None => None
                    end
        | None => match sg_kwdefaults sg !! k with
                  | Some v => match kw_loop sg ks kw with
                              | Some (b, kw') => Some (<[k := v]> b, kw')
                              | None => None
                              end
                  | None => None
                  end
        end
    end.

  (** functools.py:68-211 *)
  Definition normalize_args (sg : sig) (args : list V) (kw : gmap name V)
    : option (list V * gmap name V) :=
    match sg_args sg, sg_kwonly sg, sg_varargs sg, sg_varkw sg with
    | [], [], None, None =>
        if decide (args = [] /\ kw = ∅) then Some ([], ∅) else None
    | _, _, _, _ =>
        let n := length (sg_args sg) in
        let total := n + length (sg_kwonly sg) in
        if decide (total < length args /\ sg_varargs sg = None) then None
        else
          match pos_loop sg args 0 (sg_args sg) kw with
          | None => None
          | Some (vs, argcount, kw1) =>
              if decide (argcount + length (sg_defaults sg) < n) then None
              else
                let bound_args := match sg_varargs sg with
                                  | Some _ => vs ++ drop argcount args
                                  | None => vs
                                  end in
                match kw_loop sg (sg_kwonly sg) kw1 with
                | None => None
                | Some (bk, kw2) =>
                    match sg_varkw sg with
                    | Some _ => Some (bound_args, kw2 ∪ bk)
                    | None =>
                        (* a key in fn_args was popped or not given, functools.py:204 *)
                        if decide (map_Forall (fun k _ => k ∈ sg_args sg \/ k = inner) kw2)
                        then Some (bound_args, kw2 ∪ bk) else None
                    end
                end
          end
    end.

  (** [for key, value in zip(fn_args, arg_iterator): bound[key] = value] *)
  Fixpoint bind_pos (keys : list name) (vs : list V) (b : gmap name bvalue) : gmap name bvalue :=
    match keys, vs with
    | k :: ks, v :: vs' => bind_pos ks vs' (<[k := BVal v]> b)
    | _, _ => b
    end.

  Fixpoint bind_kw (keys : list name) (kw : gmap name V) (b : gmap name bvalue)
    : option (gmap name V * gmap name bvalue) :=
    match keys with
    | [] => Some (kw, b)
    | k :: ks => match kw !! k with
                 | Some v => bind_kw ks (delete k kw) (<[k := BVal v]> b)
                 | None => None
                 end
    end.

  (** functools.py:255-259, for one of 'kw' and 'kwargs'. *)
  Definition strip_inner (kind : name) (b : gmap name bvalue) : option (gmap name bvalue) :=
    match b !! kind with
    | None => Some b
    | Some (BDict m) => Some (<[kind := BDict (delete inner m)]> b)
    | Some (BTuple vs) => if existsb is_inner vs then None else Some b
    | Some (BVal v) => match probe_of v with
                       | PTypeError | PAttributeError => None
                       | PAbsent => Some b
                       | PPopped v' => Some (<[kind := BVal v']> b)
                       end
    end.

  (** functools.py:215-261 *)
  Definition bind_args (sg : sig) (args : list V) (kw : gmap name V) : option (gmap name bvalue) :=
    match normalize_args sg args kw with
    | None => None
    | Some (vs, kw1) =>
        let b1 := bind_pos (sg_args sg) vs ∅ in
        let b2 := match sg_varargs sg with
                  | Some a => <[a := BTuple (drop (length (sg_args sg)) vs)]> b1
                  | None => b1
                  end in
        match bind_kw (sg_kwonly sg) kw1 b2 with
        | None => None
        | Some (kw2, b3) =>
            let b4 := match sg_varkw sg with
                      | Some a => <[a := BDict kw2]> b3
                      | None => b3
                      end in
            match strip_inner "kw"%string b4 with
            | Some b5 => strip_inner "kwargs"%string b5
            | None => None
            end
        end
    end.
End Args.
Arguments sig V : clear implicits.
Arguments bvalue V : clear implicits.
Arguments probe V : clear implicits.

Global Instance bvalue_eq_dec `{EqDecision V} : EqDecision (bvalue V).
Proof. solve_decision. Defined.
