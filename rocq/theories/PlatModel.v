(** Model of lib/fbuild/builders/platform.py: platform_match and
    parse_platform_options.  Lists and sets are mutable and live in a heap, so that
    changes of the caller's values are visible. *)
From stdpp Require Import base list gmap.
From Coq Require Import NArith.
From Verif Require Import FnModel.

Definition c_excl : chr := 33%N.   (* ! *)
Definition c_add : chr := 43%N.    (* + *)
Definition c_sub : chr := 45%N.    (* - *)

(** platform.py:180-184; sets as lists. *)
Definition negative (p : str) : bool := match p with c :: _ => N.eqb c c_excl | [] => false end.
Definition platform_match (platform matcher : list str) : bool :=
  let required_present := filter (fun p => negative p = false) matcher in
  let required_nonpresent := (fun p => tail p) <$> filter (fun p => negative p = true) matcher in
  bool_decide (Forall (fun p => p ∈ platform) required_present) &&
  bool_decide (Forall (fun p => p ∉ required_nonpresent) platform).

(** Mutable sequences by location. *)
Notation loc := nat.
Notation heap E := (list (list E)).

Inductive value {E : Type} :=
  | VStr (s : list E)
  | VTuple (s : list E)
  | VList (l : loc)
  | VSet (l : loc)
  | VNone
  | VOther.                                    (* neither of these; not iterable *)
Arguments value E : clear implicits.
Notation kwargs E := (gmap str (value E)).

Section Plat.
  Context {E : Type} `{EqDecision E}.          (* elements; a string iterates over its characters *)
  (** [x in s] for a string s: the substring test; None: x is not a string. *)
  Context (in_str : E -> list E -> option bool).

  Definition contents (h : heap E) (v : value E) : option (list E) :=
    match v with
    | VStr s | VTuple s => Some s
    | VList l | VSet l => h !! l
    | VNone | VOther => None
    end.

  Definition alloc (h : heap E) (s : list E) : heap E * loc := (h ++ [s], length h).

  (** type(modifier)() *)
  Definition empty_like (h : heap E) (m : value E) : heap E * value E :=
    match m with
    | VStr _ => (h, VStr [])
    | VTuple _ => (h, VTuple [])
    | VList _ => let (h, l) := alloc h [] in (h, VList l)
    | VSet _ => let (h, l) := alloc h [] in (h, VSet l)
    | VNone | VOther => (h, m)
    end.

  (** [value += modifier]: extends a list in place; None is TypeError. *)
  Definition iadd (h : heap E) (v m : value E) : option (heap E * value E) :=
    match v with
    | VStr a => match m with VStr b => Some (h, VStr (a ++ b)) | _ => None end
    | VTuple a => match m with VTuple b => Some (h, VTuple (a ++ b)) | _ => None end
    | VList l => match contents h m, h !! l with
                 | Some b, Some a => Some (<[l := a ++ b]> h, VList l)
                 | _, _ => None
                 end
    | VSet _ | VNone | VOther => None
    end.

  (** [x in modifier] *)
  Definition is_in (h : heap E) (m : value E) (x : E) : option bool :=
    match m with
    | VStr s => in_str x s
    | _ => match contents h m with
           | Some s => Some (bool_decide (x ∈ s))
           | None => None
           end
    end.

  Fixpoint without (test : E -> option bool) (s : list E) : option (list E) :=
    match s with
    | [] => Some []
    | x :: s' => match test x, without test s' with
                 | Some true, Some r => Some r
                 | Some false, Some r => Some (x :: r)
                 | _, _ => None
                 end
    end.

  (** platform.py:213-219 *)
  Definition isub (h : heap E) (v m : value E) : option (heap E * value E) :=
    match contents h v with
    | None => None
    | Some s =>
        match without (is_in h m) s with
        | None => None
        | Some r =>
            match v with
            | VStr _ => Some (h, VStr r)
            | VTuple _ => Some (h, VTuple r)
            | VList _ => let (h, l) := alloc h r in Some (h, VList l)
            | VSet _ => let (h, l) := alloc h r in Some (h, VSet l)
            | VNone | VOther => None
            end
        end
    end.

  Definition supported (m : value E) : bool :=
    match m with VNone | VOther => false | _ => true end.

  (** key[:-1], key[-1] *)
  Definition last_char (key : str) : option (str * chr) :=
    match rev key with
    | c :: r => Some (rev r, c)
    | [] => None
    end.

  (** platform.py:197-223, one option; None: an exception (IndexError for an empty
      key, AssertionError, TypeError). *)
  Definition apply_option (h : heap E) (kw : kwargs E) (key : str) (m : value E) : option (heap E * kwargs E) :=
    match last_char key with
    | None => None
    | Some (key', c) =>
        if N.eqb c c_add || N.eqb c c_sub then
          if supported m then
            let (h, v) := match kw !! key' with
                          | Some VNone | None => empty_like h m
                          | Some v => (h, v)
                          end in
            match (if N.eqb c c_add then iadd h v m else isub h v m) with
            | Some (h, v) => Some (h, <[key' := v]> kw)
            | None => None
            end
          else None
        else Some (h, <[key := m]> kw)
    end.

  Fixpoint apply_options (h : heap E) (kw : kwargs E) (opts : list (str * value E)) : option (heap E * kwargs E) :=
    match opts with
    | [] => Some (h, kw)
    | (key, m) :: opts' => match apply_option h kw key m with
                           | Some (h, kw) => apply_options h kw opts'
                           | None => None
                           end
    end.

  (** platform.py:187-223, with the platform known. *)
  Fixpoint parse_platform_options (platform : list str)
    (popts : list (list str * list (str * value E))) (h : heap E) (kw : kwargs E) : option (heap E * kwargs E) :=
    match popts with
    | [] => Some (h, kw)
    | (matcher, opts) :: popts' =>
        if platform_match platform matcher then
          match apply_options h kw opts with
          | Some (h, kw) => parse_platform_options platform popts' h kw
          | None => None
          end
        else parse_platform_options platform popts' h kw
    end.
End Plat.
