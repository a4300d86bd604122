(** Model of lib/fbuild/options.py: OptparseShimMixin, _ArgumentGroup and ArgumentParser (10-75),
    and of lib/fbuild/main.py: _call_or_deprecated and parse_args (27-71).  argparse is not
    modelled: what is observed are the calls of add_argument and parse_args. *)
From Coq Require Import String List Bool ZArith.
Import ListNotations.
Open Scope string_scope.
Open Scope list_scope.

(** The classes in TYPE_MAP. *)
Inductive pyclass := CStr | CInt | CFloat | CComplex.
(** Values of attributes and keyword arguments; [VNoDefault] is ('NO', 'DEFAULT'), [VOther]
    stands for everything else, told apart by the number. *)
Inductive val := VNone | VNoDefault | VStr (s : string) | VInt (z : Z) | VClass (c : pyclass) | VOther (n : nat).

(** optparse.Option: _short_opts, _long_opts and the attributes.  Every attribute in ATTRS is
    set, to None if not given. *)
Record opt := Opt { o_short : list string; o_long : list string; o_attr : string -> val }.
(** optparse.py: Option.ATTRS. *)
Definition ATTRS : list string :=
  ["action"; "type"; "dest"; "default"; "nargs"; "const"; "choices";
   "callback"; "callback_args"; "callback_kwargs"; "help"; "metavar"].

(** A dict with keys of type str: what is read from it, the order does not matter. *)
Definition kws := list (string * val).
Fixpoint kget (k : string) (d : kws) : option val :=
  match d with [] => None | (k', v) :: d' => if String.eqb k k' then Some v else kget k d' end.
Definition kset (k : string) (v : val) (d : kws) : kws := (k, v) :: d.
Definition kpop (k : string) (d : kws) : kws := filter (fun p => negb (String.eqb k (fst p))) d.

(** 28-34 *)
Definition TYPE_MAP : list (string * pyclass) :=
  [("string", CStr); ("int", CInt); ("choice", CStr); ("float", CFloat); ("complex", CComplex)].
Fixpoint class_of (s : string) (l : list (string * pyclass)) : option pyclass :=
  match l with [] => None | (k, c) :: l' => if String.eqb s k then Some c else class_of s l' end.

(** Positional arguments of add_option. *)
Inductive arg := AStr (s : string) | AOpt (o : opt).
(** A call of add_argument, or the exception KeyError. *)
Inductive adding := Adds (names : list arg) (kw : kws) | BadType.

Definition is_no_default (v : val) : bool := match v with VNoDefault => true | _ => false end.
Definition is_none (v : val) : bool := match v with VNone => true | _ => false end.

(** 38-52: one attribute; None is KeyError.  A type that is no string is in no TYPE_MAP. *)
Definition take (o : opt) (kw : option kws) (attr : string) : option kws :=
  match kw with
  | None => None
  | Some kw =>
      let value := o_attr o attr in
      if String.prefix "callback" attr then Some kw
      else if String.eqb attr "default" then
        if is_no_default value then Some kw else Some (kset attr value kw)
      else if String.eqb attr "type" then
        match value with
        | VNone => Some kw
        | VStr s => match class_of s TYPE_MAP with Some c => Some (kset attr (VClass c) kw) | None => None end
        | _ => None
        end
      else if is_none value then Some kw else Some (kset attr value kw)
  end.

Definition names_of (o : opt) : list arg := map AStr (o_short o ++ o_long o).
(** 56-57; only the integer equals 1, of the values modelled. *)
Definition drop_nargs (kw : kws) : kws :=
  match kget "nargs" kw with Some (VInt 1) => kpop "nargs" kw | _ => kw end.

(** 27-58: _optparse_add_option *)
Definition add_option_ (args : list arg) (kw : kws) : adding :=
  match args with
  | AOpt o :: args' =>
      match fold_left (take o) ATTRS (Some kw) with
      | None => BadType
      | Some kw => Adds (args' ++ names_of o) (drop_nargs kw)
      end
  | _ => Adds args (drop_nargs kw)
  end.

(** The parser (None) or one of the groups made by add_option_group, in order. *)
Definition target := option nat.
(** What is seen from outside. *)
Inductive seen := Warned | Added (t : target) (names : list arg) (kw : kws) | NewGroup (n : nat) | KeyError.
(** _optparse_already_warned of the parser, and how many groups there are.  The flag of a group
    is True from the start (63). *)
Record parser := Parser { p_warned : bool; p_groups : nat }.
Definition fresh_parser : parser := Parser false 0.

Inductive call :=
  | CAdd (t : target) (args : list arg) (kw : kws)     (* t.add_option *)
  | CAdds (t : target) (l : list arg)                  (* t.add_options *)
  | CGroup.                                            (* add_option_group *)

(** 19-25 *)
Definition warned (p : parser) (t : target) : list seen * parser :=
  match t with
  | Some _ => ([], p)
  | None => if p_warned p then ([], p) else ([Warned], Parser true (p_groups p))
  end.
Definition add_one (t : target) (args : list arg) (kw : kws) : seen :=
  match add_option_ args kw with Adds names kw => Added t names kw | BadType => KeyError end.
(** 16-17: the exception ends the loop. *)
Fixpoint add_all (t : target) (l : list arg) : list seen :=
  match l with
  | [] => []
  | a :: l' => match add_one t [a] [] with KeyError => [KeyError] | s => s :: add_all t l' end
  end.
Definition exists_ (p : parser) (t : target) : bool :=
  match t with None => true | Some n => Nat.ltb n (p_groups p) end.
(** One call, by a build script that may go on after an exception.  There are no calls on groups
    that were not made. *)
Definition do_call (p : parser) (c : call) : list seen * parser :=
  match c with
  | CAdd t args kw =>
      if exists_ p t then let '(w, p) := warned p t in (w ++ [add_one t args kw], p) else ([], p)
  | CAdds t l => if exists_ p t then let '(w, p) := warned p t in (w ++ add_all t l, p) else ([], p)
  | CGroup => let '(w, p) := warned p None in
              (w ++ [NewGroup (p_groups p)], Parser (p_warned p) (S (p_groups p)))
  end.
Fixpoint do_calls (p : parser) (cs : list call) : list seen * parser :=
  match cs with
  | [] => ([], p)
  | c :: cs' => let '(s, p) := do_call p c in let '(s', p) := do_calls p cs' in (s ++ s', p)
  end.

(** main.py.  Objects are told apart by numbers; hooks, the parser and the world are anything. *)
Section Hooks.
Variable world : Type.
Definition obj := nat.
Definition exn := nat.
(** A function returns None or another value that is false, or an object, or raises. *)
Inductive outcome := Falsy | Truthy (o : obj) | Raises (e : exn).
Definition func := list obj -> world -> world * outcome.
(** getattr(fbuildroot, name): None is AttributeError.  If fbuildroot cannot be imported, it is an
    exception, which has none of the hooks. *)
Definition root := string -> option func.
Inductive event :=
  | Calls (hook : string) (args : list obj)
  | Deprecated (old new : string)
  | Parses (parser : obj) (argv : list string)
  | MakesContext (args : obj).

(** 27-50 *)
Definition call_or_deprecated (r : root) (current : string) (current_args : list obj)
    (deprecated : string) (deprecated_args : list obj) (w : world) : list event * world * outcome :=
  match r current with
  | Some f => let '(w, v) := f current_args w in ([Calls current current_args], w, v)
  | None =>
      match r deprecated with
      | Some f => let '(w, v) := f deprecated_args w in
                  ([Deprecated deprecated current; Calls deprecated deprecated_args], w, v)
      | None => ([], w, Falsy)
      end
  end.
(** ... or x *)
Definition or_else (v : outcome) (x : obj) : obj + exn :=
  match v with Falsy => inl x | Truthy o => inl o | Raises e => inr e end.

(** What parser.parse_args does. *)
Definition parse_fun := obj -> list string -> world -> world * (obj + exn).

(** 52-71; [made] is the parser make_parser makes.  The result are the arguments the Context is
    made of. *)
Definition parse_args (r : root) (parse : parse_fun) (made : obj) (argv : list string) (w : world)
    : list event * world * (obj + exn) :=
  let '(es1, w, v) := call_or_deprecated r "arguments" [made] "pre_options" [made] w in
  match or_else v made with
  | inr e => (es1, w, inr e)
  | inl parser =>
      let '(w, a) := parse parser (tl argv) w in
      let es2 := [Parses parser (tl argv)] in
      match a with
      | inr e => (es1 ++ es2, w, inr e)
      | inl args =>
          let '(es3, w, v) := call_or_deprecated r "post_arguments" [parser; args] "post_options" [args] w in
          match or_else v args with
          | inr e => (es1 ++ es2 ++ es3, w, inr e)
          | inl args => (es1 ++ es2 ++ es3 ++ [MakesContext args], w, inl args)
          end
      end
  end.
End Hooks.
