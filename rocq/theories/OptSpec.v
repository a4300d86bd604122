(** What old-style options and hooks of build scripts should do. *)
From Coq Require Import String List Bool ZArith.
From Verif Require Import OptModel.
Import ListNotations.
Open Scope string_scope.
Open Scope list_scope.

(** The class that optparse converts to, by name of the type; optparse also has "long". *)
Inductive converts : string -> pyclass -> Prop :=
  | conv_string : converts "string" CStr
  | conv_choice : converts "choice" CStr
  | conv_int : converts "int" CInt
  | conv_float : converts "float" CFloat
  | conv_complex : converts "complex" CComplex.
Definition known_type (v : val) : Prop := v = VNone \/ exists s c, v = VStr s /\ converts s c.

(** Attributes that mean the same in argparse. *)
Definition shared : list string := ["action"; "dest"; "const"; "choices"; "help"; "metavar"].

(** The keyword [k] of add_argument for an option of optparse. *)
Inductive translated (o : opt) : string -> option val -> Prop :=
  | tr_shared k : In k shared -> o_attr o k <> VNone -> translated o k (Some (o_attr o k))
  | tr_unset k : In k shared -> o_attr o k = VNone -> translated o k None
  | tr_nargs : o_attr o "nargs" <> VNone -> o_attr o "nargs" <> VInt 1 -> translated o "nargs" (Some (o_attr o "nargs"))
  | tr_single : o_attr o "nargs" = VNone \/ o_attr o "nargs" = VInt 1 -> translated o "nargs" None
  | tr_default : o_attr o "default" <> VNoDefault -> translated o "default" (Some (o_attr o "default"))
  | tr_no_default : o_attr o "default" = VNoDefault -> translated o "default" None
  | tr_type s c : o_attr o "type" = VStr s -> converts s c -> translated o "type" (Some (VClass c))
  | tr_no_type : o_attr o "type" = VNone -> translated o "type" None
  | tr_other k : ~ In k shared -> k <> "nargs" -> k <> "default" -> k <> "type" -> translated o k None.

(** Calls that are deprecated: those on the parser. *)
Definition on_parser (c : call) : Prop :=
  match c with CAdd None _ _ | CAdds None _ | CGroup => True | _ => False end.
Definition is_warning (s : seen) : bool := match s with Warned => true | _ => false end.

Definition option_known (a : arg) : Prop := match a with AStr _ => True | AOpt o => known_type (o_attr o "type") end.
(** What is seen but for the warnings. *)
Definition effects (l : list seen) : list seen := filter (fun s => negb (is_warning s)) l.

(** One call of add_argument that an argument of add_options leads to. *)
Inductive becomes (t : target) : arg -> seen -> Prop :=
  | become_string s : becomes t (AStr s) (Added t [AStr s] [])
  | become_option o kw : known_type (o_attr o "type") ->
      (forall k, translated o k (kget k kw)) ->
      becomes t (AOpt o) (Added t (map AStr (o_short o ++ o_long o)) kw).

(** The hook that is called of two, with a warning or without. *)
Inductive hook {world} (r : root world) (new : string) (new_args : list obj) (old : string) (old_args : list obj) (w : world)
    : list event -> world -> outcome -> Prop :=
  | hook_new f w' v : r new = Some f -> f new_args w = (w', v) ->
      hook r new new_args old old_args w [Calls new new_args] w' v
  | hook_old f w' v : r new = None -> r old = Some f -> f old_args w = (w', v) ->
      hook r new new_args old old_args w [Deprecated old new; Calls old old_args] w' v
  | hook_none : r new = None -> r old = None ->
      hook r new new_args old old_args w [] w Falsy.
(** The object used after a hook: what it returns, or the one before. *)
Inductive used (x : obj) : outcome -> obj -> Prop :=
  | used_same : used x Falsy x
  | used_new y : used x (Truthy y) y.

(** The runs of parse_args: the hook before, the parser in use on the arguments after the name of the
    program, the hook after, the context.  The first exception ends a run. *)
Inductive runs {world} (r : root world) (parse : parse_fun world) (made : obj) (argv : list string) (w : world)
    : list event -> world -> obj + exn -> Prop :=
  | run_fails_before es w1 e :
      hook r "arguments" [made] "pre_options" [made] w es w1 (Raises e) ->
      runs r parse made argv w es w1 (inr e)
  | run_fails_parse es w1 v p w2 e :
      hook r "arguments" [made] "pre_options" [made] w es w1 v -> used made v p ->
      parse p argv w1 = (w2, inr e) ->
      runs r parse made argv w (es ++ [Parses p argv]) w2 (inr e)
  | run_fails_after es w1 v p w2 a es' w3 e :
      hook r "arguments" [made] "pre_options" [made] w es w1 v -> used made v p ->
      parse p argv w1 = (w2, inl a) ->
      hook r "post_arguments" [p; a] "post_options" [a] w2 es' w3 (Raises e) ->
      runs r parse made argv w (es ++ Parses p argv :: es') w3 (inr e)
  | run_ends es w1 v p w2 a es' w3 v' a' :
      hook r "arguments" [made] "pre_options" [made] w es w1 v -> used made v p ->
      parse p argv w1 = (w2, inl a) ->
      hook r "post_arguments" [p; a] "post_options" [a] w2 es' w3 v' -> used a v' a' ->
      runs r parse made argv w (es ++ Parses p argv :: es' ++ [MakesContext a']) w3 (inl a').
