(** Model of equality, hashes and database records of configuration results and tests: lib/fbuild/config/c/__init__.py 9-128,
    208-230, 262-272, 344-357, 495-504, 629-636; lib/fbuild/config/cxx/__init__.py 26-47;
    lib/fbuild/db/database.py 222-289 for functors.  Classes derived from the ones named here are not modelled. *)
From Coq Require Import List ZArith Bool String.
Import ListNotations.
Open Scope string_scope.

(** Results, and strings, which stand for types. *)
Inductive result :=
  | Str (s : string)
  | Function (return_type : result) (args : list result)
  | Macro | Variable_ | Template
  | Type_ (alignment size : Z)
  | IntType (alignment size : Z) (signed : bool)
  | Struct (members : list (string * string)).

Fixpoint list_eq {A} (eq : A -> A -> bool) (l l' : list A) : bool :=
  match l, l' with
  | [], [] => true
  | a :: l, b :: l' => eq a b && list_eq eq l l'
  | _, _ => false
  end.
Definition member_eq (a b : string * string) : bool := (fst a =? fst b) && (snd a =? snd b).

(** a == b; None: AttributeError, as a Function has no attribute size (24-28). *)
Fixpoint result_eq (a b : result) : option bool :=
  match a, b with
  | Str s, Str s' => Some (s =? s')
  | Function r _, Function r' _ =>
      match result_eq r r' with
      | Some true => None
      | x => x
      end
  | Macro, Macro | Variable_, Variable_ | Template, Template => Some true
  | Type_ a s, Type_ a' s' => Some (Z.eqb a a' && Z.eqb s s')
  | IntType a s g, IntType a' s' g' => Some (Z.eqb a a' && Z.eqb s s' && Bool.eqb g g')
  | Struct ms, Struct ms' => Some (list_eq member_eq ms ms')
  | _, _ => Some false
  end.

(** Tests: the class and what it adds, then the attributes of AbstractFieldDescriptor.  The return type and the arguments of a
    function test are strings here.  The struct_test of config/cxx cannot be put in a class, as its contribute_to_class uses a
    name that module does not define, and is left out. *)
Inductive kind :=
  | KHeader (filename : string)
  | KFunction (return_type : string) (args : list string) (default_args : option (list string))
  | KMacro | KType | KIntType | KVariable
  | KStruct (members : list (string * string))
  | KTemplate (test_types : list string).
Record test := Test_ {
  t_kind : kind; t_key : string; t_name : option string; t_test : option string; t_stdin : option string; t_stdout : option string; t_timeout : option Z }.
Definition opt_eq {A} (eq : A -> A -> bool) (a b : option A) : bool :=
  match a, b with Some a, Some b => eq a b | None, None => true | _, _ => false end.
(** self.__class__ is other.__class__, and what the classes add; template_test adds nothing. *)
Definition kind_eq (a b : kind) : bool :=
  match a, b with
  | KHeader f, KHeader f' => f =? f'
  | KFunction r l d, KFunction r' l' d' => (r =? r') && list_eq String.eqb l l' && opt_eq (list_eq String.eqb) d d'
  | KMacro, KMacro | KType, KType | KIntType, KIntType | KVariable, KVariable => true
  | KStruct ms, KStruct ms' => list_eq member_eq ms ms'
  | KTemplate _, KTemplate _ => true
  | _, _ => false
  end.
(** 208-216 *)
Definition test_eq (a b : test) : bool :=
  kind_eq (t_kind a) (t_kind b) && (t_key a =? t_key b) && opt_eq String.eqb (t_name a) (t_name b) && opt_eq String.eqb (t_test a) (t_test b) &&
  opt_eq String.eqb (t_stdin a) (t_stdin b) && opt_eq String.eqb (t_stdout a) (t_stdout b) && opt_eq Z.eqb (t_timeout a) (t_timeout b).

(** Objects with tests: the class, and what __eq__ compares (629-636).  Equality of builders is C55: here they are numbers.
    object.__eq__ gives NotImplemented for two objects, which counts as true, so that the class is not compared. *)
Record object := Object {
  o_module : string; o_class : string;
  o_builder : Z; o_platform : list string; o_flags : list string; o_libpaths : list string; o_libs : list string; o_external_libs : list string }.
Definition object_eq (a b : object) : bool :=
  Z.eqb (o_builder a) (o_builder b) && list_eq String.eqb (o_platform a) (o_platform b) && list_eq String.eqb (o_flags a) (o_flags b) &&
  list_eq String.eqb (o_libpaths a) (o_libpaths b) && list_eq String.eqb (o_libs a) (o_libs b) && list_eq String.eqb (o_external_libs a) (o_external_libs b).

(** The [__module__] of a functor is that of its class. *)
Definition module_of (k : kind) : string :=
  match k with KTemplate _ => "fbuild.config.cxx" | _ => "fbuild.config.c" end.
(** _find_function_name, database.py 257-266, for an object and one of its tests. *)
Definition record_name (o : object) (t : test) : string := module_of (t_kind t) ++ "." ++ o_class o ++ "." ++ t_key t.
(** database.py 272-273 and 222-227: a functor is replaced by its [__call__], a method, so that what is digested is the text of
    AbstractFieldDescriptor.__call__, here [call_text]. *)
Definition digested (call_text : string) (t : test) : string := call_text.
(** Is the answer recorded for one call used for another, later one? *)
Definition reused (call_text : string) (o : object) (t : test) (o' : object) (t' : test) : bool :=
  (record_name o t =? record_name o' t') && (digested call_text t =? digested call_text t') && object_eq o o'.
