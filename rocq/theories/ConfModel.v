(** Classes of configuration tests: lib/fbuild/config/__init__.py, the part of
    lib/fbuild/config/c/__init__.py and lib/fbuild/config/cxx/__init__.py that makes classes.

    Left out: names that Python itself puts into class bodies (__module__, __qualname__,
    __classcell__), attributes of the class Test itself (get, fields, functions, ...), base classes
    that are no tests, and attributes set after the class statement. *)
From stdpp Require Import base list strings gmap.

(** What a field tests for (config/c/__init__.py:232-532, config/cxx/__init__.py:15-67). *)
Inductive kind :=
  | KHeader (filename : string)
  | KFunction (ret : string) (args : list string) (defaults : list string)
  | KMacro
  | KType
  | KIntType
  | KStruct (members : list (string * string))
  | KVariable
  | KTemplate (types : list string)
  | KCxxStruct (members : list (string * string)).

(** A descriptor object (config/c/__init__.py:145-163): [d_key] is __name__, [d_name] is name. *)
Record desc := Desc { d_kind : kind; d_key : string; d_name : option string;
  d_test : option string; d_stdin : option string; d_stdout : option string }.

Definition set_key (d : desc) (k : string) : desc := Desc (d_kind d) k (d_name d) (d_test d) (d_stdin d) (d_stdout d).
Definition set_name (d : desc) (n : string) : desc := Desc (d_kind d) (d_key d) (Some n) (d_test d) (d_stdin d) (d_stdout d).

(** Other values: objects without contribute_to_class. *)
Inductive pyval := PNone | PStr (s : string) | PObj (n : nat).
(** What a name is bound to in a class body: a descriptor object, a method decorated with
    c.cacheproperty, or something else.  Objects are numbers. *)
Inductive binding := BDesc (d : nat) | BMethod (m : nat) | BValue (v : pyval).
(** The statements of a class body: a name is bound or deleted. *)
Inductive stmt := SSet (k : string) (b : binding) | SDel (k : string).

(** config/__init__.py:8-19: _FieldTable. *)
Record table := Table { t_vals : gmap string binding; t_names : list string }.
Definition table_set (t : table) (k : string) (b : binding) : table :=
  Table (<[k := b]> (t_vals t)) (if decide (is_Some (t_vals t !! k)) then t_names t else t_names t ++ [k]).
(** Deleting a name that is not bound is a NameError: None. *)
Fixpoint exec_body (t : table) (b : list stmt) : option table :=
  match b with
  | [] => Some t
  | SSet k v :: b' => exec_body (table_set t k v) b'
  | SDel k :: b' => match t_vals t !! k with
                    | Some _ => exec_body (Table (delete k (t_vals t)) (t_names t)) b'
                    | None => None
                    end
  end.

(** An attribute of a class: a cacheproperty around a descriptor or a method, or another value. *)
Inductive attr := APropDesc (d : nat) | APropMethod (m : nat) | AVal (v : pyval).
Definition is_prop (a : attr) : bool := match a with AVal _ => false | _ => true end.

(** [c_mro]: __mro__; [c_fields]: __field_names__; [c_cxx]: the metaclass is that of
    config/cxx/__init__.py; [c_body] is a ghost, the statements of the body. *)
Record cls := Cls { c_name : string; c_bases : list nat; c_mro : list nat; c_attrs : gmap string attr;
  c_fields : list string; c_cxx : bool; c_body : list stmt }.

(** Classes are numbered in the order of their definition; [s_heap]: the descriptor objects. *)
Record state := State { s_classes : list cls; s_heap : gmap nat desc }.

(** The order in which base classes are searched (C3, as type.mro of Python). *)
Definition in_tail (c : nat) (l : list nat) : bool := match l with [] => false | _ :: t => bool_decide (c ∈ t) end.
Fixpoint pick (all ls : list (list nat)) : option nat :=
  match ls with
  | [] => None
  | [] :: ls' => pick all ls'
  | (c :: _) :: ls' => if existsb (in_tail c) all then pick all ls' else Some c
  end.
Definition drop_head (c : nat) (l : list nat) : list nat :=
  match l with x :: t => if decide (x = c) then t else l | [] => [] end.
Definition is_nil {A} (l : list A) : bool := match l with [] => true | _ => false end.
Fixpoint merge (fuel : nat) (ls : list (list nat)) : option (list nat) :=
  if forallb is_nil ls then Some []
  else match fuel with
       | O => None
       | S n => match pick ls ls with
                | None => None
                | Some c => match merge n (map (drop_head c) ls) with
                            | Some r => Some (c :: r)
                            | None => None
                            end
                end
       end.
Definition mro_of (cs : list cls) (i : nat) : list nat := match cs !! i with Some c => c_mro c | None => [] end.
(** None: TypeError, no consistent order. *)
Definition linearize (cs : list cls) (i : nat) (bases : list nat) : option (list nat) :=
  let ls := map (mro_of cs) bases ++ [bases] in
  match merge (sum_list (map length ls)) ls with Some r => Some (i :: r) | None => None end.

(** getattr(cls, k) *)
Fixpoint search (cs : list cls) (mro : list nat) (k : string) : option attr :=
  match mro with
  | [] => None
  | i :: mro' => match cs !! i with
                 | Some c => match c_attrs c !! k with Some a => Some a | None => search cs mro' k end
                 | None => search cs mro' k
                 end
  end.
Definition class_attr (cs : list cls) (i : nat) (k : string) : option attr := search cs (mro_of cs i) k.

(** config/__init__.py:68-71: fields(); None: AttributeError. *)
Definition fields (cs : list cls) (i : nat) : option (list (string * attr)) :=
  match cs !! i with
  | Some c => mapM (fun k => match class_attr cs i k with Some a => Some (k, a) | None => None end) (c_fields c)
  | None => None
  end.

(** config/__init__.py:41-45 *)
Definition inherited (cs : list cls) (t : table) (bases : list nat) : list string :=
  flat_map (fun p => match cs !! p with
                     | Some c => filter (fun k => t_vals t !! k = None) (c_fields c)
                     | None => []
                     end) bases.

(** config/c/__init__.py:159-163, 463-467, 131-136; config/__init__.py:58-62.  The class of C++
    structures names a cacheproperty that its module does not have: NameError. *)
Definition contribute (k : string) (b : binding) (acc : list string * gmap string attr * gmap nat desc) :
    option (list string * gmap string attr * gmap nat desc) :=
  let '(names, attrs, h) := acc in
  match b with
  | BValue v => Some (names, <[k := AVal v]> attrs, h)
  | BMethod m => Some (names ++ [k], <[k := APropMethod m]> attrs, h)
  | BDesc d =>
      match h !! d with
      | None => None
      | Some x =>
          match d_kind x with
          | KCxxStruct _ => None
          | _ =>
              let x1 := set_key x k in
              let x2 := match d_name x1 with
                        | Some _ => x1
                        | None => set_name x1 (match d_kind x with KStruct _ => "struct " +:+ k | _ => k end)
                        end in
              Some (names ++ [k], <[k := APropDesc d]> attrs, <[d := x2]> h)
          end
      end
  end.
(** config/__init__.py:47-54 *)
Fixpoint add_all (t : table) (ks : list string) (acc : list string * gmap string attr * gmap nat desc) :
    option (list string * gmap string attr * gmap nat desc) :=
  match ks with
  | [] => Some acc
  | k :: ks' => match t_vals t !! k with
                | None => add_all t ks' acc
                | Some b => match contribute k b acc with Some acc' => add_all t ks' acc' | None => None end
                end
  end.

(** config/cxx/__init__.py:77-81; a field without method.name is an AttributeError. *)
Fixpoint prepend (ns : string) (fs : list (string * attr)) (h : gmap nat desc) : option (gmap nat desc) :=
  match fs with
  | [] => Some h
  | (_, APropDesc d) :: fs' =>
      match h !! d with
      | None => None
      | Some x =>
          match d_kind x, d_name x with
          | KMacro, _ => prepend ns fs' h
          | _, Some n => prepend ns fs' (<[d := set_name x (ns +:+ "::" +:+ n)]> h)
          | _, None => None
          end
      end
  | _ :: _ => None
  end.

(** A class statement; config/cxx/__init__.py:71-83 around config/__init__.py:26-56.  The value of
    namespace is None or a string (anything else counts as None). *)
Definition new_class (s : state) (name : string) (bases : list nat) (body : list stmt) : option state :=
  let cs := s_classes s in
  let i := length cs in
  let cxx := existsb (fun b => match cs !! b with Some c => c_cxx c | None => false end) bases in
  if negb (forallb (fun b => b <? i) bases) then None   (* NameError: no such class *)
  else
  match exec_body (Table ∅ []) body with
  | None => None
  | Some t0 =>
      let ns := if cxx then match t_vals t0 !! "namespace" with Some (BValue (PStr x)) => Some x | _ => None end else None in
      let t := if cxx then Table (delete "namespace" (t_vals t0)) (t_names t0) else t0 in
      match linearize cs i bases with
      | None => None
      | Some mro =>
          match add_all t (t_names t) (inherited cs t bases, ∅, s_heap s) with
          | None => None
          | Some (names, attrs, h) =>
              let cs' := cs ++ [Cls name bases mro attrs names cxx body] in
              match ns with
              | None => Some (State cs' h)
              | Some x =>
                  match fields cs' i with
                  | None => None
                  | Some fs => match prepend x fs h with Some h' => Some (State cs' h') | None => None end
                  end
              end
          end
      end
  end.

(** config/c/__init__.py:544 and config/cxx/__init__.py:85: the class Test for C and that for C++. *)
Definition c_test : nat := 0.
Definition cxx_test : nat := 1.
Definition initial (h : gmap nat desc) : state :=
  State [Cls "Test" [] [0] ∅ [] false []; Cls "Test" [0] [1; 0] ∅ [] true []] h.

(** A module: class statements. *)
Record class_stmt := CS { cs_name : string; cs_bases : list nat; cs_body : list stmt }.
Fixpoint define (s : state) (p : list class_stmt) : option state :=
  match p with
  | [] => Some s
  | c :: p' => match new_class s (cs_name c) (cs_bases c) (cs_body c) with Some s' => define s' p' | None => None end
  end.

(** ** Looking at the fields of an object *)

(** The classes of lib/fbuild/config/c/__init__.py:9-126 and Template of config/cxx/__init__.py;
    other values are numbers. *)
Inductive found :=
  | FHeader (filename : string) | FFunction (ret : string) (args : list string) | FMacro
  | FType (alignment size : Z) | FIntType (alignment size : Z) (signed : bool)
  | FStruct (members : list (string * string)) | FVariable | FTemplate | FOther (n : nat).
Inductive exc := AttributeError | IndexError | ValueError | OtherError (n : nat).
(** A value or None, or an exception. *)
Definition answer := (option found + exc)%type.

(** What [program], run with [stdin], does: it prints something, or ExecutionError (it is not
    compiled or linked, or it fails), or another exception. *)
Inductive ran := Printed (out : string) | ExecutionError | RunRaised (n : nat).

(** config/c/__init__.py: the methods process_stdout; [read_ints] stands for
    [int(x) for x in stdout.split()], as far as needed. *)
Definition as_expected (d : desc) (out : string) : bool :=
  match d_stdout d with None => true | Some o => bool_decide (o = out) end.
Definition process_stdout (read_int : string -> nat -> Z + exc) (d : desc) (out : string) : answer :=
  let test (v : found) : answer := inl (if as_expected d out then Some v else None) in
  match d_kind d with
  | KHeader f => test (FHeader f)                        (* 255-260 *)
  | KFunction r a _ => test (FFunction r a)              (* 337-342 *)
  | KMacro => test FMacro                                (* 382-387 *)
  | KStruct m | KCxxStruct m => test (FStruct m)         (* 488-493 *)
  | KVariable => test FVariable                          (* 527-532 *)
  | KTemplate _ => test FTemplate                        (* cxx/__init__.py:61-66 *)
  | KType =>                                             (* 411-418 *)
      match read_int out 0 with
      | inr e => inr e
      | inl a => match read_int out 1 with inr e => inr e | inl z => inl (Some (FType a z)) end
      end
  | KIntType =>                                          (* 441-450 *)
      match read_int out 0 with
      | inr e => inr e
      | inl a => match read_int out 1 with
                 | inr e => inr e
                 | inl z => match read_int out 2 with inr e => inr e | inl g => inl (Some (FIntType a z (bool_decide (g = 1%Z)))) end
                 end
      end
  end.

Definition is_header (d : desc) : bool := match d_kind d with KHeader _ => true | _ => false end.

(** config/c/__init__.py:165-200.  [header]: the attribute header of the object, if there is one;
    [format]: the method format_test of the descriptor.  An empty text given for test counts as
    none (175), an empty header is one for the program (format_test). *)
Definition call_desc (run : string -> option string -> ran) (read_int : string -> nat -> Z + exc)
    (format : desc -> option string -> string) (header : option (option string)) (d : desc) : answer :=
  let go (h : option string) : answer :=
    let text := match d_test d with Some t => if decide (t = "") then format d h else t | None => format d h end in
    match run text (d_stdin d) with
    | Printed out => process_stdout read_int d out
    | ExecutionError => inl None
    | RunRaised n => inr (OtherError n)
    end in
  if is_header d then go None
  else match header with
       | None => go None
       | Some None => inl None
       | Some (Some h) => go (Some h)
       end.

(** config/c/__init__.py:563-627: functions(), macros(), types(), int_types(), structs() and
    variables() as lists; [get]: the attribute of the object.  [of_test] and [of_value] are the two
    isinstance tests.  A method decorated with cacheproperty is none of the test classes; a field
    that is no cacheproperty has no attribute method. *)
Fixpoint select (h : gmap nat desc) (get : string -> answer) (of_test : kind -> bool) (of_value : found -> bool)
    (fs : list (string * attr)) : list (string * option found) + exc :=
  match fs with
  | [] => inl []
  | (k, a) :: fs' =>
      let rest := select h get of_test of_value fs' in
      match a with
      | APropDesc d =>
          match h !! d with
          | Some x =>
              if of_test (d_kind x) then
                match get k with
                | inr e => inr e
                | inl v => match d_name x with
                           | None => inr AttributeError
                           | Some n => match rest with inl l => inl ((n, v) :: l) | inr e => inr e end
                           end
                end
              else rest
          | None => inr AttributeError
          end
      | APropMethod _ => rest
      | AVal _ =>
          match get k with
          | inr e => inr e
          | inl (Some v) => if of_value v then inr AttributeError else rest
          | inl None => rest
          end
      end
  end.
Definition kind_function (k : kind) : bool := match k with KFunction _ _ _ => true | _ => false end.
Definition found_function (v : found) : bool := match v with FFunction _ _ => true | _ => false end.
Definition functions h get fs := select h get kind_function found_function fs.
Definition kind_macro (k : kind) : bool := match k with KMacro => true | _ => false end.
Definition found_macro (v : found) : bool := match v with FMacro => true | _ => false end.
Definition macros h get fs := select h get kind_macro found_macro fs.
Definition kind_type (k : kind) : bool := match k with KType | KIntType => true | _ => false end.
Definition found_type (v : found) : bool := match v with FType _ _ | FIntType _ _ _ => true | _ => false end.
Definition types h get fs := select h get kind_type found_type fs.
Definition kind_int (k : kind) : bool := match k with KIntType => true | _ => false end.
Definition found_int (v : found) : bool := match v with FIntType _ _ _ => true | _ => false end.
Definition int_types h get fs := select h get kind_int found_int fs.
Definition kind_struct (k : kind) : bool := match k with KStruct _ | KCxxStruct _ => true | _ => false end.
Definition found_struct (v : found) : bool := match v with FStruct _ => true | _ => false end.
Definition structs h get fs := select h get kind_struct found_struct fs.
Definition kind_variable (k : kind) : bool := match k with KVariable => true | _ => false end.
Definition found_variable (v : found) : bool := match v with FVariable => true | _ => false end.
Definition variables h get fs := select h get kind_variable found_variable fs.

(** Function.__eq__ (config/c/__init__.py:24-28) reads the attribute size of the other object,
    which a Function does not have. *)
Definition function_eq (r1 : string) (r2 : string) : bool + exc :=
  if decide (r1 = r2) then inr AttributeError else inl false.

(** ** How the database identifies a field (db/database.py:218-275 for a method object around a
    descriptor): the name is made of the module of the class of the descriptor, the name of the class
    of the object and the key; since a descriptor is no routine, its __call__ stands for it, and
    what is digested is the text of AbstractFieldDescriptor.__call__, [call_text]. *)
Definition field_module (k : kind) : string := match k with KTemplate _ | KCxxStruct _ => "fbuild.config.cxx" | _ => "fbuild.config.c" end.
Definition field_name (c : cls) (d : desc) : string := field_module (d_kind d) +:+ "." +:+ c_name c +:+ "." +:+ d_key d.
Definition field_digest (call_text : string) (d : desc) : string := call_text.
