(** Which function a cached call is: lib/fbuild/db/database.py 80-105, 222-289,
    lib/fbuild/db/__init__.py 96-125 and lib/fbuild/functools.py 9-36. *)
From stdpp Require Import base list strings gmap.
From Verif Require Import PyMonad.
Local Open Scope string_scope.
Local Open Scope list_scope.

(** A function object: [__module__], [__name__], the text of its own code as
    fbuild.inspect.getsource finds it, and [__fbuild_wrapped__] (functools.py:24).
    functools.wraps copies [__module__] and [__name__]; they are free here. *)
Inductive fobj := FObj (module name text : string) (wraps : option fobj).
Definition f_module (f : fobj) : string := match f with FObj m _ _ _ => m end.
Definition f_name (f : fobj) : string := match f with FObj _ n _ _ => n end.
Definition f_text (f : fobj) : string := match f with FObj _ _ x _ => x end.

(** unwrap, functools.py 31-36: one level only. *)
Definition unwrap (f : fobj) : fobj := match f with FObj _ _ _ (Some g) => g | _ => f end.

(** A class derived from PersistentObject: [__module__], [__name__], the text of its
    [__init__], the functions of the cachemethod and cacheproperty attributes that
    attribute lookup on the class finds (in the order of dir()), and its bases. *)
Inductive cls := Cls (module name init : string) (members : list fobj) (bases : list cls).
Definition c_module (c : cls) : string := match c with Cls m _ _ _ _ => m end.
Definition c_name (c : cls) : string := match c with Cls _ n _ _ _ => n end.
Definition c_init (c : cls) : string := match c with Cls _ _ i _ _ => i end.
Definition c_members (c : cls) : list fobj := match c with Cls _ _ _ ms _ => ms end.
Definition c_bases (c : cls) : list cls := match c with Cls _ _ _ _ bs => bs end.

(** What db.call is given: a function decorated with caches, a cached method (or
    property) bound to an instance of a class, or the [__call_super__] of a class, which
    stands for the creation of an object (__init__.py 117-125). *)
Inductive callable := KFun (f : fobj) | KMethod (c : cls) (f : fobj) | KNew (c : cls).

(** _find_function_name, database.py 236-274 (the name only).
    Simplification: a cached method called [__call_super__] is not considered. *)
Definition function_name (f : fobj) : string := f_module (unwrap f) +:+ "." +:+ f_name (unwrap f).
Definition method_name (c : cls) (f : fobj) : string :=
  f_module (unwrap f) +:+ "." +:+ c_name c +:+ "." +:+ f_name (unwrap f).
Definition class_name (c : cls) : string := c_module c +:+ "." +:+ c_name c.
Definition call_name (k : callable) : string :=
  match k with KFun f => function_name f | KMethod c f => method_name c f | KNew c => class_name c end.

(** The source of PersistentMeta.__call_super__, __init__.py 117-118. *)
Definition call_super_text : string :=
  "    def __call_super__(cls, *args, **kwargs):
        return super().__call__(*args, **kwargs)
".

(** What is entered into Database._FUN_DIGESTS, in order: caches.__init__, __init__.py 172-173;
    PersistentMeta.__init__, __init__.py 96-115.  Every entry holds the function whose source
    _digest_function (database.py 276-289) digests when the digest is first asked for;
    functors (objects that are no routines) are not modelled. *)
Inductive definition := DFun (f : fobj) | DClass (c : cls).
Definition entries_of (d : definition) : list (string * string) :=
  match d with
  | DFun f => [(function_name f, f_text (unwrap f))]
  | DClass c =>
      if decide (c_name c = "PersistentObject") then []
      else ((fun f => (method_name c f, f_text (unwrap f))) <$>
              (c_members c ++ (c_bases c ≫= c_members))) ++ [(class_name c, call_super_text)]
  end.

(** add_function_to_map, database.py 222-227: the first function of a name stays. *)
Definition add_entry (m : gmap name string) (e : string * string) : gmap name string :=
  match m !! e.1 with Some _ => m | None => <[e.1 := e.2]> m end.
(** Loading a program: its definitions in the order they are executed. *)
Definition registry (P : list definition) : gmap name string :=
  foldl add_entry ∅ (P ≫= entries_of).
(** get_function_digest_from_map, database.py 229-234.  Simplification: the source files
    are read as they were when the program was loaded. *)
Definition table (md5 : content -> digest) (P : list definition) : gmap name digest := md5 <$> registry P.

(** What db.call runs, database.py 89-95, 178; None: an AttributeError, because a decorated
    plain function has no [__func__]. *)
Definition called (k : callable) : option callable :=
  match k with
  | KFun (FObj _ _ _ (Some _)) => None
  | _ => Some k
  end.
