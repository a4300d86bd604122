(** Which files a cached call declares: Database._find_call_filenames, database.py 293-311,
    and the annotations of db/__init__.py 40-88. *)
From stdpp Require Import base list strings gmap.
From Verif Require Import PyMonad DbModel ArgsModel IdModel IdSpec.
Local Open Scope list_scope.

(** The classes SRC, SRCS, OPTIONAL_SRC, DST, DSTS, OPTIONAL_DST; another class; an
    annotation that is no class.  Simplification: no further subclasses. *)
Inductive annotation := ASrc | ASrcs | AOptSrc | ADst | ADsts | AOptDst | AOther | ABad.

(** [issubclass(avalue, SRC)] and [issubclass(avalue, DST)]. *)
Inductive role := Source | Target | Neither | NoClass.
Definition role_of (a : annotation) : role :=
  match a with
  | ASrc | ASrcs | AOptSrc => Source
  | ADst | ADsts | AOptDst => Target
  | AOther => Neither
  | ABad => NoClass
  end.

Section Ann.
  (** Argument values, taken up to [==]: whether they are None, what iterating over them
      gives (None: TypeError), whether they can be put into a set; str objects; the file name
      Path() makes of an object. *)
  Context {V : Type} (is_none : V -> bool) (elems : V -> option (list V)) (hashable : V -> bool)
    (str : name -> V) (path : bvalue V -> name).

  (** The static method [convert] of each class, db/__init__.py 40-88.  The parameters
      [*args] and [**kw] hold a tuple and a dictionary; iterating over the latter gives its keys. *)
  Definition convert (a : annotation) (v : bvalue V) : option (list (bvalue V)) :=
    match a with
    | ASrcs | ADsts =>
        match v with
        | BVal x => match elems x with Some xs => Some (BVal <$> xs) | None => None end
        | BTuple xs => Some (BVal <$> xs)
        | BDict m => Some ((fun kv => BVal (str kv.1)) <$> map_to_list m)
        end
    | AOptSrc | AOptDst =>
        match v with BVal x => if is_none x then Some [] else Some [v] | _ => Some [v] end
    | _ => Some [v]
    end.

  (** [set.update]: None is a TypeError. The set is the list of its elements, in any order
      and any number of times. *)
  Definition hash_ok (v : bvalue V) : bool :=
    match v with BVal x => hashable x | BTuple xs => forallb hashable xs | BDict _ => false end.
  Definition update (acc l : list (bvalue V)) : option (list (bvalue V)) :=
    if forallb hash_ok l then Some (acc ++ l) else None.

  (** The loop of _find_call_filenames, database.py 302-309: sources, destinations and the
      return annotation; None: a TypeError or KeyError. *)
  Fixpoint filenames (anns : list (name * annotation)) (bound : gmap name (bvalue V))
      (srcs dsts : list (bvalue V)) (ret : option annotation)
    : option (list (bvalue V) * list (bvalue V) * option annotation) :=
    match anns with
    | [] => Some (srcs, dsts, ret)
    | (key, a) :: rest =>
        if decide (key = "return"%string) then filenames rest bound srcs dsts (Some a)
        else
          match role_of a with
          | NoClass => None
          | Neither => filenames rest bound srcs dsts ret
          | r =>
              match bound !! key with
              | None => None
              | Some v =>
                  match convert a v with
                  | None => None
                  | Some l =>
                      match r with
                      | Source => match update srcs l with Some s => filenames rest bound s dsts ret | None => None end
                      | _ => match update dsts l with Some d => filenames rest bound srcs d ret | None => None end
                      end
                  end
              end
          end
    end.

  (** The files the result names, database.py 127-133, 197-200.  Simplification: a failing
      conversion of the result names no files (the program raises TypeError). *)
  Definition result_files (ret : option annotation) (r : V) : list name :=
    match ret with
    | Some a => match role_of a with
                | Target => match convert a (BVal r) with Some l => path <$> l | None => [] end
                | _ => []
                end
    | None => []
    end.

  Context (probe_of : V -> probe V) (is_inner : V -> bool).
  (** The signature and the annotations are part of the text of the function. *)
  Context (sig_of : content -> sig V) (ann_of : content -> list (name * annotation)).

  (** A call: what is called and with which arguments (the object is the first argument of
      a method, database.py 268-271). *)
  Record pcall := PCall { pc_callee : callable; pc_args : list V; pc_kw : gmap name V }.

  (** What Database.call hands to the backend, database.py 84-118; None: an exception.
      The callee is noted beside the arguments. *)
  Definition request_of (c : pcall) : option (request (callable * gmap name (bvalue V)) V) :=
    let x := code (pc_callee c) in
    match bind_args probe_of is_inner (sig_of x) (pc_args c) (pc_kw c) with
    | None => None
    | Some b =>
        match filenames (ann_of x) b [] [] None with
        | None => None
        | Some (srcs, dsts, ret) =>
            Some (Request (call_name (pc_callee c)) (pc_callee c, b) (path <$> srcs) (path <$> dsts) (result_files ret))
        end
    end.
End Ann.
Arguments pcall V : clear implicits.
