(** Model of lib/fbuild/builders/ocaml/__init__.py: the scan of native builders (741-758)
    and of bytecode builders (651-670).  What ocamldep says of a file is a function of
    the file.  None: the stack (RecursionError) is exhausted. *)
From stdpp Require Import base list gmap.

Section Scan.
  Context {F : Type} `{Countable F}.
  Context (source_dependencies : F -> list F).

  (** ocaml/__init__.py:746-758; [deps] is the set of f's closure. *)
  Fixpoint native_f (depth : nat) (deps : gset F) (src : F) : option (gset F) :=
    match depth with
    | O => None
    | S depth' =>
        (fix loop (ds : list F) (deps : gset F) : option (gset F) :=
           match ds with
           | [] => Some deps
           | d :: ds' =>
               if decide (d ∈ deps) then loop ds' deps
               else match native_f depth' ({[ d ]} ∪ deps) d with
                    | Some deps => loop ds' deps
                    | None => None
                    end
           end) (source_dependencies src) deps
    end.
  Definition native_scan (depth : nat) (src : F) : option (gset F) := native_f depth ∅ src.

  (** The file's name without extension, and whether it is an interface. *)
  Context (base : F -> F) (is_mli : F -> bool).

  (** ocaml/__init__.py:656-662: one file for each base, the first one or the last
      interface; a dictionary keeps the order of first insertion. *)
  Fixpoint put (l : list (F * F)) (b d : F) : list (F * F) :=
    match l with
    | [] => [(b, d)]
    | (b', d') :: l' => if decide (b' = b) then (b, d) :: l' else (b', d') :: put l' b d
    end.
  Definition lookup_of (ds : list F) : list (F * F) :=
    fold_left (fun l d =>
      if is_mli d || negb (bool_decide (base d ∈ l.*1)) then put l (base d) d else l) ds [].

  (** ocaml/__init__.py:664-670 *)
  Fixpoint byte_scan (depth : nat) (src : F) : option (gset F) :=
    match depth with
    | O => None
    | S depth' =>
        (fix loop (ds : list F) (deps : gset F) : option (gset F) :=
           match ds with
           | [] => Some deps
           | d :: ds' =>
               match byte_scan depth' d with
               | Some s => loop ds' (s ∪ ({[ d ]} ∪ deps))
               | None => None
               end
           end) ((lookup_of (source_dependencies src)).*2) ∅
    end.
End Scan.
