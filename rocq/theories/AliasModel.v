(** Model of the in-memory database's sharing of objects with the program:
    CacheBackend.find_call and save_call (lib/fbuild/db/cache_backend.py 137-191) store and
    return the very objects that are passed and returned, without copying
    (lib/fbuild/db/database.py 99-139, 184-190).
    Simplifications: functions do not change and have no files (the other models cover
    those); [stale] stands for any of the reasons to run a known call again. *)
From Coq Require Import List Bool Arith.
Import ListNotations.

(** Immutable values, and references to mutable objects (lists, dictionaries, records, ...). *)
Inductive value := VAtom (n : nat) | VRef (a : nat).
(** The objects, by address.  Creating an object is writing to an unused address. *)
Notation heap := (nat -> list value) (only parsing).
Definition write (h : heap) (a : nat) (c : list value) : nat -> list value := fun b => if Nat.eqb b a then c else h b.

(** The content of a value.  [d] is the depth Python can compare; beyond it, or on a cycle,
    == raises RecursionError. *)
Inductive tree := Atom (n : nat) | Node (l : list tree).
Fixpoint every {A} (l : list (option A)) : option (list A) :=
  match l with
  | [] => Some []
  | Some x :: l' => match every l' with Some r => Some (x :: r) | None => None end
  | None :: _ => None
  end.
Fixpoint content (d : nat) (h : heap) (v : value) : option tree :=
  match v with
  | VAtom n => Some (Atom n)
  | VRef a => match d with
              | 0 => None
              | S d' => match every (map (content d' h) (h a)) with Some l => Some (Node l) | None => None end
              end
  end.
Definition contents (d : nat) (h : heap) (l : list value) : option (list tree) := every (map (content d h) l).

(** The recorded calls (old_bound, old_result) of each function, in order. *)
Definition entry := (list value * value)%type.
Record db := DB {
  d_heap : nat -> list value;
  d_calls : nat -> list entry;
  (** calls being run: function, arguments, the index of the call when it is known, and
      (ghost) the content of the arguments when it began *)
  d_pending : list (nat * list value * option nat * option (list tree));
  (** ghost: completed runs (function, arguments at the beginning, result at the end) *)
  d_runs : list (nat * option (list tree) * option tree);
  (** ghost: hits *)
  d_hits : list (nat * option (list tree) * option tree);
}.
Inductive event :=
  | EWrite (a : nat) (c : list value)                       (* anyone modifies or creates an object *)
  | ECall (f : nat) (args : list value) (stale : bool)      (* Database.call *)
  | EReturn (r : value)                                     (* the innermost running call returns *)
  | ERaise.

Fixpoint tree_eqb (t u : tree) : bool :=
  match t, u with
  | Atom n, Atom m => Nat.eqb n m
  | Node l, Node k => (fix go l k := match l, k with
                                     | [], [] => true
                                     | x :: l', y :: k' => tree_eqb x y && go l' k'
                                     | _, _ => false
                                     end) l k
  | _, _ => false
  end.
Fixpoint trees_eqb (l k : list tree) : bool :=
  match l, k with
  | [], [] => true
  | x :: l', y :: k' => tree_eqb x y && trees_eqb l' k'
  | _, _ => false
  end.
Inductive found := Found (i : nat) (r : value) | NotFound | Recursion.
(** find_call, 150-155: bound == old_bound compares what the objects contain now. *)
Fixpoint find (d : nat) (h : heap) (args : list value) (i : nat) (l : list entry) : found :=
  match l with
  | [] => NotFound
  | (args', r) :: l' =>
      match contents d h args, contents d h args' with
      | Some x, Some y => if trees_eqb x y then Found i r else find d h args (S i) l'
      | _, _ => Recursion
      end
  end.
Fixpoint replace {A} (i : nat) (x : A) (l : list A) : list A :=
  match l with [] => [] | y :: l' => match i with 0 => x :: l' | S i' => y :: replace i' x l' end end.
Definition upd (c : nat -> list entry) (f : nat) (l : list entry) : nat -> list entry := fun g => if Nat.eqb g f then l else c g.

Definition step (d : nat) (s : db) (e : event) : db :=
  let '(DB h c p rs hs) := s in
  match e with
  | EWrite a x => DB (write h a x) c p rs hs
  | ECall f args stale =>
      let push i := DB h c ((f, args, i, contents d h args) :: p) rs hs in
      match find d h args 0 (c f) with
      | Found i r => if stale then push (Some i) else DB h c p rs ((f, contents d h args, content d h r) :: hs)
      | NotFound => push None
      | Recursion => s
      end
  | EReturn r =>
      match p with
      | (f, args, i, before) :: p' =>
          (* save_call, 159-191 *)
          DB h (upd c f (match i with None => c f ++ [(args, r)] | Some i => replace i (args, r) (c f) end)) p'
             ((f, before, content d h r) :: rs) hs
      | [] => s
      end
  | ERaise => DB h c (tl p) rs hs
  end.
Definition start : db := DB (fun _ => []) (fun _ => []) [] [] [].
Definition after (d : nat) (l : list event) : db := fold_left (step d) l start.
