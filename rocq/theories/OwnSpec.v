(** What is expected of programs and libraries made of several sources. *)
From Coq Require Import List NArith Bool Arith.
From Verif Require Import FnModel PathModel PathSpec GccModel TryModel TrySpec OwnModel.
Import ListNotations.
Open Scope N_scope.

(** *** Paths without special names *)
Fixpoint joined (ns : list str) : str :=
  match ns with [] => [] | [n] => n | n :: ns' => n ++ 47 :: joined ns' end.
Definition relative (p : str) (ns : list str) : Prop := ns <> [] /\ Forall good_name ns /\ p = joined ns.
(** What is kept of a source: all names of a relative path, the last of an absolute one. *)
Definition kept (p : str) (ns : list str) (n : str) : Prop :=
  relative p (ns ++ [n]) \/
  (ns = [] /\ good_name n /\ exists ms, Forall good_name ms /\ p = slashed (ms ++ [n])).
(** [r] is [n] without its extension. *)
Definition stem (n r : str) : Prop := exists e, is_ext n r e.

(** *** Which calls get along *)
Definition no_prefix {A} (a b : list A) : Prop := forall r, b <> a ++ r.
Definition no_suffix {A} (a b : list A) : Prop := forall r, b <> r ++ a.
Definition obj_dir : str := [111; 98; 106].        (* obj *)

(** A call by itself: a destination in the build root, not in its directory obj; no slashes in suffixes and
    prefixes; sources that differ also without their extensions. *)
Record tidy (root : str) (b : build) : Prop := Tidy {
  td_dst : exists ds, relative (b_dst b) ds /\ hd [] ds <> obj_dir;
  td_outside : no_prefix root (b_dst b);
  td_plain : ~ In 47 (b_osuffix b) /\ ~ In 47 (b_prefix b) /\ ~ In 47 (b_lsuffix b);
  td_kept : forall p, In p (b_srcs b) -> exists ns n, kept p ns n;
  td_srcs : forall p, In p (b_srcs b) -> no_prefix (obj_root root b) p;
  td_distinct : forall i j p q ns n m r, i <> j -> nth_error (b_srcs b) i = Some p -> nth_error (b_srcs b) j = Some q ->
    kept p ns n -> kept q ns m -> stem n r -> ~ stem m r
}.
(** Two calls: none of the destinations is below the other, or the names of the objects end differently;
    and the products are different. *)
Definition product_names (b : build) (ds : list str) (n : str) : Prop :=
  exists m, relative (b_dst b) (ds ++ [m]) /\ n = b_prefix b ++ m ++ b_lsuffix b.
Record get_along (b c : build) : Prop := GetAlong {
  ga_objects : (forall ds es, relative (b_dst b) ds -> relative (b_dst c) es -> no_prefix ds es /\ no_prefix es ds) \/
    (no_suffix (b_osuffix b) (b_osuffix c) /\ no_suffix (b_osuffix c) (b_osuffix b));
  ga_products : forall ds n, product_names b ds n -> ~ product_names c ds n
}.
(** Sources and given objects are neither below the directory of objects nor products. *)
Definition apart_inputs (cwd root : str) (bs : list build) : Prop :=
  forall b p, In b bs -> In p (b_srcs b) \/ In p (b_objs b) ->
    no_prefix (place cwd root ++ [obj_dir]) (place cwd p) /\
    forall c ds n, In c bs -> product_names c ds n -> place cwd p <> place cwd root ++ ds ++ [n].
Record harmonious (cwd root : str) (bs : list build) : Prop := Harmonious {
  hm_cwd : isabs cwd = true;
  hm_tidy : forall b, In b bs -> tidy root b;
  hm_along : forall m n b c, m <> n -> nth_error bs m = Some b -> nth_error bs n = Some c -> get_along b c;
  hm_inputs : apart_inputs cwd root bs
}.

(** What was in the place of the product before does not matter: neither what was there at first, nor what
    the same command made. *)
Definition afresh (root dep : str) (f : files) (cwd : str) (b : build) : Prop :=
  let ld := b_ld b (fst (linked root dep b)) in
  (forall ins, ld (f (prodp cwd root dep b)) ins = ld None ins) /\
  (forall ins x ins', ld None ins = Some x -> ld (Some x) ins' = ld None ins').

(** *** What a call makes: every source is compiled by itself, and the given objects and these are linked. *)
Definition contents (cwd : str) (f : files) (p : str) : option str := f (place cwd p).
Definition own_objects (root dep cwd : str) (b : build) (f : files) : list (option str) :=
  map (fun p => b_cc b (fst (compiled root dep b p)) (contents cwd f p)) (b_srcs b).
Definition own_product (root dep cwd : str) (b : build) (f : files) : option str :=
  b_ld b (fst (linked root dep b)) None (map (contents cwd f) (b_objs b) ++ own_objects root dep cwd b f).
