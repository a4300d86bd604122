(** What the statements of a class body bind, for [PropsConf]. *)
From stdpp Require Import base list strings gmap sorting.
From Coq Require Import Lia.
From Verif Require Import ConfModel.

Definition no_del (body : list stmt) : Prop := forall k, SDel k ∉ body.
(** The last statement about [k] binds it to [b]. *)
Definition binds (body : list stmt) (k : string) (b : binding) : Prop :=
  exists l1 l2, body = l1 ++ SSet k b :: l2 /\ forall b', SSet k b' ∉ l2.
Definition names_in (body : list stmt) (k : string) : Prop := exists b, SSet k b ∈ body.
(** The first statement about [k] is the [n]th one. *)
Definition first_at (body : list stmt) (k : string) (n : nat) : Prop :=
  (exists b, body !! n = Some (SSet k b)) /\ forall m b, m < n -> body !! m <> Some (SSet k b).
Definition before (body : list stmt) (k1 k2 : string) : Prop :=
  exists n1 n2, first_at body k1 n1 /\ first_at body k2 n2 /\ n1 < n2.
(** A field: a test or a method decorated with cacheproperty. *)
Definition is_field (b : binding) : bool := match b with BValue _ => false | _ => true end.
(** A module in which every class has one base class and nothing is deleted in a class body; the
    name namespace is for namespaces. *)
Definition plain (p : list class_stmt) : Prop :=
  forall c, c ∈ p -> (exists b, cs_bases c = [b]) /\ no_del (cs_body c) /\
    forall b, SSet "namespace" b ∈ cs_body c -> is_field b = false.
