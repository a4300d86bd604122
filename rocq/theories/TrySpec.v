(** What is expected of tries. *)
From Coq Require Import List NArith Bool Arith.
From Verif Require Import FnModel PathModel TryModel.
Import ListNotations.
Open Scope N_scope.

(** *** The text that is compiled *)
Definition white (c : N) : Prop := c = 32 \/ c = 9.
Fixpoint unlines (ls : list str) : str :=
  match ls with [] => [] | [l] => l | l :: ls' => l ++ 10 :: unlines ls' end.
(** Lines of white space only become empty; all other lines lose the same white space, which is the
    longest that all of them begin with. *)
Definition dedented (code out : str) : Prop :=
  exists ls os m,
    ls <> [] /\ code = unlines ls /\ (forall l, In l ls -> ~ In 10 l) /\ out = unlines os /\
    Forall2 (fun l o => (Forall white l /\ o = []) \/ (~ Forall white l /\ l = m ++ o)) ls os /\
    Forall white m /\
    (forall m', Forall white m' -> (exists l, In l ls /\ ~ Forall white l) ->
      (forall l, In l ls -> ~ Forall white l -> exists o, l = m' ++ o) -> exists w, m = m' ++ w).

(** *** What a try answers: what comes out of compiling, linking and running this text. *)
Definition expected (k : try) (text : str) : str + exc :=
  match k_cc k (Some text) with
  | Failed e _ => inr e
  | Ok obj =>
      match k_kind k with
      | KCompile => inl obj
      | _ =>
          match k_ld k (Some obj) with
          | Failed e _ => inr e
          | Ok exe =>
              match k_kind k with
              | KRun => match k_exec k (Some exe) with Failed e _ => inr e | Ok out => inl out end
              | _ => inl exe
              end
          end
      end
  end.

(** Names of files in directories. *)
Definition good_name (n : str) : Prop := n <> [] /\ ~ In 47 n /\ n <> [46] /\ n <> [46; 46].
(** Suffixes and prefixes have no slash. *)
Definition plain (k : try) : Prop :=
  ~ In 47 (k_src_suffix k) /\ ~ In 47 (k_obj_suffix k) /\ ~ In 47 (k_prefix k) /\ ~ In 47 (k_suffix k).
(** An absolute path without special names. *)
Fixpoint slashed (ns : list str) : str := match ns with [] => [] | n :: ns' => 47 :: n ++ slashed ns' end.
Definition full_path (root : str) : Prop := exists ns, ns <> [] /\ Forall good_name ns /\ root = slashed ns.
