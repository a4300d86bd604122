(** Properties of the order of object files (builders/nm.py: Nm.object_dependencies). *)
From Coq Require Import String Ascii List NArith Bool.
From Verif Require Import FnModel NmModel NmSpec NmFacts.
Import ListNotations.

Definition text (s : string) : str := map N_of_ascii (list_ascii_of_string s).

(** What is to be returned: each object once, left of the objects it needs. *)
Definition ordered (nm : str -> symbols) (objs l : list str) : Prop :=
  NoDup l /\ (forall o, In o l <-> In o objs) /\
  (forall o d, In o objs -> needs nm objs o d -> left_of o d l).

(** C57, the claim: given enough stack, a list is returned, and such a list if there is one. *)
Definition order_found : Prop :=
  forall nm objs, exists fuel l, object_dependencies nm fuel objs = Some l /\ (acyclic nm objs -> ordered nm objs l).

(** Two objects needing each other: the recursion exhausts every stack. *)
Definition a_o : str := text "a.o".
Definition b_o : str := text "b.o".
Definition c_o : str := text "c.o".
Definition mutual (o : str) : symbols :=
  if str_eqb o a_o then Symbols [text "f"] [text "g"] else Symbols [text "g"] [text "f"].
Lemma mutual_f fuel : f mutual fuel [a_o; b_o] a_o [] = None /\ f mutual fuel [a_o; b_o] b_o [] = None.
Proof.
  induction fuel as [|fuel [IHa IHb]]; [split; reflexivity|].
  split.
  - change (match f mutual fuel [a_o; b_o] b_o [] with None => None | Some acc => Some (acc ++ [a_o]) end = None).
    rewrite IHb. reflexivity.
  - change (match f mutual fuel [a_o; b_o] a_o [] with None => None | Some acc => Some (acc ++ [b_o]) end = None).
    rewrite IHa. reflexivity.
Qed.
Theorem C57_refuted : ~ order_found.
Proof.
  intros H. destruct (H mutual [a_o; b_o]) as (fuel & l & E & _). unfold object_dependencies in E. cbn [fold_left] in E.
  rewrite (proj1 (mutual_f fuel)) in E. discriminate.
Qed.

(** Without cycles: stack for one call per object suffices. *)
Theorem C57_order nm objs fuel :
  acyclic nm objs -> (length objs <= fuel)%nat ->
  exists l, object_dependencies nm fuel objs = Some l /\ ordered nm objs l.
Proof. intros Ha Hf. exact (dependencies_ok nm objs Ha fuel Hf). Qed.

(** An instance: a.o needs f of b.o and c.o (c.o is taken), b.o needs g of c.o. *)
Definition ex_nm (o : str) : symbols :=
  if str_eqb o a_o then Symbols [text "main"] [text "f"; text "puts"]
  else if str_eqb o b_o then Symbols [text "f"; text "h"] [text "g"; text "f"]
  else Symbols [text "f"; text "g"] [].
Lemma ex_needs o d : needs ex_nm [b_o; c_o; a_o] o d -> (o = a_o \/ o = b_o) /\ d = c_o \/ d = b_o /\ False.
Proof.
  intros [Hne (sym & Hs & Hp)]. apply definer_provides in Hp.
  unfold ex_nm in Hs. destruct (str_eqb o a_o) eqn:Ea; [|destruct (str_eqb o b_o) eqn:Eb].
  - apply PathFacts.str_eqb_true in Ea. simpl in Hs. destruct Hs as [<-|[<-|[]]]; vm_compute in Hp; [|discriminate].
    left. split; [left; exact Ea|]. injection Hp as <-. reflexivity.
  - apply PathFacts.str_eqb_true in Eb. simpl in Hs. destruct Hs as [<-|[<-|[]]]; vm_compute in Hp; injection Hp as <-;
      left; (split; [right; exact Eb|reflexivity]).
  - destruct Hs.
Qed.
Example C57_ex :
  acyclic ex_nm [b_o; c_o; a_o] /\ needs ex_nm [b_o; c_o; a_o] b_o c_o /\
  object_dependencies ex_nm 3 [b_o; c_o; a_o] = Some [a_o; b_o; c_o].
Proof.
  split; [|split; [|vm_compute; reflexivity]].
  - assert (forall o d, needs_path ex_nm [b_o; c_o; a_o] o d -> o <> c_o /\ d = c_o) as H.
    { induction 1 as [o d H|o d e H H2 IH].
      - destruct (ex_needs o d H) as [[Ho Hd]|[_ []]]. split; [|exact Hd].
        destruct Ho as [->| ->]; discriminate.
      - destruct (ex_needs o d H) as [[Ho Hd]|[_ []]]. split; [|exact (proj2 IH)].
        destruct Ho as [->| ->]; discriminate. }
    intros o Ho. destruct (H o o Ho). contradiction.
  - split; [discriminate|]. exists (text "g"). split; [left; reflexivity|]. apply definer_provides. reflexivity.
Qed.

Print Assumptions C57_refuted.
Print Assumptions C57_order.
