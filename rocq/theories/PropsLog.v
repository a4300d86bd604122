(** Properties of the log (console.py: Log). *)
From Coq Require Import List Bool Arith NArith Permutation.
From Verif Require Import LogModel LogSpec LogFacts.
Import ListNotations.

(** C51: with any interleaving, when a thread has left what it entered, each of its
    messages has arrived once. *)
Theorem C51_once one es s t :
  run one init es = Some s -> todo (threads s t) = [] -> depth 0 (calls t es) = Some 0 ->
  Permutation (arrived t (file_out s)) (written (calls t es)).
Proof. exact (log_once one es s t). Qed.

(** At any moment: what has arrived and what waits in a buffer or in a call is what
    was written. *)
Theorem C51_accounted one es s t :
  run one init es = Some s ->
  Permutation (arrived t (file_out s) ++
               flat_map (fun a => match a with MEmit m => [m] | MFlush => [] end) (todo (threads s t)) ++
               concat (stack (threads s t)))
              (written (calls t es)).
Proof. exact (log_accounted one es s t). Qed.

(** The terminal shows the messages that are not too verbose, the same way. *)
Theorem C51_console one es s t v :
  run one init es = Some s -> todo (threads s t) = [] -> depth 0 (calls t es) = Some 0 ->
  Permutation (arrived t (console_out v s)) (filter (fun m => Nat.leb (m_verbose m) v) (written (calls t es))).
Proof.
  intros H Ht Hd. pose proof (log_once one es s t H Ht Hd) as Hp.
  replace (arrived t (console_out v s)) with (filter (fun m => Nat.leb (m_verbose m) v) (arrived t (out s))).
  - clear -Hp. induction Hp as [|x l l' Hp IH|x y l|l1 l2 l3 H1 IH1 H2 IH2]; simpl.
    + constructor.
    + destruct (Nat.leb (m_verbose x) v); [constructor|]; exact IH.
    + destruct (Nat.leb (m_verbose x) v), (Nat.leb (m_verbose y) v); try reflexivity. constructor.
    + rewrite IH1. exact IH2.
  - unfold console_out, arrived. clear. induction (out s) as [|[u m] l IH]; [reflexivity|]. simpl.
    destruct (Nat.eqb u t) eqn:Eu, (Nat.leb (m_verbose m) v) eqn:Em; simpl; rewrite ?Eu, ?Em; simpl; rewrite ?IH; reflexivity.
Qed.

(** C51, order: the claim. *)
Definition keeps_order : Prop :=
  forall one es s t,
    run one init es = Some s -> todo (threads s t) = [] -> depth 0 (calls t es) = Some 0 ->
    arrived t (file_out s) = written (calls t es).

Definition ma : msg := Msg 1 false 0.
Definition mb : msg := Msg 2 false 0.
Definition mn : msg := Msg 3 true 0.

(** Writing a message of an inner buffer first empties the outer one, but after it. *)
Definition nested : list event :=
  [EStart 0 OEnter; EStart 0 (OWrite ma true); EStart 0 OEnter; EStart 0 (OWrite mb true);
   EStart 0 OExit; EMicro 0; EMicro 0; EMicro 0; EMicro 0; EMicro 0;
   EStart 0 OExit; EMicro 0].
Theorem C51_order_refuted : ~ keeps_order.
Proof.
  intros H. destruct (run false init nested) as [s|] eqn:E; [|vm_compute in E; discriminate].
  specialize (H false nested s 0 E). vm_compute in E. injection E as <-.
  specialize (H eq_refl eq_refl). vm_compute in H. discriminate.
Qed.

(** An unbuffered message overtakes the buffered ones. *)
Definition unbuffered : list event :=
  [EStart 0 OEnter; EStart 0 (OWrite ma true); EStart 0 (OWrite mb false);
   EMicro 0; EMicro 0; EMicro 0; EMicro 0; EStart 0 OExit; EMicro 0].
Theorem C51_order_refuted_unbuffered : ~ keeps_order.
Proof.
  intros H. destruct (run false init unbuffered) as [s|] eqn:E; [|vm_compute in E; discriminate].
  specialize (H false unbuffered s 0 E). vm_compute in E. injection E as <-.
  specialize (H eq_refl eq_refl). vm_compute in H. discriminate.
Qed.

(** With one thread configured, or with one level of buffering and no unbuffered
    messages within it, the order is kept. *)
Theorem C51_order_partial one es s t :
  run one init es = Some s -> todo (threads s t) = [] -> depth 0 (calls t es) = Some 0 ->
  one = true \/ simple false (calls t es) = true ->
  arrived t (file_out s) = written (calls t es).
Proof. exact (log_order one es s t). Qed.

(** An instance: two threads, one buffering; a line end stops the buffering. *)
Definition two : list event :=
  [EStart 0 OEnter; EStart 0 (OWrite ma true); EStart 1 (OWrite mb true); EStart 0 (OWrite mn true);
   EMicro 0; EMicro 0; EMicro 1; EMicro 0; EMicro 0; EMicro 1; EMicro 0; EStart 0 (OWrite mb true); EMicro 0; EMicro 0;
   EStart 0 OExit; EMicro 0].
Example C51_order_ex :
  exists s, run false init two = Some s /\ todo (threads s 0) = [] /\ depth 0 (calls 0 two) = Some 0 /\
    simple false (calls 0 two) = true /\ out s = [(0, ma); (1, mb); (0, mn); (0, mb)].
Proof.
  destruct (run false init two) as [s|] eqn:E; [|vm_compute in E; discriminate].
  exists s. split; [reflexivity|]. vm_compute in E. injection E as <-. repeat split; reflexivity.
Qed.

Print Assumptions C51_once.
Print Assumptions C51_accounted.
Print Assumptions C51_console.
Print Assumptions C51_order_refuted.
Print Assumptions C51_order_refuted_unbuffered.
Print Assumptions C51_order_partial.
