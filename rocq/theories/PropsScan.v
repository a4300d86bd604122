(** C54: dependency scanning.  [tc R] is reachability by one or more steps of R. *)
From stdpp Require Import base list gmap relations.
From Coq Require Import Lia.
From Verif Require Import ScanModel ScanFacts.

(** The native scan: given stack for one frame per reachable file, it answers, and with
    exactly the reachable files; the graph may have cycles. *)
Theorem C54_exact {F} `{Countable F} (source_dependencies : F -> list F) depth src (V : gset F) :
  (forall d, tc (fun x y => y ∈ source_dependencies x) src d -> d ∈ V) -> size V < depth ->
  exists r, native_scan source_dependencies depth src = Some r /\
    forall d, d ∈ r <-> tc (fun x y => y ∈ source_dependencies x) src d.
Proof. exact (native_scan_ok source_dependencies depth src V). Qed.

(** No answer is wrong, whatever the stack. *)
Theorem C54_sound {F} `{Countable F} (source_dependencies : F -> list F) depth src r :
  native_scan source_dependencies depth src = Some r ->
  forall d, d ∈ r <-> tc (fun x y => y ∈ source_dependencies x) src d.
Proof. exact (native_exact source_dependencies depth src r). Qed.

(** The bytecode builder's scan of the same graph has no set of visited files: it answers
    exactly when no path is as long as the stack, so never when a cycle is reachable. *)
Definition C54_bytecode : Prop := forall (source_dependencies : nat -> list nat) (V : gset nat) src,
  (forall d, tc (fun x y => y ∈ source_dependencies x) src d -> d ∈ V) ->
  exists depth r, byte_scan source_dependencies (fun b => b) (fun _ => false) depth src = Some r.
Definition ex_cycle (n : nat) : list nat := match n with 0 => [1; 2] | 1 => [2] | 2 => [1; 3] | _ => [] end.
Lemma ex_cycle_in d : tc (fun x y => y ∈ ex_cycle x) 0 d -> d ∈ ({[1; 2; 3]} : gset nat).
Proof.
  intros Ht. assert (forall x y, tc (fun x y => y ∈ ex_cycle x) x y -> y ∈ ({[1; 2; 3]} : gset nat)) as Hall; [|eauto].
  intros x y Hxy. induction Hxy as [x y Hxy|]; [|done]. destruct x as [|[|[|x]]]; cbn in Hxy; set_solver.
Qed.
Theorem C54_bytecode_refuted : ~ C54_bytecode.
Proof.
  intros HC. destruct (HC ex_cycle {[1; 2; 3]} 0 ex_cycle_in) as (depth & r & Hr).
  rewrite (byte_cycle ex_cycle (fun b => b) (fun _ => false) 0 1) in Hr; [done| |].
  - apply rtc_once. unfold chosen. vm_compute. left.
  - apply tc_l with 2; [|apply tc_once]; unfold chosen; vm_compute; left.
Qed.

(** What it returns when it does: of the dependencies of each file one for each base name,
    an interface if there is one, and theirs. *)
Definition chosen_from {F} `{Countable F} (source_dependencies : F -> list F) (base : F -> F) (is_mli : F -> bool)
    (choice : F -> F -> Prop) : Prop := forall x,
  (forall y, choice x y -> y ∈ source_dependencies x) /\
  (forall y, y ∈ source_dependencies x -> exists z, choice x z /\ base z = base y) /\
  (forall y z, choice x y -> choice x z -> base y = base z -> y = z) /\
  (forall y z, y ∈ source_dependencies x -> is_mli y = true -> choice x z -> base z = base y -> is_mli z = true).
Theorem C54_bytecode_partial {F} `{Countable F} (source_dependencies : F -> list F) base is_mli :
  exists choice, chosen_from source_dependencies base is_mli choice /\
    forall depth src,
      (byte_scan source_dependencies base is_mli depth src = None <-> exists y, nsteps choice depth src y) /\
      (forall r, byte_scan source_dependencies base is_mli depth src = Some r ->
         forall d, d ∈ r <-> tc choice src d).
Proof.
  exists (chosen source_dependencies base is_mli). split.
  - intros x. split; [|split; [|split]].
    + intros y. exact (chosen_iff_edge source_dependencies base is_mli x y).
    + intros y. exact (chosen_each source_dependencies base is_mli x y).
    + intros y z. exact (chosen_one source_dependencies base is_mli x y z).
    + intros y z. exact (chosen_mli source_dependencies base is_mli x y z).
  - intros depth src. split.
    + exact (byte_fails source_dependencies base is_mli depth src).
    + exact (byte_exact source_dependencies base is_mli depth src).
Qed.

(** Instances: the cyclic graph above, and an acyclic one with an interface (3 of base 1). *)
Example C54_exact_ex :
  (forall d, tc (fun x y => y ∈ ex_cycle x) 0 d -> d ∈ ({[1; 2; 3]} : gset nat)) /\
  size ({[1; 2; 3]} : gset nat) < 4 /\ native_scan ex_cycle 4 0 = Some {[1; 2; 3]}.
Proof.
  split; [exact ex_cycle_in|]. split; [vm_compute; lia|].
  apply (bool_decide_unpack _). vm_compute. exact I.
Qed.
Definition ex_dag (n : nat) : list nat := match n with 0 => [1; 2; 3] | 3 => [2] | 1 => [4] | _ => [] end.
Example C54_bytecode_ex :
  byte_scan ex_dag (fun n => if decide (n = 3) then 1 else n) (fun n => bool_decide (n = 3)) 3 0 = Some {[2; 3]} /\
  native_scan ex_dag 5 0 = Some {[1; 2; 3; 4]}.
Proof. split; apply (bool_decide_unpack _); vm_compute; exact I. Qed.

Print Assumptions C54_exact.
Print Assumptions C54_sound.
Print Assumptions C54_bytecode_refuted.
Print Assumptions C54_bytecode_partial.
