(** What is registered, and a table of it. *)
From Coq Require Import List NArith Bool Arith.
From Verif Require Import FnModel GccSpec HelpModel.
Import ListNotations.
Open Scope nat_scope.

(** A use of @register(name=..., help=...). *)
Record registration := Reg { r_fn : fn; r_given : option str; r_text : option str }.
(** The name and the description of the target. *)
Inductive called (r : registration) : str -> Prop :=
  | called_given n : r_given r = Some n -> called r n
  | called_function : r_given r = None -> called r (f_name (r_fn r)).
Inductive described (r : registration) : str -> Prop :=
  | described_given h : r_text r = Some h -> described r h
  | described_doc h : r_text r = None -> f_doc (r_fn r) = Some h -> described r h
  | described_not : r_text r = None -> f_doc (r_fn r) = None -> described r [].
(** [r] is the last registration of the name [n]. *)
Definition latest (regs : list registration) (n : str) (r : registration) : Prop :=
  exists l1 l2, regs = l1 ++ r :: l2 /\ called r n /\ forall r', In r' l2 -> ~ called r' n.

(** A script that registers targets one after another. *)
Definition script (regs : list registration) : targets :=
  fold_left (fun d r => fst (register d (r_fn r) (r_given r) (r_text r))) regs [].

(** A row of the table: two blanks, the name, blanks up to the column [w], a tab, the description. *)
Definition row (w : nat) (n h line : str) : Prop :=
  exists k, length n + k = w /\ line = [32; 32]%N ++ n ++ repeat 32%N k ++ [9%N] ++ h.

(** The lines of a text. *)
Fixpoint text_lines (s : str) : list str :=
  match s with
  | [] => [[]]
  | c :: s' => if N.eqb c 10 then [] :: text_lines s'
               else match text_lines s' with [] => [[c]] | l :: ls => (c :: l) :: ls end
  end.
Definition one_line (s : str) : Prop := ~ In 10%N s.
