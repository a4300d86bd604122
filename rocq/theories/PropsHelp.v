(** C94: targets are found by the name they were last registered by, and the help lists them. *)
From Coq Require Import List NArith Bool Arith Lia Sorted.
From Verif Require Import FnModel FnFacts GccSpec HelpModel HelpSpec HelpFacts.
Import ListNotations.
Open Scope nat_scope.

(** A name stands for the last registration of it, and names that were not registered for nothing. *)
Definition C94_find_claim : Prop :=
  forall regs n,
  (forall r, latest regs n r ->
   exists t, find (script regs) n = Some t /\ t_function t = r_fn r /\ t_name t = n) /\
  ((forall r, In r regs -> ~ called r n) -> find (script regs) n = None).
Theorem C94_find : C94_find_claim.
Proof.
  intros regs n. split.
  - intros r H. exists (reg_target r). split; [apply find_latest; exists r; tauto|]. split; [reflexivity|].
    destruct H as (l1 & l2 & _ & Hc & _). apply called_name in Hc. subst n. reflexivity.
  - intros H. destruct (find (script regs) n) as [t|] eqn:E; [|reflexivity].
    apply find_latest in E. destruct E as (r & (l1 & l2 & -> & Hc & _) & _). exfalso. apply (H r); [|exact Hc].
    apply in_or_app. right. left. reflexivity.
Qed.
(** The decorator returns the function. *)
Definition C94_same_claim : Prop := forall d f n h, snd (register d f n h) = f.
Theorem C94_same : C94_same_claim.
Proof. intros d f n h. reflexivity. Qed.

(** The help is a table: one row for every name, in alphabetical order, with the description of its last
    registration, and the descriptions all in the first column that is right of all names. *)
Definition C94_help_claim : Prop :=
  forall regs, exists (w : nat) (rows : list (str * str)) (lines : list str),
  (rows = [] -> help_string (script regs) = []) /\
  (rows <> [] -> help_string (script regs) ++ [10%N] = flat_map (fun l => l ++ [10%N]) lines) /\
  Forall2 (fun p line => row w (fst p) (snd p) line) rows lines /\
  alphabetical (map fst rows) /\
  (forall n h, In (n, h) rows <-> exists r, latest regs n r /\ described r h) /\
  (regs <> [] -> exists n h, In (n, h) rows /\ length n = w) /\
  (Forall (fun p => one_line (fst p) /\ one_line (snd p)) rows -> rows <> [] -> text_lines (help_string (script regs)) = lines).
Theorem C94_help : C94_help_claim.
Proof.
  intros regs. set (ts := sorted_by (map snd (script regs))).
  set (w := list_max (map (fun t => length (t_name t)) ts)).
  exists w, (map (fun t => (t_name t, help_of t)) ts), (map (help_line w) ts).
  assert (Hin : forall t, In t ts <-> exists n r, latest regs n r /\ t = reg_target r).
  { intros t. unfold ts. rewrite sorted_by_in. split.
    - intros H. apply in_map_iff in H as ([n u] & Hu & Hi). simpl in Hu. subst u.
      exists n. apply find_latest. apply find_in; [apply script_keyed|exact Hi].
    - intros (n & Hr). apply find_latest in Hr. apply find_in in Hr; [|apply script_keyed].
      apply in_map_iff. exists (n, t). tauto. }
  assert (Hrows : Forall2 (fun p line => row w (fst p) (snd p) line) (map (fun t => (t_name t, help_of t)) ts) (map (help_line w) ts)).
  { assert (K : forall l, (forall t, In t l -> In t ts) -> Forall2 (fun p line => row w (fst p) (snd p) line) (map (fun t => (t_name t, help_of t)) l) (map (help_line w) l)).
    { induction l as [|t l IH]; intros H; simpl; constructor.
      - apply help_line_row. unfold w. apply list_max_bound. apply (in_map (fun t => length (t_name t))). apply H. left. reflexivity.
      - apply IH. intros u Hu. apply H. right. exact Hu. }
    apply K. tauto. }
  assert (Hh : help_string (script regs) = join_lines (map (help_line w) ts)).
  { unfold help_string. fold ts. fold w. destruct ts; reflexivity. }
  split. { intros K. apply map_eq_nil in K. rewrite Hh, K. reflexivity. }
  split. { intros K. rewrite Hh. apply join_ends. intros E. apply map_eq_nil in E. apply K. rewrite E. reflexivity. }
  split; [exact Hrows|]. split.
  { rewrite map_map. simpl. apply sorted_by_alpha. apply script_keyed. }
  split; [|split].
  - intros n h. rewrite in_map_iff. split.
    + intros (t & [= <- <-] & Ht). apply Hin in Ht as (n & r & Hl & ->). exists r.
      assert (n = reg_name r) as -> by (destruct Hl as (l1 & l2 & _ & Hc & _); apply called_name; exact Hc).
      split; [exact Hl|]. apply described_help. reflexivity.
    + intros (r & Hl & Hd). exists (reg_target r). apply described_help in Hd. subst h.
      split; [|apply Hin; exists n, r; tauto]. destruct Hl as (l1 & l2 & _ & Hc & _). apply called_name in Hc. subst n. reflexivity.
  - intros Hne. assert (Hw : In w (map (fun t => length (t_name t)) ts)).
    { apply list_max_attained. destruct regs as [|r0 regs0 _] using rev_ind; [congruence|].
      assert (In (reg_target r0) ts) as Hr.
      { apply Hin. exists (reg_name r0), r0. split; [|reflexivity]. exists regs0, []. split; [reflexivity|].
        split; [apply called_name; reflexivity|]. intros r' []. }
      intros K. apply map_eq_nil in K. rewrite K in Hr. destruct Hr. }
    apply in_map_iff in Hw as (t & Hlen & Ht). exists (t_name t), (help_of t). split; [|exact Hlen].
    apply in_map_iff. exists t. tauto.
  - intros Hone Hne. rewrite Hh. apply lines_join.
    + intros K. apply Hne. apply map_eq_nil in K. rewrite K. reflexivity.
    + clear - Hrows Hone. induction Hrows as [|p line ps ls Hr Hrs IH]; constructor.
      * inversion_clear Hone as [|? ? [H1 H2] _]. apply (row_one_line w (fst p) (snd p)); assumption.
      * apply IH. inversion_clear Hone. assumption.
Qed.

(** FALSE: every line of the help describes a target; descriptions of several lines, which most
    docstrings are, are copied as they are. *)
Definition C94_lines_claim : Prop :=
  forall regs, regs <> [] -> forall line, In line (text_lines (help_string (script regs))) ->
  exists w n h r, row w n h line /\ latest regs n r.
Theorem C94_lines_refuted : ~ C94_lines_claim.
Proof.
  intros H. set (r := Reg (Fn 1 [98%N] (Some [120%N; 10%N; 121%N])) None None).
  destruct (H [r] ltac:(discriminate) [121%N]) as (w & n & h & r' & (k & _ & E) & _); [|discriminate E].
  right. left. reflexivity.
Qed.

(** Example: a target registered again, and one with a name of its own. *)
Definition chars (l : list nat) : str := map N.of_nat l.
Definition r_build : registration := Reg (Fn 1 (chars [98; 117; 105; 108; 100]) (Some (chars [111; 108; 100]))) None None.
Definition r_build2 : registration := Reg (Fn 2 (chars [98; 117; 105; 108; 100]) (Some (chars [97]))) None (Some (chars [110; 101; 119])).
Definition r_all : registration := Reg (Fn 3 (chars [120]) None) (Some (chars [97; 108; 108])) None.
(** "  all  \t\n  build\tnew" *)
Example C94_example :
  help_string (script [r_build; r_all; r_build2]) =
  chars [32; 32; 97; 108; 108; 32; 32; 9; 10; 32; 32; 98; 117; 105; 108; 100; 9; 110; 101; 119] /\
  option_map t_function (find (script [r_build; r_all; r_build2]) (chars [98; 117; 105; 108; 100])) = Some (r_fn r_build2) /\
  find (script [r_build; r_all; r_build2]) (chars [120]) = None /\
  latest [r_build; r_all; r_build2] (chars [98; 117; 105; 108; 100]) r_build2 /\
  text_lines (help_string (script [r_build; r_all; r_build2])) =
  [chars [32; 32; 97; 108; 108; 32; 32; 9]; chars [32; 32; 98; 117; 105; 108; 100; 9; 110; 101; 119]].
Proof.
  split; [reflexivity|]. split; [reflexivity|]. split; [reflexivity|]. split; [|reflexivity].
  exists [r_build; r_all], []. split; [reflexivity|]. split; [apply (called_function r_build2); reflexivity|]. intros r' [].
Qed.

Print Assumptions C94_find.
Print Assumptions C94_same.
Print Assumptions C94_help.
Print Assumptions C94_lines_refuted.
