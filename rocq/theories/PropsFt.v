(** C101: the programs of configuration tests and what is read from their output. *)
From Coq Require Import List ZArith Bool String Ascii DecimalString DecimalNat DecimalZ DecimalPos Lia.
From Verif Require Import CmpModel FtModel FtSpec.
Import ListNotations.
Open Scope string_scope.

Lemma sapp_assoc a : forall b c, (a ++ b) ++ c = a ++ (b ++ c).
Proof. induction a as [|x a IH]; intros b c; cbn; [reflexivity|]. rewrite IH. reflexivity. Qed.
Lemma sapp_nil a : a ++ "" = a.
Proof. induction a as [|x a IH]; cbn; [reflexivity|]. rewrite IH. reflexivity. Qed.
Lemma one_line_app a b : one_line (a ++ b) <-> one_line a /\ one_line b.
Proof. induction a as [|x a IH]; cbn; [tauto|]. rewrite IH. tauto. Qed.
Lemma lines_from_line l : forall cur s, one_line l -> lines_from cur (l ++ newline ++ s) = (cur ++ l) :: lines s.
Proof.
  induction l as [|x l IH]; intros cur s H; cbn.
  - rewrite sapp_nil. reflexivity.
  - destruct H as [H1 H2]. destruct (Ascii.eqb_spec x "010"%char) as [->|_]; [destruct (H1 eq_refl)|].
    fold newline. change (String "010"%char s) with (newline ++ s). rewrite (IH (cur ++ String x "") s H2), sapp_assoc. reflexivity.
Qed.
Lemma lines_line l s : one_line l -> lines (l ++ newline ++ s) = l :: lines s.
Proof. intros H. unfold lines at 1. rewrite lines_from_line by exact H. reflexivity. Qed.
Lemma lines_template ls : Forall one_line ls -> lines (template ls) = (ls ++ [""])%list.
Proof. induction 1 as [|l ls H _ IH]; [reflexivity|]. cbn [template]. rewrite lines_line, IH by exact H. reflexivity. Qed.
Lemma lines_joined l s : l <> [] -> Forall one_line l ->
  lines (("    " ++ join (newline ++ "    ") l) ++ newline ++ s) = List.app (map (fun x => "    " ++ x) l) (lines s).
Proof.
  intros N H. destruct l as [|a l]; [destruct (N eq_refl)|]. clear N. revert a H. induction l as [|b l IH]; intros a H.
  - cbn [join map app]. inversion H. apply lines_line. apply one_line_app. split; [cbn; repeat split; discriminate|assumption].
  - inversion H as [|? ? Ha Hl]. subst. change (join (newline ++ "    ") (a :: b :: l)) with (a ++ (newline ++ "    ") ++ join (newline ++ "    ") (b :: l)).
    replace (("    " ++ a ++ (newline ++ "    ") ++ join (newline ++ "    ") (b :: l)) ++ newline ++ s)
      with (("    " ++ a) ++ newline ++ (("    " ++ join (newline ++ "    ") (b :: l)) ++ newline ++ s)) by (rewrite !sapp_assoc; reflexivity).
    rewrite lines_line, (IH b Hl) by (apply one_line_app; split; [cbn; repeat split; discriminate|exact Ha]). reflexivity.
Qed.
Lemma lines_indented l s : Forall one_line l ->
  lines (("    " ++ join (newline ++ "    ") l) ++ newline ++ s) = List.app (map (fun x => "    " ++ x) (line_of l)) (lines s).
Proof.
  intros H. destruct l as [|a l]; [reflexivity|]. cbn [line_of]. apply lines_joined; [discriminate|exact H].
Qed.
Lemma include_line h : (match h with Some h => one_line h | None => True end) -> one_line (include h) /\ line_of (included h) = [include h].
Proof. destruct h as [h|]; cbn -[one_line]; [|intros _; split; [exact I|reflexivity]]. intros H. split; [|reflexivity]. change (one_line ("#include <" ++ h ++ ">")).
  rewrite !one_line_app. split; [cbn; repeat split; discriminate|]. split; [exact H|cbn; repeat split; discriminate]. Qed.

Lemma uint_one_line d : one_line (NilEmpty.string_of_uint d).
Proof. induction d; cbn; try (split; [discriminate|assumption]). exact I. Qed.
Lemma number_one_line i : one_line (number i).
Proof. unfold number, NilZero.string_of_uint. destruct (Nat.to_uint i) eqn:E; [cbn; split; [discriminate|exact I]|..]; apply uint_one_line. Qed.
Lemma uint_nonnil i : Nat.to_uint i <> Decimal.Nil.
Proof.
  intros E. pose proof (DecimalNat.Unsigned.of_to i) as H. rewrite E in H. cbn in H. subst i. discriminate E.
Qed.
Lemma number_inj i j : number i = number j -> i = j.
Proof.
  intros H. unfold number in H. apply DecimalNat.Unsigned.to_uint_inj.
  assert (Some (Nat.to_uint i) = Some (Nat.to_uint j)) as K; [|injection K; auto].
  rewrite <- (NilZero.usu (Nat.to_uint i)), <- (NilZero.usu (Nat.to_uint j)), H; [reflexivity|apply uint_nonnil|apply uint_nonnil].
Qed.

Definition one_lines (l : list string) : Prop := Forall one_line l.
Definition one_line_header (h : option string) : Prop := match h with Some h => one_line h | None => True end.
Lemma arguments_wanted types : forall i,
  arguments i types = map (fun p => variable (fst p)) (filter (fun p => negb (snd p =? "void")) (counted i types)).
Proof. induction types as [|t types IH]; intros i; cbn [arguments counted filter]; [reflexivity|]. cbn [snd]. rewrite IH. destruct (t =? "void"); reflexivity. Qed.
Lemma definitions_wanted types : forall i,
  definitions i types = map (fun p => snd p ++ " " ++ variable (fst p) ++ ";") (filter (fun p => negb (snd p =? "void")) (counted i types)).
Proof. induction types as [|t types IH]; intros i; cbn [definitions counted filter]; [reflexivity|]. cbn [snd]. rewrite IH. destruct (t =? "void"); reflexivity. Qed.
Lemma join_commas l : join ", " l = commas l.
Proof.
  destruct l as [|a l]; [reflexivity|]. unfold commas. revert a. induction l as [|b l IH]; intros a.
  - cbn [fold_right]. rewrite sapp_nil. reflexivity.
  - change (join ", " (a :: b :: l)) with (a ++ ", " ++ join ", " (b :: l)). rewrite IH. cbn [fold_right]. reflexivity.
Qed.
Lemma commas_one_line l : one_lines l -> one_line (commas l).
Proof.
  intros [|a l' H H']; [exact I|]. unfold commas. apply one_line_app. split; [exact H|]. induction H' as [|b l' Hb _ IH]; cbn [fold_right]; [exact I|].
  rewrite !one_line_app. split; [cbn; repeat split; discriminate|]. split; assumption.
Qed.
Lemma counted_in types : forall i n t, In (n, t) (counted i types) -> In t types /\ i <= n.
Proof.
  induction types as [|u types IH]; intros i n t H; cbn in H; [destruct H|]. destruct H as [[= <- <-]|H]; [split; [left; reflexivity|lia]|].
  destruct (IH (S i) n t H). split; [right; assumption|lia].
Qed.

Lemma call_line ret name args : one_line ret -> one_line name -> one_lines args ->
  one_line ("    " ++ (if ret =? "void" then format_call name args else ret ++ " res = " ++ format_call name args) ++ ";").
Proof.
  intros Hr Hn Ha. assert (one_line (format_call name args)) as C.
  { unfold format_call. rewrite join_commas, !one_line_app. split; [exact Hn|]. split; [cbn; repeat split; discriminate|].
    split; [apply commas_one_line; exact Ha|cbn; repeat split; discriminate]. }
  rewrite !one_line_app. split; [cbn; repeat split; discriminate|]. split; [|cbn; repeat split; discriminate].
  destruct (ret =? "void"); [exact C|]. rewrite !one_line_app. split; [exact Hr|]. split; [cbn; repeat split; discriminate|exact C].
Qed.
Lemma program_lines h defs call : one_line_header h -> one_lines defs -> one_line ("    " ++ call ++ ";") ->
  lines (template [""; include h; "int main() {"; "    " ++ join (newline ++ "    ") defs; "    " ++ call ++ ";"; "    return 0;"; "}"])
  = program h (List.app (line_of defs) [call ++ ";"]).
Proof.
  intros Hh Hd Hc. destruct (include_line h Hh) as [I1 I2]. unfold program. rewrite I2. cbn [template].
  rewrite lines_line by exact I. rewrite lines_line by exact I1. rewrite lines_line by (cbn; repeat split; discriminate).
  rewrite lines_indented by exact Hd. rewrite (lines_line ("    " ++ call ++ ";")) by exact Hc.
  rewrite map_app, <- app_assoc. reflexivity.
Qed.

Definition call_of (return_type name : string) (args : list string) : string :=
  (if return_type =? "void" then "" else return_type ++ " res = ") ++ name ++ "(" ++ commas args ++ ");".
Lemma call_of_eq ret name args :
  (if ret =? "void" then format_call name args else ret ++ " res = " ++ format_call name args) ++ ";" = call_of ret name args.
Proof. unfold call_of, format_call. rewrite join_commas. destruct (ret =? "void"); rewrite !sapp_assoc; reflexivity. Qed.

Lemma after_app p s r : after p s = Some r -> s = p ++ r.
Proof.
  revert s. induction p as [|c p IH]; intros [|d s] H; cbn in *; [congruence|congruence|discriminate|].
  destruct (Ascii.eqb_spec c d) as [->|]; [|discriminate]. rewrite (IH s H). reflexivity.
Qed.
Lemma declare_plain t x : no_pointer_to_function t -> declare t x = t ++ " " ++ x.
Proof.
  induction t as [|c t IH]; intros H; [reflexivity|].
  assert (no_pointer_to_function t) as H' by (intros a b ->; exact (H (String c a) b eq_refl)).
  unfold declare; fold declare. destruct (after "(*)" (String c t)) as [r|] eqn:E.
  - apply after_app in E. destruct (H "" r E).
  - rewrite (IH H'). reflexivity.
Qed.

(** The program of a function test declares a variable for each argument that is not void, in order, and calls the function with
    these variables, and keeps the result unless it is void. *)
Definition C101_function_claim : Prop :=
  forall header name return_type types,
  one_line_header header -> one_line name -> one_line return_type -> one_lines types -> Forall no_pointer_to_function types ->
  lines (function_text header name return_type types []) =
  program header (List.app (line_of (map (fun p => declare (snd p) (variable (fst p)) ++ ";") (wanted types)))
                  [call_of return_type name (map (fun p => variable (fst p)) (wanted types))]).
Theorem C101_function : C101_function_claim.
Proof.
  intros h name ret types Hh Hn Hr Ht Hp. unfold function_text.
  assert (one_lines (definitions 0 types) /\ one_lines (arguments 0 types)) as [D A].
  { rewrite definitions_wanted, arguments_wanted. split; apply Forall_forall; intros x Hx; apply in_map_iff in Hx; destruct Hx as ([n t] & <- & Hx);
      cbn [fst snd]; apply filter_In in Hx; destruct Hx as [Hx _]; destruct (counted_in _ _ _ _ Hx) as [Hx' _]; unfold variable; fold (number n); rewrite !one_line_app.
    - split; [exact (proj1 (Forall_forall _ _) Ht t Hx')|]. split; [cbn; repeat split; discriminate|]. split; [split; [cbn; repeat split; discriminate|apply number_one_line]|cbn; repeat split; discriminate].
    - split; [cbn; repeat split; discriminate|apply number_one_line]. }
  rewrite program_lines, call_of_eq by first [assumption | (apply call_line; assumption)]. rewrite arguments_wanted, definitions_wanted. fold (wanted types). f_equal. f_equal. f_equal.
  apply map_ext_in. intros [n t] Hx. cbn [fst snd]. apply filter_In in Hx. destruct Hx as [Hx _]. destruct (counted_in _ _ _ _ Hx) as [Hx' _].
  rewrite declare_plain by exact (proj1 (Forall_forall _ _) Hp t Hx'). rewrite !sapp_assoc. reflexivity.
Qed.
(** These variables are different. *)
Definition C101_variables_claim : Prop := forall types, NoDup (map (fun p => variable (fst p)) (wanted types)).
Theorem C101_variables : C101_variables_claim.
Proof.
  intros types. unfold wanted. generalize 0. induction types as [|t types IH]; intros i; cbn [counted filter]; [constructor|]. cbn [snd].
  destruct (t =? "void"); cbn [negb]; [apply IH|]. cbn [map fst]. constructor; [|apply IH].
  intros H. apply in_map_iff in H. destruct H as ([n u] & E & H). apply filter_In in H. destruct H as [H _]. apply counted_in in H. cbn [fst] in E.
  unfold variable in E. injection E as E. fold (number n) in E. fold (number i) in E. apply number_inj in E. lia.
Qed.
(** With default arguments it calls the function with these. *)
Definition C101_defaults_claim : Prop :=
  forall header name return_type types args,
  one_line_header header -> one_line name -> one_line return_type -> one_lines args -> args <> [] ->
  lines (function_text header name return_type types args) = program header ["" ; call_of return_type name args].
Theorem C101_defaults : C101_defaults_claim.
Proof.
  intros h name ret types args Hh Hn Hr Ha N. unfold function_text. destruct args as [|a args]; [destruct (N eq_refl)|].
  rewrite program_lines, call_of_eq by first [assumption | (apply call_line; assumption) | (apply Forall_nil)]. reflexivity.
Qed.

Lemma before_app q a : before q (a ++ q) = Some a.
Proof.
  assert (forall s : string, before q s = if s =? q then Some "" else match s with EmptyString => None | String c s => option_map (String c) (before q s) end) as U
    by (intros [|]; reflexivity).
  induction a as [|c a IH]; rewrite U.
  - cbn [append]. rewrite String.eqb_refl. reflexivity.
  - cbn [append]. rewrite IH. destruct (String.eqb_spec (String c (a ++ q)) q) as [E|_]; [|reflexivity].
    apply (f_equal String.length) in E. cbn in E. exfalso. clear -E.
    assert (String.length q <= String.length (a ++ q)) as L by (clear E; induction a; cbn; lia). lia.
Qed.

Definition no_white (s : string) : Prop := Forall (fun c => is_white c = false) (list_ascii_of_string s).
Lemma words_from_word w : forall cur c s, no_white w -> is_white c = true -> cur ++ w <> "" -> words_from cur (w ++ String c s) = (cur ++ w) :: words s.
Proof.
  induction w as [|x w IH]; intros cur c s H Hc N; cbn.
  - rewrite Hc, sapp_nil. rewrite sapp_nil in N. destruct (String.eqb_spec cur "") as [->|_]; [destruct (N eq_refl)|]. reflexivity.
  - inversion H as [|? ? H1 H2]. subst. rewrite H1, IH; [rewrite sapp_assoc; reflexivity|exact H2|exact Hc|]. destruct cur; discriminate.
Qed.
Lemma uint_no_white d : no_white (NilEmpty.string_of_uint d).
Proof. unfold no_white. induction d; cbn [NilEmpty.string_of_uint list_ascii_of_string]; constructor; try reflexivity; assumption. Qed.
Lemma nilzero_no_white d : no_white (NilZero.string_of_uint d) /\ NilZero.string_of_uint d <> "".
Proof. unfold NilZero.string_of_uint. destruct d; (split; [first [(apply uint_no_white) | (repeat constructor)]|cbn; discriminate]). Qed.
Lemma decimal_no_white z : no_white (NilZero.string_of_int (Z.to_int z)) /\ NilZero.string_of_int (Z.to_int z) <> "".
Proof.
  unfold NilZero.string_of_int. destruct (Z.to_int z) as [d|d]; [apply nilzero_no_white|]. split; [|discriminate]. unfold no_white. cbn. constructor; [reflexivity|apply nilzero_no_white].
Qed.
Lemma words_print z s : words (print z ++ s) = NilZero.string_of_int (Z.to_int z) :: words s.
Proof.
  unfold print, words. rewrite sapp_assoc. cbn [append]. destruct (decimal_no_white z) as [A B]. rewrite words_from_word; [reflexivity|exact A|reflexivity|exact B].
Qed.
Lemma int_of_print z : int_of (NilZero.string_of_int (Z.to_int z)) = Some z.
Proof.
  unfold int_of. rewrite NilZero.isi; [cbn; rewrite DecimalZ.of_to; reflexivity|..];
    destruct z as [|p|p]; cbn; try discriminate; intros [= E]; exact (DecimalPos.Unsigned.to_uint_nonnil p E).
Qed.

Lemma to_signed_small b x : (1 <= b)%Z -> (- 2 ^ (b - 1) <= x < 2 ^ (b - 1))%Z -> to_signed b x = x.
Proof.
  intros B H. unfold to_signed. replace (2 ^ b)%Z with (2 * 2 ^ (b - 1))%Z by (rewrite <- Z.pow_succ_r by lia; f_equal; lia).
  rewrite Z.mod_small by lia. lia.
Qed.
Lemma to_int_small x : (0 <= x < 2 ^ 31)%Z -> to_int x = x.
Proof. intros H. apply to_signed_small; [lia|]. change (32 - 1)%Z with 31%Z. lia. Qed.
Lemma offset_alignment al : (1 <= al)%Z -> offset_after 1 al = al.
Proof. intros H. unfold offset_after. replace (1 + al - 1)%Z with al by lia. rewrite Z.div_same by lia. lia. Qed.
Lemma sign_bit t : (1 <= c_size t)%Z -> (to_type t (-4) <? to_type t 0)%Z = c_signed t.
Proof.
  intros H. unfold to_type. destruct (c_signed t).
  - assert (2 ^ 3 <= 2 ^ (8 * c_size t - 1))%Z as P by (apply Z.pow_le_mono_r; lia). change (2 ^ 3)%Z with 8%Z in P. rewrite !to_signed_small by lia. reflexivity.
  - rewrite Z.mod_0_l by (apply Z.pow_nonzero; lia). apply Z.ltb_ge. apply Z.mod_pos_bound. apply Z.pow_pos_nonneg; lia.
Qed.
Lemma typedef_name types name : typedef types ("typedef " ++ name ++ " type;") = types name.
Proof. unfold typedef. cbn [after append Ascii.eqb Bool.eqb]. rewrite before_app. reflexivity. Qed.
Lemma include_nothing types h : typedef types (include h) = None.
Proof. destruct h; reflexivity. Qed.

(** The headers included for a type. *)
Definition headers (header : option string) : list string := List.app ["#include <stddef.h>"; "#include <stdio.h>"] (included header).
(** A type the compiler can represent with int: alignment and size from 1 to 2^31 - 1. *)
Definition measurable (t : ctype) : Prop := (1 <= c_alignment t < 2 ^ 31)%Z /\ (1 <= c_size t < 2 ^ 31)%Z.
(** The tests of types find what the compiler knows. *)
Definition C101_type_claim : Prop :=
  forall types header name t, one_line_header header -> one_line name -> types (headers header) name = Some t -> measurable t ->
  exists out, run types (type_text header name) = Some out /\ type_answer out = Some (Type_ (c_alignment t) (c_size t)).
Definition C101_int_type_claim : Prop :=
  forall types header name t, one_line_header header -> one_line name -> types (headers header) name = Some t -> measurable t ->
  exists out, run types (int_type_text header name) = Some out /\ int_type_answer out = Some (IntType (c_alignment t) (c_size t) (c_signed t)).
Lemma typedef_one_line name : one_line name -> one_line ("typedef " ++ name ++ " type;").
Proof. intros H. rewrite !one_line_app. split; [cbn; repeat split; discriminate|]. split; [exact H|cbn; repeat split; discriminate]. Qed.
Ltac shapes Hh Hn := repeat (constructor; [first [exact (proj1 (include_line _ Hh)) | (apply typedef_one_line; exact Hn) | (cbn; repeat split; discriminate)]|]); constructor.
Lemma run_typed types t l ls t' : typedef types l = Some t -> run_line (Some t) l = Some "" -> run_lines types t' (l :: ls) = run_lines types (Some t) ls.
Proof. intros H1 H2. cbn [run_lines]. rewrite H1, H2. destruct (run_lines types (Some t) ls); reflexivity. Qed.
Lemma run_other types l ls t : typedef types l = None -> run_line t l = Some "" -> run_lines types t (l :: ls) = run_lines types t ls.
Proof. intros H1 H2. cbn [run_lines]. rewrite H1, H2. destruct (run_lines types t ls); reflexivity. Qed.
Lemma include_run t h : run_line t (include h) = Some "".
Proof. destruct h; reflexivity. Qed.
Lemma included_filter h : includes [include h] = included h.
Proof. destruct h as [h|]; reflexivity. Qed.
Lemma includes_app a b : includes (a ++ b)%list = (includes a ++ includes b)%list.
Proof. apply filter_app. Qed.
Lemma has_in ls l : In l ls -> has ls l = true.
Proof. intros H. apply existsb_exists. exists l. split; [exact H|apply String.eqb_refl]. Qed.

Theorem C101_type : C101_type_claim.
Proof.
  intros types h name t Hh Hn T [[A A'] [S S']]. exists (print (c_alignment t) ++ print (c_size t)). split.
  - unfold run, type_text. rewrite lines_template by shapes Hh Hn.
    match goal with |- context [forallb (has ?L) ?K] => assert (forallb (has L) K = true) as -> by (apply forallb_forall; intros x Hx; apply has_in; cbn [In] in *; cbn [app In]; tauto) end.
    match goal with |- run_lines (types (includes ?L)) _ _ = _ => assert (includes L = headers h) as -> end.
    { match goal with |- includes ?L = _ => change L with (List.app ["" ; "#include <stddef.h>"; "#include <stdio.h>"] (List.app [include h] (skipn 4 L))) end.
      rewrite !includes_app, included_filter. cbn [skipn app]. unfold headers. cbn. rewrite app_nil_r. reflexivity. }
    cbn [app]. do 3 rewrite run_other by reflexivity. rewrite run_other by (apply include_nothing || apply include_run). rewrite run_other by reflexivity.
    rewrite (run_typed _ t) by first [(rewrite typedef_name; exact T) | reflexivity]. do 2 rewrite run_other by reflexivity.
    cbn. rewrite offset_alignment, !to_int_small by lia. rewrite !sapp_nil. reflexivity.
  - unfold type_answer. rewrite words_print. replace (print (c_size t)) with (print (c_size t) ++ "") by apply sapp_nil. rewrite words_print, !int_of_print. reflexivity.
Qed.
Theorem C101_int_type : C101_int_type_claim.
Proof.
  intros types h name t Hh Hn T [[A A'] [S S']]. exists (print (c_alignment t) ++ print (c_size t) ++ print (if c_signed t then 1 else 0)). split.
  - unfold run, int_type_text. rewrite lines_template by shapes Hh Hn.
    match goal with |- context [forallb (has ?L) ?K] => assert (forallb (has L) K = true) as -> by (apply forallb_forall; intros x Hx; apply has_in; cbn [In] in *; cbn [app In]; tauto) end.
    match goal with |- run_lines (types (includes ?L)) _ _ = _ => assert (includes L = headers h) as -> end.
    { match goal with |- includes ?L = _ => change L with (List.app ["" ; "#include <stddef.h>"; "#include <stdio.h>"] (List.app [include h] (skipn 4 L))) end.
      rewrite !includes_app, included_filter. cbn [skipn app]. unfold headers. cbn. rewrite app_nil_r. reflexivity. }
    cbn [app]. do 3 rewrite run_other by reflexivity. rewrite run_other by (apply include_nothing || apply include_run). rewrite run_other by reflexivity.
    rewrite (run_typed _ t) by first [(rewrite typedef_name; exact T) | reflexivity]. do 2 rewrite run_other by reflexivity.
    cbn -[to_type Z.ltb]. rewrite offset_alignment, !to_int_small, sign_bit by lia. rewrite !sapp_nil. reflexivity.
  - unfold int_type_answer. rewrite !words_print. replace (print (if c_signed t then 1 else 0)) with (print (if c_signed t then 1 else 0) ++ "") by apply sapp_nil.
    rewrite words_print, !int_of_print. destruct (c_signed t); reflexivity.
Qed.

(** The program of a structure test has a variable of the structure and reads each member from it, in order. *)
Definition C101_struct_claim : Prop :=
  forall header name members, one_line_header header -> one_line name -> Forall (fun m => one_line (fst m) /\ one_line (snd m)) members ->
  lines (struct_text header name members) =
  program header ((name ++ " arg;") ::
    line_of (map (fun p => fst (snd p) ++ " " ++ variable (fst p) ++ " = arg." ++ snd (snd p) ++ ";") (combine (seq 0 (List.length members)) members))).
Lemma member_definitions_eq members : forall i,
  member_definitions i members =
  map (fun p => fst (snd p) ++ " " ++ variable (fst p) ++ " = arg." ++ snd (snd p) ++ ";") (combine (seq i (List.length members)) members).
Proof. induction members as [|[t m] members IH]; intros i; [reflexivity|]. cbn [member_definitions List.length seq combine map]. rewrite IH. reflexivity. Qed.
Lemma member_definitions_lines members : forall i, Forall (fun m => one_line (fst m) /\ one_line (snd m)) members -> one_lines (member_definitions i members).
Proof.
  induction members as [|[t m] members IH]; intros i H; [constructor|]. inversion H as [|? ? [H1 H2] H3]. subst. cbn [member_definitions]. constructor; [|apply IH; exact H3].
  rewrite !one_line_app. split; [exact H1|]. split; [cbn; repeat split; discriminate|]. split; [apply number_one_line|].
  split; [cbn; repeat split; discriminate|]. split; [exact H2|cbn; repeat split; discriminate].
Qed.
Theorem C101_struct : C101_struct_claim.
Proof.
  intros h name members Hh Hn Hm. rewrite <- member_definitions_eq. destruct (include_line h Hh) as [I1 I2]. unfold struct_text, program. rewrite I2. cbn [template].
  rewrite lines_line by exact I. rewrite lines_line by exact I1. rewrite lines_line by (cbn; repeat split; discriminate).
  rewrite (lines_line ("    " ++ name ++ " arg;")) by (rewrite !one_line_app; split; [cbn; repeat split; discriminate|split; [exact Hn|cbn; repeat split; discriminate]]).
  rewrite lines_indented by (apply member_definitions_lines; exact Hm). reflexivity.
Qed.

(** FALSE: this holds of all types of arguments.  The name of the variable is put after the type also
    for pointers to functions, which is no C: the tests of pthread_atfork and pthread_once never succeed. *)
Definition C101_all_types_claim : Prop :=
  forall header name return_type types,
  one_line_header header -> one_line name -> one_line return_type -> one_lines types ->
  lines (function_text header name return_type types []) =
  program header (List.app (line_of (map (fun p => declare (snd p) (variable (fst p)) ++ ";") (wanted types)))
                  [call_of return_type name (map (fun p => variable (fst p)) (wanted types))]).
Theorem C101_pointer_refuted : ~ C101_all_types_claim.
Proof.
  intros H. specialize (H (Some "pthread.h") "pthread_once" "int" ["pthread_once_t*"; "void (*)(void)"]).
  assert (forall s, (fix ok s := match s with EmptyString => true | String c s => negb (Ascii.eqb c "010"%char) && ok s end) s = true -> one_line s) as D.
  { induction s as [|c s IH]; cbn; [auto|]. intros K. apply andb_true_iff in K. destruct K as [K1 K2]. destruct (Ascii.eqb_spec c "010"%char); [discriminate|]. split; [assumption|apply IH; exact K2]. }
  assert (one_line_header (Some "pthread.h") /\ one_line "pthread_once" /\ one_line "int" /\ one_lines ["pthread_once_t*"; "void (*)(void)"]) as (A1 & A2 & A3 & A4).
  { split; [apply D; reflexivity|]. split; [apply D; reflexivity|]. split; [apply D; reflexivity|]. repeat constructor; discriminate. }
  specialize (H A1 A2 A3 A4). vm_compute in H. discriminate.
Qed.
(** FALSE: the tests of types find what the compiler knows of all types.  They print sizes as int. *)
Definition C101_all_sizes_claim : Prop :=
  forall types header name t, one_line_header header -> one_line name -> types (headers header) name = Some t -> (1 <= c_alignment t)%Z -> (1 <= c_size t)%Z ->
  exists out, run types (type_text header name) = Some out /\ type_answer out = Some (Type_ (c_alignment t) (c_size t)).
Theorem C101_large_refuted : ~ C101_all_sizes_claim.
Proof.
  intros H. destruct (H (fun _ _ => Some (CType 1 2147483648 false)) None "struct big" (CType 1 2147483648 false) I) as (out & R & E);
    [cbn; repeat split; discriminate|reflexivity|cbn; lia|cbn; lia|]. vm_compute in R. injection R as <-. vm_compute in E. discriminate.
Qed.
(** The numbers are found whatever white space is printed between them, as line ends of Windows. *)
Definition blank (b : string) : Prop := b <> "" /\ Forall (fun c => In c [" "; "009"; "010"; "013"]%char) (list_ascii_of_string b).
Definition C101_blanks_claim : Prop :=
  forall b0 b1 b2 b3 a s g, blank b0 -> blank b1 -> blank b2 -> blank b3 ->
  let number z := NilZero.string_of_int (Z.to_int z) in
  type_answer (number a ++ b1 ++ number s ++ b2) = Some (Type_ a s) /\
  type_answer (b0 ++ number a ++ b1 ++ number s ++ b2) = Some (Type_ a s) /\
  int_type_answer (number a ++ b1 ++ number s ++ b2 ++ number g ++ b3) = Some (IntType a s (Z.eqb g 1)) /\
  int_type_answer (b0 ++ number a ++ b1 ++ number s ++ b2 ++ number g ++ b3) = Some (IntType a s (Z.eqb g 1)).
Lemma blank_white c : In c [" "; "009"; "010"; "013"]%char -> is_white c = true.
Proof. intros [<-|[<-|[<-|[<-|[]]]]]; reflexivity. Qed.
Lemma words_blanks b : forall s, Forall (fun c => In c [" "; "009"; "010"; "013"]%char) (list_ascii_of_string b) -> words (b ++ s) = words s.
Proof.
  induction b as [|c b IH]; intros s H; [reflexivity|]. inversion H as [|? ? H1 H2]. subst. unfold words in *. cbn. rewrite (blank_white c H1). cbn. exact (IH s H2).
Qed.
Lemma words_number z b s : blank b -> words (NilZero.string_of_int (Z.to_int z) ++ b ++ s) = NilZero.string_of_int (Z.to_int z) :: words s.
Proof.
  intros [N F]. destruct b as [|c b]; [destruct (N eq_refl)|]. inversion F as [|? ? F1 F2]. subst. destruct (decimal_no_white z) as [A B]. unfold words at 1. cbn [append].
  rewrite words_from_word; [|exact A|exact (blank_white c F1)|exact B]. rewrite (words_blanks b s F2). reflexivity.
Qed.
Theorem C101_blanks : C101_blanks_claim.
Proof.
  intros b0 b1 b2 b3 a s g H0 H1 H2 H3 number. unfold number. unfold type_answer, int_type_answer. rewrite <- (sapp_nil b2) at 1 2. rewrite <- (sapp_nil b3).
  rewrite !(words_blanks b0) by apply H0. rewrite !(words_number a b1) by exact H1. rewrite !(words_number s b2) by exact H2. rewrite !(words_number g b3) by exact H3.
  rewrite !int_of_print. repeat split; reflexivity.
Qed.
Example C101_blanks_example :
  blank (String "013"%char (String "010"%char "")) /\
  int_type_answer ("8" ++ String "013"%char (String "010"%char "16") ++ String "013"%char (String "010"%char "1") ++ String "013"%char (String "010"%char "")) = Some (IntType 8 16 true).
Proof. split; [split; [discriminate|repeat constructor; cbn; tauto]|reflexivity]. Qed.

(** FALSE: the test of a type that was given a program of its own answers, whatever the program prints. *)
Definition C101_answers_claim : Prop := forall stdout, type_answer stdout <> None.
Theorem C101_answers_refuted : ~ C101_answers_claim.
Proof. intros H. apply (H "ok"). reflexivity. Qed.

(** The program for strncpy, and what the test of time_t finds on a 64-bit system. *)
Definition time_types (headers : list string) (name : string) : option ctype :=
  if has headers "#include <time.h>" && (name =? "time_t") then Some (CType 8 8 true) else None.
Example C101_example :
  lines (function_text (Some "string.h") "strncpy" "char*" ["char*"; "const char*"; "size_t"] []) =
  ["" ; "#include <string.h>"; "int main() {"; "    char* arg_0;"; "    const char* arg_1;"; "    size_t arg_2;";
   "    char* res = strncpy(arg_0, arg_1, arg_2);"; "    return 0;"; "}"; ""] /\
  lines (function_text None "abort" "void" ["void"] []) = ["" ; ""; "int main() {"; "    "; "    abort();"; "    return 0;"; "}"; ""] /\
  no_pointer_to_function "char*" /\ one_line "const char*" /\
  time_types (headers (Some "time.h")) "time_t" = Some (CType 8 8 true) /\ measurable (CType 8 8 true) /\
  option_map int_type_answer (run time_types (int_type_text (Some "time.h") "time_t")) = Some (Some (IntType 8 8 true)) /\
  run time_types (int_type_text None "time_t") = None.
Proof.
  split; [reflexivity|]. split; [reflexivity|]. split.
  { intros a b E. assert (forall s a b, s = a ++ "(*)" ++ b -> In "("%char (list_ascii_of_string s)) as K.
    { intros s a0. revert s. induction a0 as [|c a0 IH]; intros s b0 ->; cbn; [left; reflexivity|right; apply (IH _ b0 eq_refl)]. }
    apply K in E. cbn in E. repeat destruct E as [E|E]; try discriminate; destruct E. }
  split; [cbn; repeat split; discriminate|]. split; [reflexivity|]. split; [unfold measurable; cbn; lia|]. split; vm_compute; reflexivity.
Qed.

Print Assumptions C101_function.
Print Assumptions C101_variables.
Print Assumptions C101_defaults.
Print Assumptions C101_struct.
Print Assumptions C101_type.
Print Assumptions C101_int_type.
Print Assumptions C101_pointer_refuted.
Print Assumptions C101_large_refuted.
Print Assumptions C101_answers_refuted.
Print Assumptions C101_blanks.
