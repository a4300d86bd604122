(** C100: equality of results and tests of the configuration, and what their records in the database depend on. *)
From Coq Require Import List ZArith Bool String Ascii Lia.
From Verif Require Import CmpModel CmpSpec.
Import ListNotations.
Open Scope string_scope.

Lemma list_eq_iff {A} (eq : A -> A -> bool) : (forall a b, eq a b = true <-> a = b) -> forall l l', list_eq eq l l' = true <-> l = l'.
Proof.
  intros H. induction l as [|a l IH]; intros [|b l']; simpl; try (split; [discriminate|discriminate]); [tauto|].
  rewrite andb_true_iff, H, IH. split; [intros [-> ->]; reflexivity|intros [= -> ->]; split; reflexivity].
Qed.
Lemma opt_eq_iff {A} (eq : A -> A -> bool) : (forall a b, eq a b = true <-> a = b) -> forall a b, opt_eq eq a b = true <-> a = b.
Proof. intros H [a|] [b|]; simpl; [rewrite H; split; [intros ->; reflexivity|intros [= ->]; reflexivity]| | |tauto]; split; discriminate. Qed.
Lemma member_eq_iff a b : member_eq a b = true <-> a = b.
Proof.
  destruct a, b. unfold member_eq. cbn [fst snd]. rewrite andb_true_iff, !String.eqb_eq. split; [intros [-> ->]; reflexivity|intros [= -> ->]; split; reflexivity].
Qed.
Lemma strings_iff l l' : list_eq String.eqb l l' = true <-> l = l'.
Proof. apply list_eq_iff. intros; apply String.eqb_eq. Qed.

(** Comparing two results that are no functions always gives an answer: whether they have the same class and contents. *)
Definition C100_results_claim : Prop :=
  forall a b, not_function a -> exists e, result_eq a b = Some e /\ result_eq b a = Some e /\ (e = true <-> a = b).
Theorem C100_results : C100_results_claim.
Proof.
  intros a b H. destruct a as [s|r l| | | |al sz|al sz sg|ms]; [|destruct (H r l eq_refl)|..];
    destruct b as [s'|r' l'| | | |al' sz'|al' sz' sg'|ms']; cbn [result_eq];
    try (exists false; split; [reflexivity|split; [reflexivity|split; discriminate]]); try (exists true; split; [reflexivity|split; [reflexivity|split; reflexivity]]).
  - exists (s =? s'). split; [reflexivity|]. rewrite String.eqb_sym. split; [reflexivity|]. rewrite String.eqb_eq. split; [intros ->; reflexivity|intros [= ->]; reflexivity].
  - exists (Z.eqb al al' && Z.eqb sz sz'). rewrite (Z.eqb_sym al' al), (Z.eqb_sym sz' sz). split; [reflexivity|]. split; [reflexivity|].
    rewrite andb_true_iff, !Z.eqb_eq. split; [intros [-> ->]; reflexivity|intros [= -> ->]; split; reflexivity].
  - exists (Z.eqb al al' && Z.eqb sz sz' && Bool.eqb sg sg'). split; [reflexivity|]. split; [f_equal; rewrite (Z.eqb_sym al' al), (Z.eqb_sym sz' sz); f_equal; destruct sg, sg'; reflexivity|].
    rewrite !andb_true_iff, !Z.eqb_eq, Bool.eqb_true_iff. split; [intros [[-> ->] ->]; reflexivity|intros [= -> -> ->]; repeat split].
  - exists (list_eq member_eq ms ms'). split; [reflexivity|].
    assert (list_eq member_eq ms ms' = true <-> ms = ms') as L by (apply list_eq_iff; apply member_eq_iff).
    assert (list_eq member_eq ms' ms = true <-> ms' = ms) as L' by (apply list_eq_iff; apply member_eq_iff).
    split; [f_equal; apply Bool.eq_true_iff_eq; rewrite L, L'; split; congruence|].
    rewrite L. split; [intros ->; reflexivity|intros [= ->]; reflexivity].
Qed.
(** No function equals anything: comparing gives False or fails. *)
Definition C100_functions_claim : Prop :=
  forall r l b, result_eq (Function r l) b <> Some true /\ result_eq b (Function r l) <> Some true.
Theorem C100_functions : C100_functions_claim.
Proof.
  intros r l b. split; destruct b; cbn [result_eq]; try discriminate.
  - destruct (result_eq r b) as [[]|]; discriminate.
  - destruct (result_eq b r) as [[]|]; discriminate.
Qed.

(** Two functions with types of results that are no functions: comparing fails exactly if these types are the same. *)
Definition C100_fails_claim : Prop :=
  forall r l r' l', not_function r -> (result_eq (Function r l) (Function r' l') = None <-> r = r') /\ (result_eq (Function r l) (Function r' l') = Some false <-> r <> r').
Theorem C100_fails : C100_fails_claim.
Proof.
  intros r l r' l' H. cbn [result_eq]. destruct (C100_results r r' H) as (e & -> & _ & E). destruct e.
  - assert (r = r') as K by tauto. split; split; intros X; try reflexivity; try discriminate; try assumption. destruct (X K).
  - assert (r <> r') as K by (intros Q; apply E in Q; discriminate). split; split; intros X; try reflexivity; try discriminate; try assumption. destruct (K X).
Qed.

Lemma kind_eq_iff a b : kind_eq a b = true <-> kinds_alike a b.
Proof.
  unfold kinds_alike.
  destruct a as [f|r l d| | | | |ms|ts], b as [f'|r' l' d'| | | | |ms'|ts']; cbn [kind_eq];
    try (split; [discriminate|intros [K|(x & y & K & K')]; discriminate]); try (split; [intros _; left; reflexivity|reflexivity]).
  - rewrite String.eqb_eq. split; [intros ->; left; reflexivity|intros [[= ->]|(x & y & K & _)]; [reflexivity|discriminate]].
  - rewrite !andb_true_iff, String.eqb_eq, strings_iff, (opt_eq_iff _ strings_iff).
    split; [intros [[-> ->] ->]; left; reflexivity|intros [[= -> -> ->]|(x & y & K & _)]; [tauto|discriminate]].
  - rewrite (list_eq_iff _ member_eq_iff). split; [intros ->; left; reflexivity|intros [[= ->]|(x & y & K & _)]; [reflexivity|discriminate]].
  - split; [intros _; right; exists ts, ts'; split; reflexivity|reflexivity].
Qed.
(** Tests are equal exactly if they are alike in everything but the types templates are tried with. *)
Definition C100_tests_claim : Prop := forall a b, test_eq a b = true <-> alike a b.
Theorem C100_tests : C100_tests_claim.
Proof.
  intros a b. unfold test_eq, alike. rewrite !andb_true_iff, kind_eq_iff, String.eqb_eq, !(opt_eq_iff _ String.eqb_eq), (opt_eq_iff _ Z.eqb_eq). tauto.
Qed.
(** Objects are equal exactly if their settings are. *)
Definition C100_objects_claim : Prop := forall a b, object_eq a b = true <-> same_settings a b.
Theorem C100_objects : C100_objects_claim.
Proof. intros a b. unfold object_eq, same_settings. rewrite !andb_true_iff, Z.eqb_eq, !strings_iff. tauto. Qed.

Lemma append_dot x : forall x' c c', dotless c -> dotless c' -> x ++ "." ++ c = x' ++ "." ++ c' -> x = x' /\ c = c'.
Proof.
  assert (forall y c, ~ dotless (y ++ "." ++ c)) as nd.
  { induction y as [|a y IH]; intros c; simpl; [tauto|]. intros [_ H]. exact (IH c H). }
  induction x as [|a x IH]; intros [|a' x'] c c' Hc Hc'; cbn; intros E.
  - injection E as ->. split; reflexivity.
  - injection E as _ ->. destruct (nd x' c' Hc).
  - injection E as _ <-. destruct (nd x c Hc').
  - injection E as -> E. destruct (IH x' c c' Hc Hc' E) as [-> ->]. split; reflexivity.
Qed.
Lemma app_assoc' a : forall b c, (a ++ b) ++ c = a ++ (b ++ c).
Proof. induction a as [|x a IH]; intros b c; cbn; [reflexivity|]. rewrite IH. reflexivity. Qed.
Lemma module_iff k k' : module_of k = module_of k' <-> same_module k k'.
Proof.
  unfold same_module, for_template. destruct k, k'; cbn; (split; [intros E; first [discriminate E | (split; intros [l K]; first [discriminate K | eauto])] | intros [A B]]);
    try reflexivity; first [(destruct A as [l K]; [eauto|discriminate K]) | (destruct B as [l K]; [eauto|discriminate K])].
Qed.
(** An answer is used again exactly for a test under the same key, of the same module of test classes, in a class of the same
    name, with the same settings. *)
Definition C100_reused_claim : Prop :=
  forall call_text o t o' t', dotless (o_class o) -> dotless (o_class o') -> dotless (t_key t) -> dotless (t_key t') ->
  (reused call_text o t o' t' = true <->
   t_key t = t_key t' /\ same_module (t_kind t) (t_kind t') /\ o_class o = o_class o' /\ same_settings o o').
Theorem C100_reused : C100_reused_claim.
Proof.
  intros x o t o' t' D1 D2 D3 D4. unfold reused, digested, record_name.
  rewrite String.eqb_refl, andb_true_r, andb_true_iff, String.eqb_eq, (C100_objects o o'). split.
  - intros [E S]. rewrite <- !app_assoc' in E. rewrite !(app_assoc' _ "." (t_key _)) in E.
    apply append_dot in E; [|assumption|assumption]. destruct E as [E K]. rewrite !app_assoc' in E. apply append_dot in E; [|assumption|assumption]. rewrite <- module_iff. tauto.
  - intros (K & M & C & S). apply module_iff in M. rewrite K, M, C. split; [reflexivity|exact S].
Qed.

(** FALSE: two results can be compared.  Not two functions with the same type of results, not even a function and itself. *)
Definition C100_comparable_claim : Prop := forall a b, result_eq a b <> None.
Theorem C100_comparable_refuted : ~ C100_comparable_claim.
Proof. intros H. apply (H (Function (Str "int") [Str "double"]) (Function (Str "int") [Str "double"])). reflexivity. Qed.
(** FALSE: equal tests ask the same. *)
Definition C100_same_test_claim : Prop := forall a b, test_eq a b = true -> a = b.
Definition template_of (ts : list string) : test := Test_ (KTemplate ts) "vector" (Some "vector") None None None None.
Theorem C100_template_refuted : ~ C100_same_test_claim.
Proof. intros H. specialize (H (template_of ["int"]) (template_of ["bool"]) eq_refl). discriminate. Qed.
(** FALSE: equal objects are of one class. *)
Definition C100_class_claim : Prop := forall a b, object_eq a b = true -> o_module a = o_module b /\ o_class a = o_class b.
Definition object_of (m c : string) : object := Object m c 1 ["posix"] [] [] [] [].
Theorem C100_class_refuted : ~ C100_class_claim.
Proof. intros H. destruct (H (object_of "fbuild.config.c.c90" "stdio_h") (object_of "fbuild.config.c.c90" "math_h") eq_refl) as [_ K]. discriminate. Qed.
(** FALSE: after a test is edited its old answer is not used again. *)
Definition C100_edited_claim : Prop := forall call_text o t t', test_eq t t' = false -> reused call_text o t o t' = false.
Definition test_of (r : string) : test := Test_ (KFunction r ["double"] None) "finite" (Some "finite") None None None None.
Theorem C100_edited_refuted : ~ C100_edited_claim.
Proof. intros H. specialize (H "def" (object_of "fbuild.config.c.stdlib" "math_h") (test_of "int") (test_of "double") eq_refl). discriminate. Qed.
(** FALSE: answers are not shared by classes of one name in different modules. *)
Definition C100_modules_claim : Prop := forall call_text o t o' t', o_module o <> o_module o' -> reused call_text o t o' t' = false.
Theorem C100_modules_refuted : ~ C100_modules_claim.
Proof.
  intros H. specialize (H "def" (object_of "fbuild.config.c.c90" "math_h") (test_of "int") (object_of "project" "math_h") (test_of "long")).
  assert (true = false); [apply H|]; discriminate.
Qed.

Example C100_example :
  not_function (Type_ 4 8) /\ result_eq (Type_ 4 8) (Type_ 4 8) = Some true /\ result_eq (Type_ 4 8) (IntType 4 8 true) = Some false /\
  result_eq (Struct [("int", "x")]) (Struct [("int", "y")]) = Some false /\
  result_eq (Function (Str "int") []) (Function (Str "void") []) = Some false /\
  test_eq (test_of "int") (test_of "int") = true /\ test_eq (test_of "int") (test_of "long") = false /\
  dotless "math_h" /\ record_name (object_of "m" "math_h") (test_of "int") = "fbuild.config.c.math_h.finite" /\
  reused "def" (object_of "m" "math_h") (test_of "int") (object_of "m" "stdio_h") (test_of "int") = false.
Proof. repeat (split; [first [reflexivity|discriminate|(intros ? ? ?; discriminate)|(cbn; repeat split; discriminate)]|]); reflexivity. Qed.

Print Assumptions C100_results.
Print Assumptions C100_functions.
Print Assumptions C100_fails.
Print Assumptions C100_tests.
Print Assumptions C100_objects.
Print Assumptions C100_reused.
Print Assumptions C100_comparable_refuted.
Print Assumptions C100_template_refuted.
Print Assumptions C100_class_refuted.
Print Assumptions C100_edited_refuted.
Print Assumptions C100_modules_refuted.
