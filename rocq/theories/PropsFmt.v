(** C104: format_substitute replaces the fields of a template by their patterns. *)
From Coq Require Import List Bool String Ascii.
From Verif Require Import FmtModel FmtSpec.
Import ListNotations.
Open Scope string_scope.

Lemma cat_assoc a : forall b c, (a ++ b) ++ c = a ++ (b ++ c).
Proof. induction a as [|x a IH]; intros b c; cbn; [reflexivity|]. rewrite IH. reflexivity. Qed.
Lemma cat_nil a : a ++ "" = a.
Proof. induction a as [|x a IH]; cbn; [reflexivity|]. rewrite IH. reflexivity. Qed.
Lemma each_app P a b : each P (a ++ b) <-> each P a /\ each P b.
Proof. induction a as [|x a IH]; cbn; [tauto|]. rewrite IH. tauto. Qed.
Lemma prefix_prefix a b r : prefix a (prefix b r) = prefix (a ++ b) r.
Proof. destruct r; cbn; try reflexivity. rewrite cat_assoc. reflexivity. Qed.
Lemma prefix_nil r : prefix "" r = r.
Proof. destruct r; reflexivity. Qed.
Lemma is_digit_iff c : is_digit c = true <-> digit c.
Proof.
  destruct c as [[] [] [] [] [] [] [] []]; cbn; split; intros H;
    first [reflexivity | discriminate | (clear H; tauto) | (repeat (destruct H as [H|H]; [discriminate H|]); destruct H)].
Qed.
Lemma digits_iff s : digits s = true <-> each digit s.
Proof. induction s as [|c s IH]; cbn [digits each]; [tauto|]. rewrite andb_true_iff, is_digit_iff, IH. tauto. Qed.
Definition name_char (c : ascii) : Prop := ~ In c ["{"; "}"; "."; "["; ":"; "!"]%char.
Lemma name_char_iff c : name_char c <-> Ascii.eqb c "}"%char = false /\ Ascii.eqb c "{"%char = false /\ other c = false.
Proof.
  unfold name_char, other. cbn [In existsb]. rewrite !orb_false_iff, !Ascii.eqb_neq. split; [intros H; repeat split; try reflexivity; intros ->; apply H; tauto|].
  intros (H1 & H2 & H3 & H4 & H5 & H6 & _) [H|[H|[H|[H|[H|[H|[]]]]]]]; congruence.
Qed.

Definition pre (m : mode) : string := match m with Lit => "" | Open => "{" | Close => "}" | Name acc => "{" ++ acc end.
Definition fine (m : mode) : Prop := match m with Name acc => each name_char acc | _ => True end.
Definition good (patterns : string -> option string) (text out : string) : Prop :=
  exists ps, Forall plain_piece ps /\ text = template ps /\ meaning patterns ps = Some out.
Definition lacks (patterns : string -> option string) (text key : string) : Prop :=
  exists ps out rest, Forall plain_piece ps /\ meaning patterns ps = Some out /\ plain key /\ patterns key = None /\ text = template ps ++ "{" ++ key ++ "}" ++ rest.
Definition result_ok (patterns : string -> option string) (text : string) (r : result) : Prop :=
  match r with Done out => good patterns text out | Missing key => lacks patterns text key | _ => True end.
Lemma ok_piece patterns p v text r : plain_piece p -> value patterns p = Some v -> result_ok patterns text r -> result_ok patterns (written p ++ text) (prefix v r).
Proof.
  intros P V. destruct r as [out|key| | |]; cbn [prefix result_ok]; try exact (fun H => H).
  - intros (ps & F & -> & M). exists (p :: ps). split; [constructor; assumption|]. split; [reflexivity|]. cbn [meaning]. rewrite V, M. reflexivity.
  - intros (ps & out & rest & F & M & K1 & K2 & ->). exists (p :: ps), (v ++ out), rest. split; [constructor; assumption|]. split; [cbn [meaning]; rewrite V, M; reflexivity|].
    split; [exact K1|]. split; [exact K2|]. cbn [template]. rewrite cat_assoc. reflexivity.
Qed.
Lemma go_ok patterns s : forall m, fine m -> result_ok patterns (pre m ++ s) (go patterns m s).
Proof.
  induction s as [|c s IH]; intros m F.
  - destruct m; cbn; try exact I. exists []. repeat split. constructor.
  - assert (forall acc, each name_char acc -> result_ok patterns (("{" ++ acc) ++ String c s)
      (if Ascii.eqb c "}"%char then field patterns acc (go patterns Lit s)
        else if Ascii.eqb c "{"%char then Malformed
        else if other c then Unmodelled
        else go patterns (Name (acc ++ String c "")) s)) as K.
    { intros acc A. destruct (Ascii.eqb_spec c "}"%char) as [->|N1].
      - unfold field. destruct (digits acc) eqn:D; [exact I|].
        assert (plain acc) as P. { split; [exact A|]. rewrite <- digits_iff. congruence. }
        destruct (patterns acc) as [v|] eqn:V.
        + replace (("{" ++ acc) ++ String "}" s) with (written (Field acc) ++ (pre Lit ++ s)) by (cbn; rewrite !cat_assoc; reflexivity).
          apply ok_piece; [exact P|exact V|exact (IH Lit I)].
        + exists [], "", s. split; [constructor|]. split; [reflexivity|]. split; [exact P|]. split; [exact V|]. cbn. reflexivity.
      - destruct (Ascii.eqb_spec c "{"%char) as [->|N2]; [exact I|]. destruct (other c) eqn:O; [exact I|].
        replace (("{" ++ acc) ++ String c s) with (pre (Name (acc ++ String c "")) ++ s) by (cbn; rewrite !cat_assoc; reflexivity).
        apply IH. cbn [fine]. apply each_app. split; [exact A|]. split; [|exact I]. apply name_char_iff. rewrite !Ascii.eqb_neq. repeat split; assumption. }
    destruct m as [| | |acc]; cbn [go pre].
    + cbn [append]. destruct (Ascii.eqb_spec c "{"%char) as [->|N1]; [exact (IH Open I)|]. destruct (Ascii.eqb_spec c "}"%char) as [->|N2]; [exact (IH Close I)|].
      pose proof (ok_piece patterns (Text (String c "")) (String c "") s (go patterns Lit s) I eq_refl (IH Lit I)) as H. cbn [written doubled] in H.
      rewrite <- Ascii.eqb_neq in N1, N2. rewrite N1, N2 in H. exact H.
    + destruct (Ascii.eqb_spec c "{"%char) as [->|N1].
      * exact (ok_piece patterns (Text "{") "{" s (go patterns Lit s) I eq_refl (IH Lit I)).
      * exact (K "" I).
    + destruct (Ascii.eqb_spec c "}"%char) as [->|N1]; [|exact I].
      exact (ok_piece patterns (Text "}") "}" s (go patterns Lit s) I eq_refl (IH Lit I)).
    + exact (K acc F).
Qed.

Lemma go_text patterns s : forall rest, go patterns Lit (doubled s ++ rest) = prefix s (go patterns Lit rest).
Proof.
  induction s as [|c s IH]; intros rest; [symmetry; apply prefix_nil|]. cbn [doubled]. rewrite cat_assoc.
  replace (String c s) with (String c "" ++ s) by reflexivity. rewrite <- prefix_prefix, <- IH.
  destruct (Ascii.eqb_spec c "{"%char) as [->|N1]; [reflexivity|]. destruct (Ascii.eqb_spec c "}"%char) as [->|N2]; [reflexivity|].
  cbn [append go]. rewrite <- Ascii.eqb_neq in N1, N2. rewrite N1, N2. reflexivity.
Qed.
Lemma go_name patterns n : forall acc rest, each name_char n -> go patterns (Name acc) (n ++ "}" ++ rest) = field patterns (acc ++ n) (go patterns Lit rest).
Proof.
  induction n as [|c n IH]; intros acc rest H; [rewrite cat_nil; reflexivity|]. destruct H as [H1 H2]. apply name_char_iff in H1. destruct H1 as (E1 & E2 & E3).
  cbn [append go]. rewrite E1, E2, E3. pose proof (IH (acc ++ String c "") rest H2) as E. cbn [append] in E. rewrite E, cat_assoc. reflexivity.
Qed.
Lemma go_field patterns n rest : plain n ->
  go patterns Lit ("{" ++ n ++ "}" ++ rest) = match patterns n with Some v => prefix v (go patterns Lit rest) | None => Missing n end.
Proof.
  intros [H D]. rewrite <- digits_iff in D. assert (digits n = false) as D' by (destruct (digits n); [destruct (D eq_refl)|reflexivity]).
  destruct n as [|c n]; [discriminate|]. pose proof H as [H1 _]. apply name_char_iff in H1. destruct H1 as (E1 & E2 & E3).
  change (go patterns Lit ("{" ++ String c n ++ "}" ++ rest)) with (go patterns Open (String c n ++ "}" ++ rest)).
  assert (go patterns Open (String c n ++ "}" ++ rest) = go patterns (Name "") (String c n ++ "}" ++ rest)) as -> by (cbn [append go]; rewrite E2; reflexivity).
  rewrite go_name by exact H. unfold field. cbn [append]. rewrite D'. reflexivity.
Qed.
Lemma go_template patterns ps : forall out rest, Forall plain_piece ps -> meaning patterns ps = Some out ->
  go patterns Lit (template ps ++ rest) = prefix out (go patterns Lit rest).
Proof.
  induction ps as [|p ps IH]; intros out rest F M; cbn [template meaning] in *.
  - injection M as <-. symmetry. apply prefix_nil.
  - inversion F as [|? ? F1 F2]. subst. destruct (value patterns p) as [v|] eqn:V; [|discriminate]. destruct (meaning patterns ps) as [t|]; [|discriminate]. injection M as <-.
    rewrite cat_assoc, <- prefix_prefix, <- (IH t rest F2 eq_refl). destruct p as [s|n]; cbn [written value] in *.
    + injection V as ->. apply go_text.
    + rewrite !cat_assoc. rewrite go_field by exact F1. rewrite V. reflexivity.
Qed.

(** The result is a text exactly if the file is a template all of whose fields have patterns, and then it is the texts and patterns in order. *)
Definition C104_format_claim : Prop := forall patterns text out,
  format patterns text = Done out <-> exists ps, Forall plain_piece ps /\ text = template ps /\ meaning patterns ps = Some out.
Theorem C104_format : C104_format_claim.
Proof.
  intros patterns text out. split.
  - intros E. pose proof (go_ok patterns text Lit I) as H. unfold format in E. rewrite E in H. exact H.
  - intros (ps & F & -> & M). unfold format. rewrite <- (cat_nil (template ps)), (go_template patterns ps out "" F M). cbn. rewrite cat_nil. reflexivity.
Qed.
(** KeyError exactly for the first field without a pattern. *)
Definition C104_missing_claim : Prop := forall patterns text key,
  format patterns text = Missing key <->
  exists ps out rest, Forall plain_piece ps /\ meaning patterns ps = Some out /\ plain key /\ patterns key = None /\ text = template ps ++ "{" ++ key ++ "}" ++ rest.
Theorem C104_missing : C104_missing_claim.
Proof.
  intros patterns text key. split.
  - intros E. pose proof (go_ok patterns text Lit I) as H. unfold format in E. rewrite E in H. exact H.
  - intros (ps & out & rest & F & M & K1 & K2 & ->). unfold format. rewrite (go_template patterns ps out _ F M), go_field by exact K1. rewrite K2. reflexivity.
Qed.
(** A text without braces is copied; and so is any text with its braces doubled. *)
Definition C104_copied_claim : Prop := forall patterns text,
  (each (fun c => c <> "{"%char /\ c <> "}"%char) text -> format patterns text = Done text) /\ format patterns (doubled text) = Done text.
Theorem C104_copied : C104_copied_claim.
Proof.
  intros patterns text. assert (format patterns (doubled text) = Done text) as D.
  { apply C104_format. exists [Text text]. split; [repeat constructor|]. cbn. rewrite !cat_nil. split; reflexivity. }
  split; [|exact D]. intros H. assert (doubled text = text) as E; [|rewrite <- E at 1; exact D].
  clear D. induction text as [|c s IH]; [reflexivity|]. destruct H as [[H1 H2] H3]. cbn [doubled]. rewrite <- Ascii.eqb_neq in H1, H2. rewrite H1, H2, (IH H3). reflexivity.
Qed.
(** Braces in the patterns are not looked at again. *)
Definition C104_once_claim : Prop := forall patterns name v, plain name -> patterns name = Some v -> format patterns ("{" ++ name ++ "}") = Done v.
Theorem C104_once : C104_once_claim.
Proof.
  intros patterns name v P V. apply C104_format. exists [Field name]. split; [constructor; [exact P|constructor]|]. cbn. rewrite !cat_nil, V. split; [reflexivity|]. rewrite cat_nil. reflexivity.
Qed.
(** FALSE: text that is no field is copied.  Programs with braces fail. *)
Definition C104_programs_claim : Prop := forall text, exists out, format (fun _ => None) text = Done out.
Theorem C104_programs_refuted : ~ C104_programs_claim.
Proof. intros H. destruct (H "int main() { return 0; }") as [out E]. discriminate. Qed.
Theorem C104_single_refuted : ~ C104_programs_claim.
Proof. intros H. destruct (H "}") as [out E]. discriminate. Qed.

Definition ex_patterns (n : string) : option string := if n =? "version" then Some "1.0" else if n =? "body" then Some "{version}" else None.
Example C104_example :
  format ex_patterns "v = {version};" = Done "v = 1.0;" /\ format ex_patterns "f() {{ {body} }}" = Done "f() { {version} }" /\
  format ex_patterns "{version}{name}" = Missing "name" /\ format ex_patterns "int main() { return 0; }" = Missing " return 0; " /\
  format ex_patterns "{}" = Positional /\ format ex_patterns "{0}" = Positional /\ format ex_patterns "{version" = Malformed /\
  plain "version" /\ template [Text "f() { "; Field "body"; Text " }"] = "f() {{ {body} }}".
Proof.
  repeat split; try reflexivity.
  1-7: intros H; cbn in H; repeat (destruct H as [H|H]; [discriminate H|]); exact H.
  intros [H _]. unfold digit in H. cbn in H. repeat (destruct H as [H|H]; [discriminate H|]). exact H.
Qed.

Print Assumptions C104_format.
Print Assumptions C104_missing.
Print Assumptions C104_copied.
Print Assumptions C104_once.
Print Assumptions C104_programs_refuted.
Print Assumptions C104_single_refuted.
