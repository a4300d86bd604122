(** C93: old-style options and hooks of build scripts. *)
From Coq Require Import String List Bool ZArith Lia.
From Verif Require Import OptModel OptSpec OptFacts.
Import ListNotations.
Open Scope string_scope.
Open Scope list_scope.

(** An option of optparse becomes an argument with the same names, and with the keywords that mean
    the same. *)
Definition C93_option_claim : Prop :=
  forall o, known_type (o_attr o "type") ->
  exists kw, add_option_ [AOpt o] [] = Adds (map AStr (o_short o ++ o_long o)) kw /\ forall k, translated o k (kget k kw).
Theorem C93_option : C93_option_claim.
Proof. exact option_only. Qed.

(** More names and keywords may be given along with it; what the option says goes first. *)
Definition C93_option_more_claim : Prop :=
  forall o args kw0, known_type (o_attr o "type") ->
  exists kw, add_option_ (AOpt o :: args) kw0 = Adds (args ++ map AStr (o_short o ++ o_long o)) kw /\
  (forall k, k <> "nargs" -> exists v, translated o k v /\ kget k kw = match v with Some x => Some x | None => kget k kw0 end) /\
  (kget "nargs" kw0 = None -> translated o "nargs" (kget "nargs" kw)).
Theorem C93_option_more : C93_option_more_claim.
Proof. exact option_more. Qed.

(** A type without a class is an exception, and nothing is added. *)
Definition C93_unknown_claim : Prop :=
  forall o args kw, ~ known_type (o_attr o "type") -> add_option_ (AOpt o :: args) kw = BadType.
Theorem C93_unknown : C93_unknown_claim.
Proof. intros o args kw H. unfold add_option_. rewrite loop_bad by exact H. reflexivity. Qed.

(** Without an option object, names and keywords are handed on, but for nargs=1. *)
Definition C93_plain_claim : Prop :=
  forall args kw, (forall o args', args <> AOpt o :: args') ->
  exists kw', add_option_ args kw = Adds args kw' /\
    (forall k, k <> "nargs" -> kget k kw' = kget k kw) /\
    (kget "nargs" kw = Some (VInt 1) -> kget "nargs" kw' = None) /\
    (kget "nargs" kw <> Some (VInt 1) -> kget "nargs" kw' = kget "nargs" kw).
Theorem C93_plain : C93_plain_claim.
Proof.
  intros args kw H. exists (drop_nargs kw). split.
  - destruct args as [|[s|o] args']; [reflexivity|reflexivity|]. exfalso. exact (H o args' eq_refl).
  - split; [intros k Hk; apply drop_other; exact Hk|]. split; [apply drop_one|]. intros Hn. rewrite drop_more by exact Hn. reflexivity.
Qed.

(** Whatever a build script calls, there is one warning if it calls anything deprecated on the parser,
    before everything else, and none otherwise. *)
Definition C93_warned_claim : Prop :=
  forall cs,
  ((exists c, In c cs /\ on_parser c) ->
   exists rest, fst (do_calls fresh_parser cs) = Warned :: rest /\ Forall (fun s => is_warning s = false) rest) /\
  ((forall c, In c cs -> ~ on_parser c) -> fst (do_calls fresh_parser cs) = []).
Theorem C93_warned : C93_warned_claim.
Proof.
  intros cs. split; [apply warn_once|]. intros H. rewrite warn_never by exact H. reflexivity.
Qed.

(** add_options adds every option in order, up to the first of an unknown type. *)
Definition C93_adds_claim : Prop :=
  forall p t l, exists_ p t = true -> Forall option_known l ->
  Forall2 (becomes t) l (effects (fst (do_call p (CAdds t l)))) /\
  forall o l', ~ known_type (o_attr o "type") ->
  exists r, effects (fst (do_call p (CAdds t (l ++ AOpt o :: l')))) = r ++ [KeyError] /\ Forall2 (becomes t) l r.
Theorem C93_adds : C93_adds_claim.
Proof.
  intros p t l He Hl. unfold do_call. rewrite He. split.
  - rewrite effects_warned by apply add_all_calm.
    destruct (add_all_becomes t l [] Hl) as (r & E & Hr). rewrite app_nil_r in E. rewrite E. simpl. rewrite app_nil_r. exact Hr.
  - intros o l' Ho. rewrite effects_warned by apply add_all_calm.
    destruct (add_all_becomes t l (AOpt o :: l') Hl) as (r & E & Hr). exists r. rewrite E, add_all_bad by exact Ho. split; [reflexivity|exact Hr].
Qed.

(** add_option adds one argument where it is called, and add_option_group makes one more group. *)
Definition C93_add_claim : Prop :=
  (forall p t o, exists_ p t = true -> known_type (o_attr o "type") ->
   exists s, effects (fst (do_call p (CAdd t [AOpt o] []))) = [s] /\ becomes t (AOpt o) s) /\
  (forall p t args kw names kw', exists_ p t = true -> add_option_ args kw = Adds names kw' ->
   effects (fst (do_call p (CAdd t args kw))) = [Added t names kw']) /\
  (forall p t args kw, exists_ p t = true -> add_option_ args kw = BadType ->
   effects (fst (do_call p (CAdd t args kw))) = [KeyError]) /\
  (forall p, effects (fst (do_call p CGroup)) = [NewGroup (p_groups p)] /\ p_groups (snd (do_call p CGroup)) = S (p_groups p)) /\
  (forall p c, c <> CGroup -> p_groups (snd (do_call p c)) = p_groups p).
Theorem C93_add : C93_add_claim.
Proof.
  split; [|split; [|split; [|split]]].
  - intros p t o He Ho. exists (add_one t [AOpt o] []). split; [|apply add_one_becomes; exact Ho].
    unfold do_call. rewrite He. apply effects_warned. repeat constructor. apply add_one_calm.
  - intros p t args kw names kw' He Ha. unfold do_call. rewrite He. unfold add_one. rewrite Ha. apply effects_warned. repeat constructor.
  - intros p t args kw He Ha. unfold do_call. rewrite He. unfold add_one. rewrite Ha. apply effects_warned. repeat constructor.
  - intros [[|] n]; split; reflexivity.
  - intros p c Hc. destruct c as [t args kw|t l|]; [| |congruence]; unfold do_call, warned; destruct (exists_ p t); try reflexivity;
      destruct t; try reflexivity; destruct (p_warned p); reflexivity.
Qed.

(** FALSE: the types of optparse can be given by name with add_option(names, type=...). *)
Definition C93_named_type_claim : Prop :=
  forall names kw s c, kget "type" kw = Some (VStr s) -> converts s c ->
  exists kw', add_option_ (map AStr names) kw = Adds (map AStr names) kw' /\ kget "type" kw' = Some (VClass c).
Theorem C93_named_type_refuted : ~ C93_named_type_claim.
Proof.
  intros H. destruct (H ["--level"] [("type", VStr "int")] "int" CInt eq_refl conv_int) as (kw' & E & Hk).
  injection E as <-. discriminate.
Qed.
(** FALSE: every type optparse knows can be used in an option object. *)
Definition C93_types_claim : Prop :=
  forall o, In (o_attr o "type") (map VStr ["string"; "int"; "long"; "float"; "complex"; "choice"]) ->
  add_option_ [AOpt o] [] <> BadType.
Theorem C93_types_refuted : ~ C93_types_claim.
Proof.
  intros H. apply (H (Opt [] ["--size"] (fun k => if String.eqb k "type" then VStr "long" else if String.eqb k "default" then VNoDefault else VNone)));
    [right; right; left; reflexivity|reflexivity].
Qed.

(** The runs of parse_args are those specified, for all build scripts and parsers. *)
Definition C93_hooks_claim : Prop :=
  forall world (r : root world) parse made prog argv w es w' res,
  parse_args world r parse made (prog :: argv) w = (es, w', res) <-> runs r parse made argv w es w' res.
Theorem C93_hooks : C93_hooks_claim.
Proof. unfold C93_hooks_claim. intros. apply parse_runs. Qed.

(** A hook that has a new name is never called by its old one, nor warned about. *)
Definition C93_never_both_claim : Prop :=
  forall world (r : root world) parse made prog argv w es w' res,
  parse_args world r parse made (prog :: argv) w = (es, w', res) ->
  (r "arguments" <> None -> forall x y, ~ In (Calls "pre_options" x) es /\ ~ In (Deprecated "pre_options" y) es) /\
  (r "post_arguments" <> None -> forall x y, ~ In (Calls "post_options" x) es /\ ~ In (Deprecated "post_options" y) es).
Theorem C93_never_both : C93_never_both_claim.
Proof.
  intros world r parse made prog argv w es w' res H. apply parse_runs in H.
  split; intros Hn x y; split; intros Hi;
    (destruct H as [es1 w1 e H1|es1 w1 v p w2 e H1 Hu Hp|es1 w1 v p w2 a es2 w3 e H1 Hu Hp H3|es1 w1 v p w2 a es2 w3 v' a' H1 Hu Hp H3 Hu'];
     inversion H1; subst; try congruence; try (inversion H3; subst; try congruence);
     repeat (rewrite in_app_iff in Hi || simpl in Hi);
     repeat match goal with H : _ \/ _ |- _ => destruct H | H : False |- _ => destruct H | H : Calls _ _ = _ |- _ => try discriminate H; injection H; clear H; intros; try discriminate | H : Deprecated _ _ = _ |- _ => try discriminate H; injection H; clear H; intros; try discriminate | H : _ = Calls _ _ |- _ => try discriminate H; injection H; clear H; intros; try discriminate | H : _ = Deprecated _ _ |- _ => try discriminate H; injection H; clear H; intros; try discriminate end).
Qed.

(** Without hooks, the parser that was made is used, and nothing but the parser decides. *)
Definition C93_no_hooks_claim : Prop :=
  forall world (r : root world) (parse : parse_fun world) made prog argv w w' a,
  (forall h, In h ["arguments"; "pre_options"; "post_arguments"; "post_options"] -> r h = None) ->
  parse made argv w = (w', inl a) ->
  parse_args world r parse made (prog :: argv) w = ([Parses made argv; MakesContext a], w', inl a).
Theorem C93_no_hooks : C93_no_hooks_claim.
Proof.
  intros world r parse made prog argv w w' a H Hp. apply parse_runs.
  refine (run_ends r parse made argv w [] w Falsy made w' a [] w' Falsy a _ _ Hp _ _); constructor; apply H; simpl; tauto.
Qed.

(** Examples. *)
Definition level : opt :=
  Opt ["-l"] ["--level"] (fun k => if String.eqb k "type" then VStr "int" else if String.eqb k "nargs" then VInt 1
    else if String.eqb k "default" then VNone else if String.eqb k "dest" then VStr "level"
    else if String.eqb k "callback_args" then VOther 1 else VNone).
Definition size : opt := Opt [] ["--size"] (fun k => if String.eqb k "type" then VStr "long" else if String.eqb k "default" then VNoDefault else VNone).
Example C93_example_option : known_type (o_attr level "type") /\ ~ known_type (o_attr size "type") /\
  add_option_ [AOpt level] [] = Adds [AStr "-l"; AStr "--level"] [("default", VNone); ("dest", VStr "level"); ("type", VClass CInt)].
Proof.
  split; [right; exists "int", CInt; split; [reflexivity|constructor]|]. split; [|reflexivity].
  intros [H|(s & c & H & Hc)]; [discriminate|]. injection H as <-. inversion Hc.
Qed.
Example C93_example_calls :
  fst (do_calls fresh_parser
    [CAdd (Some 0) [AOpt level] []; CGroup; CAdd (Some 0) [AStr "-q"] [("nargs", VInt 1); ("help", VStr "quiet")];
     CAdds None [AOpt level; AOpt size; AOpt level]; CAdd None [AStr "-v"] []]) =
  [Warned; NewGroup 0; Added (Some 0) [AStr "-q"] [("help", VStr "quiet")];
   Added None [AStr "-l"; AStr "--level"] [("default", VNone); ("dest", VStr "level"); ("type", VClass CInt)];
   KeyError; Added None [AStr "-v"] []].
Proof. reflexivity. Qed.
(** A script with the old hook before, which returns another parser, and both hooks after. *)
Definition script : root (list nat) := fun h =>
  if String.eqb h "pre_options" then Some (fun args w => (w ++ args, Truthy 7))
  else if String.eqb h "post_arguments" then Some (fun args w => (w ++ args, Falsy))
  else if String.eqb h "post_options" then Some (fun args w => (w, Raises 1)) else None.
Example C93_example_hooks :
  parse_args (list nat) script (fun p argv w => (w, inl (p + length argv))) 3 ["fbuild"; "-v"; "build"] [] =
  ([Deprecated "pre_options" "arguments"; Calls "pre_options" [3]; Parses 7 ["-v"; "build"];
    Calls "post_arguments" [7; 9]; MakesContext 9], [3; 7; 9], inl 9).
Proof. reflexivity. Qed.
Example C93_example_no_hooks :
  parse_args nat (fun _ => None) (fun p argv w => (S w, inl 5)) 3 ["fbuild"; "-v"] 0 = ([Parses 3 ["-v"]; MakesContext 5], 1, inl 5).
Proof. reflexivity. Qed.

Print Assumptions C93_option.
Print Assumptions C93_option_more.
Print Assumptions C93_unknown.
Print Assumptions C93_plain.
Print Assumptions C93_warned.
Print Assumptions C93_adds.
Print Assumptions C93_add.
Print Assumptions C93_named_type_refuted.
Print Assumptions C93_types_refuted.
Print Assumptions C93_hooks.
Print Assumptions C93_never_both.
Print Assumptions C93_no_hooks.
