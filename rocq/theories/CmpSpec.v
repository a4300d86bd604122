(** What equality is to be. *)
From Coq Require Import List ZArith Bool String Ascii.
From Verif Require Import CmpModel.
Import ListNotations.
Open Scope string_scope.

(** Results without functions. *)
Definition not_function (r : result) : Prop := forall r' l, r <> Function r' l.
(** Names of Python have no dots. *)
Fixpoint dotless (s : string) : Prop := match s with EmptyString => True | String c s => c <> "."%char /\ dotless s end.
(** Two tests that ask the same, but for the types templates are tried with. *)
Definition kinds_alike (a b : kind) : Prop := a = b \/ exists l l', a = KTemplate l /\ b = KTemplate l'.
Definition alike (a b : test) : Prop :=
  kinds_alike (t_kind a) (t_kind b) /\ t_key a = t_key b /\ t_name a = t_name b /\ t_test a = t_test b /\
  t_stdin a = t_stdin b /\ t_stdout a = t_stdout b /\ t_timeout a = t_timeout b.
(** Two objects with the same settings. *)
Definition same_settings (a b : object) : Prop :=
  o_builder a = o_builder b /\ o_platform a = o_platform b /\ o_flags a = o_flags b /\
  o_libpaths a = o_libpaths b /\ o_libs a = o_libs b /\ o_external_libs a = o_external_libs b.
(** Test classes from the same module: the one of templates is from fbuild.config.cxx, the others from fbuild.config.c. *)
Definition for_template (k : kind) : Prop := exists l, k = KTemplate l.
Definition same_module (k k' : kind) : Prop := for_template k <-> for_template k'.
