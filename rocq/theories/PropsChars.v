(** The characters and words that the specifications of several properties share with the models are the ones meant. *)
From Coq Require Import List NArith Ascii String.
From Verif Require Import FnModel PathModel DepModel PlatModel TextModel ConsModel SrcModel.
Import ListNotations.
Open Scope string_scope.

Definition chars (s : string) : list N := map N_of_ascii (list_ascii_of_string s).
(** Patterns of file names, C39 to C41 *)
Theorem C39_characters :
  [c_star; c_quest; c_lbrk; c_rbrk; c_lbrace; c_rbrace; c_comma; c_bang; c_caret; c_bs; c_dot; c_bar; c_lpar; c_rpar; c_dollar; c_minus; c_plus] = chars "*?[]{},!^\.|()$-+" /\ c_nl = 10%N.
Proof. split; reflexivity. Qed.
(** Pathnames, C42 to C44 *)
Theorem C42_characters : [c_sep; c_dot] = chars "/.".
Proof. reflexivity. Qed.
(** Platform options, C45 and C46 *)
Theorem C46_characters : [c_excl; c_add; c_sub] = chars "!+-".
Proof. reflexivity. Qed.
(** Files of dependencies, C56 *)
Theorem C56_characters : [c_colon; c_space; c_bs; c_dollar] = chars ": \$".
Proof. reflexivity. Qed.
(** Templates, C58 to C60 *)
Theorem C59_characters : [c_at; c_blank] = chars "@ ".
Proof. reflexivity. Qed.
(** Sources of functions, C98 *)
Theorem C98_words : [w_def; w_class; w_lambda] = map chars ["def"; "class"; "lambda"].
Proof. reflexivity. Qed.
(** The console, C99 *)
Theorem C99_words :
  [w_black; w_red; w_green; w_yellow; w_blue; w_magenta; w_cyan; w_white; w_compile; w_link; w_ok; w_failed] =
  map chars ["black"; "red"; "green"; "yellow"; "blue"; "magenta"; "cyan"; "white"; "compile"; "link"; "ok"; "failed"] /\ nl = [10%N].
Proof. split; reflexivity. Qed.

Print Assumptions C39_characters.
Print Assumptions C42_characters.
Print Assumptions C46_characters.
Print Assumptions C56_characters.
Print Assumptions C59_characters.
Print Assumptions C98_words.
Print Assumptions C99_words.
