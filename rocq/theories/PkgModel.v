(** Model of lib/fbuild/builders/pkg_config.py: PkgConfig (9-35) and lib/fbuild/builders/sdl.py: SDLConfig (25-45): the
    commands, and how their output is read.  Output that is ASCII. *)
From Coq Require Import List NArith Bool Arith.
From Verif Require Import FnModel VerModel.
Import ListNotations.
Open Scope N_scope.

Definition c_blank : chr := 32.
Definition w_cflags : str := [45; 45; 99; 102; 108; 97; 103; 115].
Definition w_libs : str := [45; 45; 108; 105; 98; 115].
(** __call__, 17-20: the command without the executable. *)
Definition pkg_command (pkg : str) (cmd : list str) : list str := pkg :: cmd.
Definition sdl_command (cmd : list str) : list str := cmd.
(** stdout.decode().strip() *)
Definition answer (stdout : str) : str := strip stdout.
(** str.split(' ') *)
Fixpoint split_blank (s : str) : list str :=
  match s with
  | [] => [[]]
  | c :: s' => if N.eqb c c_blank then [] :: split_blank s'
               else match split_blank s' with [] => [[c]] | w :: ws => (c :: w) :: ws end
  end.
(** cflags and libs, 30-37: command and result. *)
Definition cflags_command (pkg : str) (components : list str) : list str := pkg_command pkg (w_cflags :: components).
Definition libs_command (pkg : str) (components : list str) : list str := pkg_command pkg (w_libs :: components).
Definition flags (stdout : str) : list str := split_blank (answer stdout).
(** SDLConfig.cflags, 38-45: the text itself. *)
Definition sdl_flags (stdout : str) : str := answer stdout.
