(** What compilers write: GCC's rules for dependency files (libcpp/mkdeps.cc, munge and
    make_write), and the output of ocamldep -modules. *)
From Coq Require Import List NArith Bool Arith.
From Verif Require Import FnModel DepModel.
Import ListNotations.
Open Scope N_scope.

(** White space, and what of it bytes can be. *)
Definition white : list chr :=
  [9; 10; 11; 12; 13; 28; 29; 30; 31; 32; 133; 160; 5760; 8192; 8193; 8194; 8195; 8196; 8197; 8198; 8199; 8200; 8201; 8202;
   8232; 8233; 8239; 8287; 12288].
Definition byte_white : list chr := [9; 10; 11; 12; 13; 32].
(** Words with white space before, between and after them. *)
Definition gap (s : str) : Prop := Forall (fun c => In c white) s.
Definition word (s : str) : Prop := s <> [] /\ Forall (fun c => ~ In c white) s.
Inductive words : str -> list str -> Prop :=
  | words_none b : gap b -> words b []
  | words_last b w : gap b -> word w -> words (b ++ w) [w]
  | words_more b w c s ws : gap b -> word w -> In c white -> words s ws -> words (b ++ w ++ c :: s) (w :: ws).

(** A name in a rule: blanks are quoted with a backslash (and backslashes before them
    doubled), # too, and $ is doubled. [bs] counts the backslashes just read. *)
Fixpoint munge_ (bs : nat) (s : str) : str :=
  match s with
  | [] => []
  | c :: s' =>
      if N.eqb c c_bs then c :: munge_ (S bs) s'
      else if N.eqb c 32 || N.eqb c 9 then repeat c_bs (S bs) ++ c :: munge_ O s'
      else if N.eqb c 35 then c_bs :: c :: munge_ O s'
      else if N.eqb c c_dollar then c :: c :: munge_ O s'
      else c :: munge_ O s'
  end.
Definition munge (s : str) : str := munge_ O s.

(** Before each prerequisite stands a blank; the line may be broken before it. *)
Definition separator (break : bool) : str :=
  if break then [c_space; c_bs; c_nl; c_space] else [c_space].
Definition written (target : str) (deps : list (bool * str)) : str :=
  munge target ++ [c_colon] ++
  flat_map (fun d => separator (fst d) ++ munge (snd d)) deps ++ [c_nl].

(** A name nothing has to be done about: neither white space nor # nor $. *)
Definition plain (s : str) : Prop :=
  s <> [] /\ Forall (fun c => is_uspace c = false /\ c <> 35 /\ c <> c_dollar) s.

(** ocamldep -modules: the file, a colon and the modules. *)
Definition listed (file : str) (modules : list str) : str :=
  file ++ [c_colon] ++ flat_map (fun m => c_space :: m) modules ++ [c_nl].
