(** What pkg-config prints. *)
From Coq Require Import List NArith Bool Arith.
From Verif Require Import FnModel.
Import ListNotations.
Open Scope N_scope.

(** White space of ASCII: tab to carriage return, the separators 28 to 31, blank. *)
Definition white (c : chr) : Prop := 9 <= c <= 13 \/ 28 <= c <= 32.
(** A flag that needs no quotes. *)
Definition simple (w : str) : Prop := w <> [] /\ forall c, In c w -> ~ white c.
(** Words with a blank between two of them. *)
Fixpoint spaced (ws : list str) : str :=
  match ws with
  | [] => []
  | [w] => w
  | w :: ws' => w ++ 32 :: spaced ws'
  end.
(** A line with these flags; some versions end it with a blank. *)
Definition prints (ws : list str) (s : str) : Prop :=
  exists before after, s = before ++ spaced ws ++ after /\ Forall white before /\ Forall white after.
(** Blanks in a flag are written with a backslash. *)
Definition quote (w : str) : str := flat_map (fun c => if N.eqb c 32 then [92; 32] else [c]) w.
