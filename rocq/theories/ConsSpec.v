(** A terminal, and what log, check, passed and failed are to show on it. *)
From Coq Require Import List NArith ZArith Bool Arith.
From Verif Require Import FnModel ConsModel.
Import ListNotations.
Open Scope nat_scope.

(** What a character looks like. *)
Record look := Look { bold : bool; hue : option N }.
Definition plain : look := Look false None.
(** ECMA-48: the parameters of ESC [ ... m. *)
Definition select (a : look) (n : N) : look :=
  if (n =? 0)%N then plain
  else if (n =? 1)%N then Look true (hue a)
  else if ((30 <=? n) && (n <=? 37))%N then Look (bold a) (Some n)
  else a.
Inductive mode := Text | Esc | Params (done : list N) (cur : N).
(** The characters a terminal shows, and how it is left. *)
Fixpoint screen (m : mode) (a : look) (s : str) : list (chr * look) * look :=
  match s with
  | [] => ([], a)
  | c :: s' =>
      match m with
      | Text => if (c =? 27)%N then screen Esc a s' else let (r, e) := screen Text a s' in ((c, a) :: r, e)
      | Esc => if (c =? 91)%N then screen (Params [] 0) a s' else screen Text a s'
      | Params done cur =>
          if ((48 <=? c) && (c <=? 57))%N then screen (Params done (cur * 10 + (c - 48))) a s'
          else if (c =? 59)%N then screen (Params (done ++ [cur]) 0) a s'
          else if (c =? 109)%N then screen Text (fold_left select (done ++ [cur]) a) s'
          else screen Text a s'
      end
  end.

(** The names of the colors of a terminal, and two of fbuild. *)
Inductive names : str -> N -> Prop :=
  | n_black : names w_black 30 | n_red : names w_red 31 | n_green : names w_green 32 | n_yellow : names w_yellow 33
  | n_blue : names w_blue 34 | n_magenta : names w_magenta 35 | n_cyan : names w_cyan 36 | n_white : names w_white 37
  | n_compile : names w_compile 32 | n_link : names w_link 36.
Definition looks (color : option str) (a : look) : Prop :=
  match color with
  | Some name => (exists n, names name n /\ a = Look true (Some n)) \/ ((forall n, ~ names name n) /\ a = plain)
  | None => a = plain
  end.
(** What the messages show, those that are not too verbose. *)
Inductive shown (c : settings) : list message -> list (chr * look) -> Prop :=
  | s_nil : shown c [] []
  | s_yes m ms a r : (m_verbose m <= verbose c)%Z -> looks (if nocolor c then None else m_color m) a -> shown c ms r ->
      shown c (m :: ms) (map (fun x => (x, a)) (m_text m) ++ r)
  | s_no m ms r : (verbose c < m_verbose m)%Z -> shown c ms r -> shown c (m :: ms) r.
Definition no_escape (m : message) : Prop := ~ In 27%N (m_text m).

(** How wide the labels of checks are, after labels of these lengths. *)
Definition width (lengths : list nat) : nat := Nat.max 25 (Nat.min 40 (S (fold_right Nat.max 0 lengths))).
(** Text in a column. *)
Definition column (w : nat) (s : str) : str := s ++ repeat 32%N (w - length s).
Definition label (c : settings) (thread msg : str) : str := if show_threads c then column 10 thread ++ [58; 32]%N ++ msg else msg.
(** The messages of calls; [before]: the lengths of the labels so far. *)
Fixpoint messages (c : settings) (before : list nat) (ks : list call) : list message :=
  match ks with
  | [] => []
  | CLog msg color v :: ks => Message msg color v :: Message nl None v :: messages c before ks
  | CPassed None :: ks => Message [111; 107]%N (Some w_green) 0 :: Message nl None 0 :: messages c before ks
  | CPassed (Some msg) :: ks => Message msg (Some w_green) 0 :: Message nl None 0 :: messages c before ks
  | CFailed None :: ks => Message [102; 97; 105; 108; 101; 100]%N (Some w_yellow) 0 :: Message nl None 0 :: messages c before ks
  | CFailed (Some msg) :: ks => Message msg (Some w_yellow) 0 :: Message nl None 0 :: messages c before ks
  | CCheck thread msg result color v :: ks =>
      let before := before ++ [length (label c thread msg)] in
      let text := column (width before) (label c thread msg) ++ [58; 32]%N in
      match result with
      | None => [Message text color v; Message nl None (v + 1)]
      | Some r => [Message text None v; Message r color v; Message nl None v]
      end ++ messages c before ks
  end.
