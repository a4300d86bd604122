(** What shell patterns mean: abstract syntax, how a pattern is written, and its
    language.  Nothing here refers to the translation. *)
From Coq Require Import List NArith Bool.
From Verif Require Import FnModel.
Import ListNotations.
Open Scope N_scope.

Inductive smember := SChar (c : chr) | SRange (lo hi : chr).

Inductive glob :=
  | GNil
  | GCons (i : item) (g : glob)
with item :=
  | ILit (c : chr)
  | IAny                                   (* ? *)
  | IStar                                  (* * *)
  | ISet (neg : bool) (ms : list smember)  (* [...] and [!...] *)
  | IAlt (a : alts)                        (* {...,...} *)
with alts :=
  | AOne (g : glob)
  | AMore (g : glob) (a : alts).

(** *** How patterns are written *)
Definition show_member (m : smember) : str :=
  match m with
  | SChar c => [c]
  | SRange lo hi => [lo; c_minus; hi]
  end.
Definition show_members (ms : list smember) : str := flat_map show_member ms.

Fixpoint show (g : glob) : str :=
  match g with
  | GNil => []
  | GCons i g => show_item i ++ show g
  end
with show_item (i : item) : str :=
  match i with
  | ILit c => [c]
  | IAny => [c_quest]
  | IStar => [c_star]
  | ISet neg ms => [c_lbrk] ++ (if neg then [c_bang] else []) ++ show_members ms ++ [c_rbrk]
  | IAlt a => [c_lbrace] ++ show_alts a ++ [c_rbrace]
  end
with show_alts (a : alts) : str :=
  match a with
  | AOne g => show g
  | AMore g a => show g ++ [c_comma] ++ show_alts a
  end.

(** *** Which syntax trees can be written
    A closing bracket can only be the first member of a set, a minus sign only the
    first or last, and a set that is not negated cannot begin with an exclamation
    mark.  Wildcard characters are not literals; but an opening bracket with no
    closing one after it is, and so is an opening brace with no closing one after
    it.  Inside braces, commas and closing braces are not literals. *)
Fixpoint members_ok (first : bool) (ms : list smember) : Prop :=
  match ms with
  | [] => True
  | SChar c :: ms' =>
      (c = c_rbrk -> first = true) /\ (c = c_minus -> first = true \/ ms' = []) /\ members_ok false ms'
  | SRange lo hi :: ms' =>
      (lo = c_rbrk -> first = true) /\ lo <> c_minus /\ hi <> c_minus /\ hi <> c_rbrk /\ lo <= hi /\
      members_ok false ms'
  end.

Definition set_ok (neg : bool) (ms : list smember) : Prop :=
  ms <> [] /\ members_ok true ms /\ (neg = false -> head (show_members ms) <> Some c_bang).

Definition lit_ok (nested : bool) (c : chr) (rest : str) : Prop :=
  c <> c_star /\ c <> c_quest /\
  (c = c_lbrk -> ~ In c_rbrk rest) /\
  (c = c_lbrace -> nested = false /\ ~ In c_rbrace rest) /\
  (nested = true -> c <> c_comma /\ c <> c_rbrace).

(** [rest]: the text after the pattern. *)
Fixpoint glob_ok (nested : bool) (g : glob) (rest : str) : Prop :=
  match g with
  | GNil => True
  | GCons i g => item_ok nested i (show g ++ rest) /\ glob_ok nested g rest
  end
with item_ok (nested : bool) (i : item) (rest : str) : Prop :=
  match i with
  | ILit c => lit_ok nested c rest
  | IAny | IStar => True
  | ISet neg ms => set_ok neg ms
  | IAlt a => alts_ok a ([c_rbrace] ++ rest)
  end
with alts_ok (a : alts) (rest : str) : Prop :=
  match a with
  | AOne g => glob_ok true g rest
  | AMore g a => glob_ok true g ([c_comma] ++ show_alts a ++ rest) /\ alts_ok a rest
  end.

Definition pattern_ok (g : glob) : Prop := glob_ok false g [].

(** *** The language of a pattern; [wild c]: a wildcard matches [c] *)
Definition in_smember (c : chr) (m : smember) : Prop :=
  match m with
  | SChar d => c = d
  | SRange lo hi => lo <= c <= hi
  end.

Section Lang.
  Context (wild : chr -> Prop).

  Fixpoint lang (g : glob) (s : str) : Prop :=
    match g with
    | GNil => s = []
    | GCons i g => exists a b, s = a ++ b /\ lang_item i a /\ lang g b
    end
  with lang_item (i : item) (s : str) : Prop :=
    match i with
    | ILit c => s = [c]
    | IAny => exists c, s = [c] /\ wild c
    | IStar => forall c, In c s -> wild c
    | ISet neg ms => exists c, s = [c] /\ (neg = false <-> exists m, In m ms /\ in_smember c m)
    | IAlt a => lang_alts a s
    end
  with lang_alts (a : alts) (s : str) : Prop :=
    match a with
    | AOne g => lang g s
    | AMore g a => lang g s \/ lang_alts a s
    end.
End Lang.

Definition anything (c : chr) : Prop := True.
Definition not_newline (c : chr) : Prop := c <> c_nl.
