(** What is expected of text substitution. *)
From Coq Require Import List NArith Bool.
From Verif Require Import FnModel TextModel.
Import ListNotations.
Open Scope N_scope.

(** [out] is [s] with the occurrences of [pat], found from the left, replaced by [text]. *)
Inductive replaced (pat text : str) : str -> str -> Prop :=
  | rep_none s : (forall a b, s <> a ++ pat ++ b) -> replaced pat text s s
  | rep_first a b out :
      (forall a' b', a ++ pat ++ b = a' ++ pat ++ b' -> (length a <= length a')%nat) ->
      replaced pat text b out -> replaced pat text (a ++ pat ++ b) (a ++ text ++ out).

(** A template: text, and placeholders each with the text after it. *)
Definition template : Type := str * list (str * str).
Definition placeholder (w : str) : str := c_at :: w ++ [c_at].
Definition render (t : template) : str := fst t ++ flat_map (fun p => placeholder (fst p) ++ snd p) (snd t).
(** The template with the placeholders in [values] replaced by their values. *)
Definition fill (values : str -> option str) (t : template) : str :=
  fst t ++ flat_map (fun p : str * str =>
    (match values (fst p) with Some v => v | None => placeholder (fst p) end : str) ++ snd p) (snd t).

Definition lookup (ps : list (str * str)) (k : str) : option str :=
  option_map snd (find (fun p => str_eqb (fst p) k) ps).

(** No text contains the delimiter, and between two placeholders there is a character
    no name contains. *)
Definition spaced (namechar : chr -> bool) (t : template) : Prop :=
  ~ In c_at (fst t) /\
  Forall (fun p => ~ In c_at (fst p) /\ ~ In c_at (snd p)) (snd t) /\
  (forall l1 p l2, snd t = l1 ++ p :: l2 -> l2 <> [] -> exists c, In c (snd p) /\ namechar c = false).

Section Words.
  Variable word : chr -> bool.
  Definition is_word (w : str) : Prop := w <> [] /\ forallb word w = true.

  (** The placeholders of words in [s], found from the left, replaced by their values;
      None if one has no value. *)
  Inductive filled (values : str -> option str) : str -> option str -> Prop :=
    | filled_none s : (forall a w b, is_word w -> s <> a ++ placeholder w ++ b) -> filled values s (Some s)
    | filled_first a w b o :
        is_word w ->
        (forall a' w' b', is_word w' -> a ++ placeholder w ++ b = a' ++ placeholder w' ++ b' ->
          (length a <= length a')%nat) ->
        filled values b o ->
        filled values (a ++ placeholder w ++ b)
          (match values w, o with Some v, Some t => Some (a ++ v ++ t) | _, _ => None end).

  (** The line asking for the definition of [key]; [more]: blanks beyond the first. *)
  Definition undef_line (more : nat) (key : str) : str :=
    str_undef ++ c_blank :: repeat c_blank more ++ key.

  (** The truth of a value, where those of iterables are joined to texts first. *)
  Definition falsy (v : value) : Prop :=
    match v with
    | VStr s => s = []
    | VIter l => join_blank l = []
    | VBool b => b = false
    | VNone => True
    | VOther _ t => t = false
    end.
  Definition text_of (v : value) (t : str) : Prop :=
    match v with
    | VStr s => t = s
    | VIter l => t = join_blank l
    | VBool b => t = [49]
    | VNone => False
    | VOther s _ => t = s
    end.
  Variable patterns : str -> option value.
  (** What becomes of a line: KeyError (None), or its new text and the definition missing. *)
  Inductive lined : str -> option (str * list str) -> Prop :=
    | lined_define more key v t :
        is_word key -> patterns key = Some v -> ~ falsy v -> text_of v t ->
        lined (undef_line more key) (Some (str_define ++ key ++ c_blank :: t, []))
    | lined_undef more key v :
        is_word key -> patterns key = Some v -> falsy v ->
        lined (undef_line more key) (Some (str_open ++ key ++ str_close, []))
    | lined_missing more key :
        is_word key -> patterns key = None ->
        lined (undef_line more key) (Some (str_open ++ key ++ str_close, [key]))
    | lined_other s o :
        (forall more key, is_word key -> s <> undef_line more key) ->
        filled (fun k => option_map shown (patterns k)) s o ->
        lined s (option_map (fun t => (t, [])) o).
End Words.

Fixpoint join_nl (l : list str) : str :=
  match l with
  | [] => []
  | [s] => s
  | s :: l' => s ++ c_nl :: join_nl l'
  end.

(** The outcome for a file of such lines. *)
Definition whole (outs : list (option (str * list str))) : outcome :=
  if existsb (fun o => match o with None => true | _ => false end) outs then KeyErr
  else match flat_map (fun o => match o with Some p => snd p | None => [] end) outs with
       | [] => Written (join_nl (map (fun o => match o with Some p => fst p | None => [] end) outs))
       | ms => Missing ms
       end.
