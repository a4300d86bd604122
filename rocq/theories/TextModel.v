(** Model of lib/fbuild/builders/text.py: substitute (9-30), autoconf_config_file (89-119)
    and autoconf_config_header (123-185): the text computed from the source's text and
    the patterns.  Python before 3.10, where collections.Iterable exists. *)
From Coq Require Import List NArith Bool Arith.
From Verif Require Import FnModel PathModel.
Import ListNotations.
Open Scope N_scope.

(** str.replace; [skip] characters belong to the occurrence just replaced. *)
Fixpoint replace_ (pat text : str) (skip : nat) (s : str) : str :=
  match s with
  | [] => []
  | c :: s' => match skip with
               | S k => replace_ pat text k s'
               | O => if startswith s pat then text ++ replace_ pat text (length pat - 1) s'
                      else c :: replace_ pat text O s'
               end
  end.
Definition replace (s pat text : str) : str :=
  match pat with
  | [] => text ++ flat_map (fun c => c :: text) s
  | _ => replace_ pat text O s
  end.

(** 24-25; [patterns] in the order of the dictionary *)
Definition substitute (code : str) (patterns : list (str * str)) : str :=
  fold_left (fun code p => replace code (fst p) (snd p)) patterns code.

(** Values of patterns, as far as the code tells them apart: a string, an iterable (by
    the texts of its elements), a bool, None, and others (by their text and truth). *)
Inductive value :=
  | VStr (s : str)
  | VIter (l : list str)
  | VBool (b : bool)
  | VNone
  | VOther (s : str) (truth : bool).

Definition c_at : chr := 64.
Definition c_blank : chr := 32.

(** ' '.join *)
Fixpoint join_blank (l : list str) : str :=
  match l with
  | [] => []
  | [s] => s
  | s :: l' => s ++ c_blank :: join_blank l'
  end.

Definition str_True : str := [84; 114; 117; 101].
Definition str_False : str := [70; 97; 108; 115; 101].
Definition str_None : str := [78; 111; 110; 101].

(** 103-109, 143-148 *)
Definition shown (v : value) : str :=
  match v with
  | VStr s => s
  | VIter l => join_blank l
  | VBool b => if b then str_True else str_False
  | VNone => str_None
  | VOther s _ => s
  end.

Section Regex.
  (** \w *)
  Variable word : chr -> bool.

  (** \w* taking as much as it can *)
  Fixpoint word_run (s : str) : str * str :=
    match s with
    | [] => ([], [])
    | c :: s' => if word c then let (w, r) := word_run s' in (c :: w, r) else ([], s)
    end.

  (** @(\w+)@ at the front of [s]: the group and what follows.  A shorter \w+ is
      followed by a word character, so it does not help. *)
  Definition token (s : str) : option (str * str) :=
    match s with
    | c :: s1 => if N.eqb c c_at then
                   match word_run s1 with
                   | (w0 :: w, d :: r) => if N.eqb d c_at then Some (w0 :: w, r) else None
                   | _ => None
                   end
                 else None
    | [] => None
    end.

  Variable patterns : str -> option value.

  (** re.sub, 114; None: KeyError.  Each match is shorter than the text, so the text's
      length is enough fuel. *)
  Fixpoint file_ (fuel : nat) (s : str) : option str :=
    match fuel with
    | O => Some []
    | S fuel' =>
        match s with
        | [] => Some []
        | c :: s' => match token s with
                     | Some (w, r) => match patterns w with
                                      | Some v => option_map (app (shown v)) (file_ fuel' r)
                                      | None => None
                                      end
                     | None => option_map (cons c) (file_ fuel' s')
                     end
        end
    end.
  Definition autoconf_config_file (code : str) : option str := file_ (S (length code)) code.

  (** The text after "#undef": blanks and a name up to the end of the line. *)
  Fixpoint blanks (s : str) : nat * str :=
    match s with
    | c :: s' => if N.eqb c c_blank then let (n, r) := blanks s' in (S n, r) else (O, s)
    | [] => (O, [])
    end.
  Definition line_end (s : str) : bool := match s with [] => true | c :: _ => N.eqb c c_nl end.
  Definition str_undef : str := [35; 117; 110; 100; 101; 102].   (* #undef *)

  (** #undef +(\w+)$ at the front of [s] *)
  Definition undef (s : str) : option (str * str) :=
    if startswith s str_undef then
      match blanks (skipn (length str_undef) s) with
      | (S _, s1) => match word_run s1 with
                     | (w0 :: w, r) => if line_end r then Some (w0 :: w, r) else None
                     | _ => None
                     end
      | _ => None
      end
    else None.

  Definition str_define : str := [35; 100; 101; 102; 105; 110; 101; 32].   (* "#define " *)
  Definition str_open : str := [47; 42; 32; 35; 117; 110; 100; 101; 102; 32].   (* "/* #undef " *)
  Definition str_close : str := [32; 42; 47].   (* " */" *)

  (** 160-170: the value shown if it is true, None otherwise *)
  Definition defined_text (v : value) : option str :=
    let nonempty s := match s with [] => None | _ => Some s end in
    match v with
    | VBool b => if b then Some [49] else None
    | VStr s => nonempty s
    | VIter l => nonempty (join_blank l)
    | VNone => None
    | VOther s truth => if truth then Some s else None
    end.
  Definition define_line (key : str) : str :=
    match patterns key with
    | Some v => match defined_text v with
                | Some s => str_define ++ key ++ c_blank :: s
                | None => str_open ++ key ++ str_close
                end
    | None => str_open ++ key ++ str_close
    end.

  (** 140-176.  The outcome: KeyError, or the text and the missing definitions. [bol]: at
      the beginning of a line. *)
  Fixpoint header_ (fuel : nat) (bol : bool) (s : str) : option (str * list str) :=
    match fuel with
    | O => Some ([], [])
    | S fuel' =>
        match s with
        | [] => Some ([], [])
        | c :: s' =>
            match (if bol then undef s else None) with
            | Some (k, r) =>
                match header_ fuel' false r with
                | Some (t, ms) =>
                    Some (define_line k ++ t, match patterns k with Some _ => ms | None => k :: ms end)
                | None => None
                end
            | None =>
                match token s with
                | Some (w, r) => match patterns w with
                                 | Some v => match header_ fuel' false r with
                                             | Some (t, ms) => Some (shown v ++ t, ms)
                                             | None => None
                                             end
                                 | None => None
                                 end
                | None => match header_ fuel' (N.eqb c c_nl) s' with
                          | Some (t, ms) => Some (c :: t, ms)
                          | None => None
                          end
                end
            end
        end
    end.

  Inductive outcome := Written (s : str) | KeyErr | Missing (keys : list str).
  (** 178-185 *)
  Definition autoconf_config_header (code : str) : outcome :=
    match header_ (S (length code)) true code with
    | None => KeyErr
    | Some (t, []) => Written t
    | Some (_, ms) => Missing ms
    end.
End Regex.
