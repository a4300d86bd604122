(** Model of lib/fbuild/fnmatch.py and glob.escape / glob.has_magic.

    Strings are lists of code points.  The translation to a regular expression is
    modelled at the level of text, as in the source; Python's [re] module is
    modelled by a parser and a matcher for the constructs the translation can emit
    (anything else is [None], an error). *)
From Coq Require Import List NArith Bool Arith.
Import ListNotations.

Definition chr := N.
Definition str := list chr.
Open Scope N_scope.

Definition c_star : chr := 42.    (* * *)
Definition c_quest : chr := 63.   (* ? *)
Definition c_lbrk : chr := 91.    (* [ *)
Definition c_rbrk : chr := 93.    (* ] *)
Definition c_lbrace : chr := 123. (* { *)
Definition c_rbrace : chr := 125. (* } *)
Definition c_comma : chr := 44.
Definition c_bang : chr := 33.    (* ! *)
Definition c_caret : chr := 94.   (* ^ *)
Definition c_bs : chr := 92.      (* \ *)
Definition c_dot : chr := 46.
Definition c_bar : chr := 124.    (* | *)
Definition c_lpar : chr := 40.
Definition c_rpar : chr := 41.
Definition c_dollar : chr := 36.
Definition c_minus : chr := 45.
Definition c_plus : chr := 43.
Definition c_nl : chr := 10.

(** re.escape of one character (CPython >= 3.7, Lib/re.py _special_chars_map:
    the characters of  ()[]{}?*+-|^$\.&~#  and white space). *)
Definition specials : list chr :=
  [40; 41; 91; 93; 123; 125; 63; 42; 43; 45; 124; 94; 36; 92; 46; 38; 126; 35; 32; 9; 10; 13; 11; 12].
Definition special (c : chr) : bool := existsb (N.eqb c) specials.
Definition re_escape (c : chr) : str := if special c then [c_bs; c] else [c].

(** fnmatch.py:108-112: the scan for the closing bracket; the argument is the text
    after the [ .  Result: the text between the brackets and the text after. *)
Fixpoint find_rbrk (s : str) : option (str * str) :=
  match s with
  | [] => None
  | c :: s' => if N.eqb c c_rbrk then Some ([], s')
               else match find_rbrk s' with
                    | Some (a, b) => Some (c :: a, b)
                    | None => None
                    end
  end.

Definition skip_rbrk (s : str) : option (str * str) :=
  match s with
  | c :: s' => if N.eqb c c_rbrk
               then match find_rbrk s' with Some (a, b) => Some (c :: a, b) | None => None end
               else find_rbrk s
  | [] => None
  end.

Definition scan_set (s : str) : option (str * str) :=
  match s with
  | c :: s' => if N.eqb c c_bang
               then match skip_rbrk s' with Some (a, b) => Some (c :: a, b) | None => None end
               else skip_rbrk s
  | [] => None
  end.

(** stuff.replace('\\', '\\\\') *)
Fixpoint double_bs (s : str) : str :=
  match s with
  | [] => []
  | c :: s' => if N.eqb c c_bs then c_bs :: c_bs :: double_bs s' else c :: double_bs s'
  end.

(** fnmatch.py:116-122.  stuff[0] exists: the scan never returns an empty text. *)
Definition set_text (stuff : str) : str :=
  let stuff := double_bs stuff in
  [c_lbrk] ++
  match stuff with
  | c :: rest => if N.eqb c c_bang then c_caret :: rest
                 else if N.eqb c c_caret then c_bs :: stuff
                 else stuff
  | [] => []
  end ++ [c_rbrk].

Fixpoint join (sep : chr) (l : list str) : str :=
  match l with
  | [] => []
  | [x] => x
  | x :: l' => x ++ sep :: join sep l'
  end.

(** _translate (fnmatch.py:90-125) and _translate_subexpression (127-143) on the
    rest of the pattern; [nested] tells whether [end] is ',}' or ''.  The result is
    the rest, the terminator and the text.  None: out of fuel. *)
Fixpoint translate_ (fuel : nat) (nested : bool) (s : str) : option (str * option chr * str) :=
  match fuel with
  | O => None
  | S fuel =>
      match s with
      | [] => Some ([], None, [])
      | c :: s' =>
          let emit t rest :=
            match translate_ fuel nested rest with
            | Some (r, e, res) => Some (r, e, t ++ res)
            | None => None
            end in
          if nested && (N.eqb c c_comma || N.eqb c c_rbrace) then Some (s, Some c, [])
          else if N.eqb c c_star then emit [c_dot; c_star] s'
          else if N.eqb c c_quest then emit [c_dot] s'
          else if N.eqb c c_lbrk then
            match scan_set s' with
            | None => emit [c_bs; c_lbrk] s'
            | Some (stuff, rest) => emit (set_text stuff) rest
            end
          else if N.eqb c c_lbrace then
            match subexpressions fuel s' with
            | None => None
            | Some (rest, true, subs) => emit ([c_lpar] ++ join c_bar subs ++ [c_rpar]) rest
            | Some (rest, false, subs) => emit (c_lbrace :: join c_comma subs) rest
            end
          else emit (re_escape c) s'
      end
  end
with subexpressions (fuel : nat) (s : str) : option (str * bool * list str) :=
  match fuel with
  | O => None
  | S fuel =>
      match translate_ fuel true s with
      | None => None
      | Some (rest, Some c, res) =>
          if N.eqb c c_comma then
            match subexpressions fuel (tl rest) with
            | Some (r, closed, subs) => Some (r, closed, res :: subs)
            | None => None
            end
          else Some (tl rest, true, [res])
      | Some (rest, None, res) => Some (rest, false, [res])
      end
  end.

Definition fuel_for (s : str) : nat := 2 * length s + 3.

(** fnmatch.py:82-88 *)
Definition translate (pat : str) : option str :=
  match translate_ (fuel_for pat) false pat with
  | Some (_, _, res) => Some (res ++ [c_dollar])
  | None => None
  end.

(** *** Python's re, for the constructs above *)
Inductive member := MChar (c : chr) | MRange (lo hi : chr).
Inductive regex :=
  | REps
  | RLit (c : chr)
  | RAny                          (* .  : any character but newline *)
  | RAnyStar                      (* .* *)
  | RSet (neg : bool) (ms : list member)
  | RDollar                       (* $  : at the end, or before a newline at the end *)
  | RCat (a b : regex)
  | RAlt (a b : regex).

Definition in_member (c : chr) (m : member) : bool :=
  match m with
  | MChar d => N.eqb c d
  | MRange lo hi => N.leb lo c && N.leb c hi
  end.

(** The rests of the subject a regular expression can leave when matched at the
    beginning.  Backtracking finds a match exactly if one exists. *)
Fixpoint any_star (s : str) : list str :=
  s :: match s with
       | c :: s' => if N.eqb c c_nl then [] else any_star s'
       | [] => []
       end.

Fixpoint rests (r : regex) (s : str) : list str :=
  match r with
  | REps => [s]
  | RLit c => match s with d :: s' => if N.eqb c d then [s'] else [] | [] => [] end
  | RAny => match s with d :: s' => if N.eqb d c_nl then [] else [s'] | [] => [] end
  | RAnyStar => any_star s
  | RSet neg ms =>
      match s with
      | d :: s' => if xorb neg (existsb (in_member d) ms) then [s'] else []
      | [] => []
      end
  | RDollar => match s with
               | [] => [s]
               | [c] => if N.eqb c c_nl then [s] else []
               | _ => []
               end
  | RCat a b => flat_map (rests b) (rests a s)
  | RAlt a b => rests a s ++ rests b s
  end.

(** regex.match(name) is not None *)
Definition re_match (r : regex) (name : str) : bool :=
  match rests r name with [] => false | _ => true end.

(** Escapes of other characters than letters and digits stand for the character
    (sre_parse._escape, _class_escape). *)
Definition alnum (c : chr) : bool :=
  (N.leb 48 c && N.leb c 57) || (N.leb 65 c && N.leb c 90) || (N.leb 97 c && N.leb c 122).

(** One character of a set, perhaps escaped. *)
Definition set_char (s : str) : option (chr * str) :=
  match s with
  | [] => None
  | c :: s' => if N.eqb c c_bs
               then match s' with
                    | d :: s'' => if alnum d then None else Some (d, s'')
                    | [] => None
                    end
               else Some (c, s')
  end.

(** sre_parse._parse for "[": the members up to the closing bracket; [first] tells
    that no member was read yet. *)
Fixpoint parse_set (fuel : nat) (first : bool) (s : str) : option (list member * str) :=
  match fuel with
  | O => None
  | S fuel =>
      match s with
      | [] => None
      | c :: s' =>
          if N.eqb c c_rbrk && negb first then Some ([], s')
          else
            match set_char s with
            | None => None
            | Some (lo, s1) =>
                match s1 with
                | d :: s2 =>
                    if N.eqb d c_minus then
                      match s2 with
                      | [] => None
                      | e :: s3 =>
                          if N.eqb e c_rbrk then Some ([MChar lo; MChar c_minus], s3)
                          else match set_char s2 with
                               | None => None
                               | Some (hi, s4) =>
                                   if N.ltb hi lo then None       (* re.error: bad range *)
                                   else match parse_set fuel false s4 with
                                        | Some (ms, r) => Some (MRange lo hi :: ms, r)
                                        | None => None
                                        end
                               end
                      end
                    else match parse_set fuel false s1 with
                         | Some (ms, r) => Some (MChar lo :: ms, r)
                         | None => None
                         end
                | [] => None
                end
            end
      end
  end.

Definition digit (c : chr) : bool := N.leb 48 c && N.leb c 57.
Fixpoint skip_digits (s : str) : str :=
  match s with
  | c :: s' => if digit c then skip_digits s' else s
  | [] => []
  end.

(** Does the text after "{" make it a quantifier (sre_parse._parse)? *)
Definition quantifier (s : str) : bool :=
  match s with
  | c :: _ =>
      if N.eqb c c_rbrace then false
      else
        let s1 := skip_digits s in
        let s2 := match s1 with
                  | d :: s' => if N.eqb d c_comma then skip_digits s' else s1
                  | [] => []
                  end in
        match s2 with d :: _ => N.eqb d c_rbrace | [] => false end
  | [] => false
  end.

(** sre_parse._parse_sub and _parse.  [parse_alt] reads alternatives up to a closing
    parenthesis or the end, [parse_seq] one alternative. *)
Fixpoint parse_seq (fuel : nat) (s : str) : option (regex * str) :=
  match fuel with
  | O => None
  | S fuel =>
      let continue r rest :=
        match parse_seq fuel rest with
        | Some (q, rest') => Some (RCat r q, rest')
        | None => None
        end in
      match s with
      | [] => Some (REps, [])
      | c :: s' =>
          if N.eqb c c_bar || N.eqb c c_rpar then Some (REps, s)
          else if N.eqb c c_dot then
            match s' with
            | d :: s'' => if N.eqb d c_star then continue RAnyStar s'' else continue RAny s'
            | [] => continue RAny s'
            end
          else if N.eqb c c_bs then
            match s' with
            | d :: s'' => if alnum d then None else continue (RLit d) s''
            | [] => None
            end
          else if N.eqb c c_lbrk then
            match s' with
            | d :: s'' =>
                if N.eqb d c_caret
                then match parse_set (S (length s'')) true s'' with
                     | Some (ms, rest) => continue (RSet true ms) rest
                     | None => None
                     end
                else match parse_set (S (length s')) true s' with
                     | Some (ms, rest) => continue (RSet false ms) rest
                     | None => None
                     end
            | [] => None
            end
          else if N.eqb c c_lpar then
            match parse_alt fuel s' with
            | Some (r, d :: rest) => if N.eqb d c_rpar then continue r rest else None
            | _ => None
            end
          else if N.eqb c c_dollar then continue RDollar s'
          else if N.eqb c c_lbrace then
            if quantifier s' then None else continue (RLit c) s'
          else if N.eqb c c_star || N.eqb c c_plus || N.eqb c c_quest || N.eqb c c_caret then None
          else continue (RLit c) s'
      end
  end
with parse_alt (fuel : nat) (s : str) : option (regex * str) :=
  match fuel with
  | O => None
  | S fuel =>
      match parse_seq fuel s with
      | Some (r, c :: rest) =>
          if N.eqb c c_bar then
            match parse_alt fuel rest with
            | Some (q, rest') => Some (RAlt r q, rest')
            | None => None
            end
          else Some (r, c :: rest)
      | Some (r, []) => Some (r, [])
      | None => None
      end
  end.

(** re.compile; a character directly followed by a quantifier is never emitted, and
    [parse_seq] rejects it. *)
Definition re_compile (s : str) : option regex :=
  match parse_alt (2 * length s + 3) s with
  | Some (r, []) => Some r
  | _ => None
  end.

Definition compile (pat : str) : option regex :=
  match translate pat with
  | Some t => re_compile t
  | None => None
  end.

(** fnmatchcase (fnmatch.py:72-80); fnmatch is the same on POSIX, where normcase is
    the identity.  None: the pattern is rejected (re.error). *)
Definition fnmatch (name pat : str) : option bool :=
  match compile pat with
  | Some r => Some (re_match r name)
  | None => None
  end.

(** *** The module's cache of compiled patterns, and filter *)
Definition str_eqb (a b : str) : bool :=
  if list_eq_dec N.eq_dec a b then true else false.
Definition fncache := list (str * regex).
Fixpoint cache_get (c : fncache) (pat : str) : option regex :=
  match c with
  | [] => None
  | (p, r) :: c' => if str_eqb p pat then Some r else cache_get c' pat
  end.

(** _compile_pattern, fnmatch.py:41-53; None: re.error, nothing is stored.  Bytes
    patterns have a cache of their own and are decoded to the same code points. *)
Definition compile_pattern (c : fncache) (pat : str) : option regex * fncache :=
  match cache_get c pat with
  | Some r => (Some r, c)
  | None => match compile pat with
            | Some r => (Some r, (pat, r) :: c)
            | None => (None, c)
            end
  end.

(** filter, fnmatch.py:55-70 (POSIX) *)
Definition fn_filter (c : fncache) (names : list str) (pat : str) : option (list str) * fncache :=
  let (o, c) := compile_pattern c pat in
  match o with
  | Some r =>
      (Some (fold_left (fun result name => if re_match r name then result ++ [name] else result) names []), c)
  | None => (None, c)
  end.

(** fnmatchcase, fnmatch.py:72-80 *)
Definition fn_match (c : fncache) (name pat : str) : option bool * fncache :=
  let (o, c) := compile_pattern c pat in
  match o with
  | Some r => (Some (re_match r name), c)
  | None => (None, c)
  end.

(** What a program can do with the module. *)
Inductive fn_op := FMatch (name pat : str) | FFilter (names : list str) (pat : str).
Definition fn_step (c : fncache) (o : fn_op) : fncache :=
  match o with
  | FMatch name pat => snd (fn_match c name pat)
  | FFilter names pat => snd (fn_filter c names pat)
  end.

(** *** glob.py *)
(** glob.py:134-142: magic_check = re.compile('([*?[{])') *)
Definition magic (c : chr) : bool :=
  N.eqb c c_star || N.eqb c c_quest || N.eqb c c_lbrk || N.eqb c c_lbrace.
Definition has_magic (s : str) : bool := existsb magic s.

(** glob.py:153-163, POSIX: splitdrive gives an empty drive. *)
Fixpoint escape (s : str) : str :=
  match s with
  | [] => []
  | c :: s' => if magic c then c_lbrk :: c :: c_rbrk :: escape s' else c :: escape s'
  end.
