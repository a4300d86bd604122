(** How a C compiler driver reads its arguments, after the manual of gcc; and what is expected
    of commands. *)
From Coq Require Import List NArith Bool Arith Sorted.
From Verif Require Import FnModel PathModel LinkModel LinkSpec.
Import ListNotations.
Open Scope N_scope.

(** What one or two words say. *)
Inductive item :=
  | Input (f : str)         (* a file to compile or link *)
  | Output (f : str)        (* -o *)
  | Include (d : str)       (* -I *)
  | Macro (m : str)         (* -D *)
  | Warning (w : str)       (* -W... *)
  | LibDir (d : str)        (* -L *)
  | Machine (m : str)       (* -m... *)
  | Lib (l : str)           (* -l *)
  | Single (w : str)        (* any other option *)
  | Double (w a : str).     (* any other option with its argument in the next word *)

Definition dash : chr := 45.
(** Options that take the next word, among others: -arch -framework -Xlinker -Xpreprocessor
    -Xassembler -include -imacros -isystem -idirafter -iquote -isysroot -x -MF -MT -MQ -u -z -T -e *)
Definition doubles : list str :=
  [ [45;97;114;99;104]; [45;102;114;97;109;101;119;111;114;107]; [45;88;108;105;110;107;101;114];
    [45;88;112;114;101;112;114;111;99;101;115;115;111;114]; [45;88;97;115;115;101;109;98;108;101;114];
    [45;105;110;99;108;117;100;101]; [45;105;109;97;99;114;111;115]; [45;105;115;121;115;116;101;109];
    [45;105;100;105;114;97;102;116;101;114]; [45;105;113;117;111;116;101]; [45;105;115;121;115;114;111;111;116];
    [45;120]; [45;77;70]; [45;77;84]; [45;77;81]; [45;117]; [45;122]; [45;84]; [45;101] ].

(** What a word says: by itself, or together with the next one. *)
Definition word (w : str) : item + (str -> item) :=
  let joined (k : str -> item) (rest : str) : item + (str -> item) :=
    match rest with [] => inr k | _ => inl (k rest) end in
  match w with
  | c0 :: c1 :: rest =>
      if N.eqb c0 dash then
        if N.eqb c1 111 then joined Output rest
        else if N.eqb c1 73 then joined Include rest
        else if N.eqb c1 68 then joined Macro rest
        else if N.eqb c1 76 then joined LibDir rest
        else if N.eqb c1 108 then joined Lib rest
        else if N.eqb c1 87 then inl (Warning rest)
        else if N.eqb c1 109 then inl (Machine rest)
        else if existsb (str_eqb w) doubles then inr (Double w)
        else inl (Single w)
      else inl (Input w)
  | _ => inl (Input w)
  end.

(** None: the argument of the last option is missing. *)
Fixpoint items (ws : list str) : option (list item) :=
  match ws with
  | [] => Some []
  | w :: ws' =>
      match word w with
      | inl i => option_map (cons i) (items ws')
      | inr k => match ws' with
                 | [] => None
                 | a :: ws'' => option_map (cons (k a)) (items ws'')
                 end
      end
  end.

Definition inputs (l : list item) : list str := flat_map (fun i => match i with Input f => [f] | _ => [] end) l.
Definition outputs (l : list item) : list str := flat_map (fun i => match i with Output f => [f] | _ => [] end) l.
Definition lib_dirs (l : list item) : list str := flat_map (fun i => match i with LibDir f => [f] | _ => [] end) l.
Definition the_libs (l : list item) : list str := flat_map (fun i => match i with Lib f => [f] | _ => [] end) l.

(** Only compile, do not link. *)
Definition compile_only (l : list item) : Prop := In (Single [45; 99]) l.

(** Alphabetical order. *)
Inductive before : str -> str -> Prop :=
  | before_nil c b : before [] (c :: b)
  | before_lt c d a b : c < d -> before (c :: a) (d :: b)
  | before_eq c a b : before a b -> before (c :: a) (c :: b).
Definition alphabetical (l : list str) : Prop := StronglySorted before l.

(** The elements of a list, each at its first place. *)
Fixpoint firsts {A} (eqb : A -> A -> bool) (l : list A) : list A :=
  match l with
  | [] => []
  | x :: l' => x :: filter (fun y => negb (eqb x y)) (firsts eqb l')
  end.

(** The directory part of a path: what stands before its last name, without the slashes at its
    end unless there is nothing else. *)
Definition directory (p d : str) : Prop :=
  exists h n, p = h ++ n /\ ~ In c_sep n /\ (h = [] \/ exists h', h = h' ++ [c_sep]) /\
    (((forall c, In c h -> c = c_sep) /\ d = h) \/
     (exists k, h = d ++ repeat c_sep k) /\ exists d' c, d = d' ++ [c] /\ c <> c_sep).

(** The directories that come with a library. *)
Definition paths_of (l : lib) : list str := match l with Plain _ => [] | Library _ ps _ _ => ps end.
Definition brings (l : lib) (d : str) : Prop := In d (paths_of l) \/ directory (path_of l) d.

(** A list in alphabetical order, without repetition, of exactly those that ... *)
Definition exactly (l : list str) (P : str -> Prop) : Prop := alphabetical l /\ forall x, In x l <-> P x.

(** The argument of an option. *)
Definition argument (i : item) : str :=
  match i with
  | Output a | Include a | Macro a | LibDir a | Lib a | Double _ a => a
  | _ => []
  end.

(** [a] comes from [b] by leaving some elements out. *)
Inductive subsequence {A} : list A -> list A -> Prop :=
  | sub_nil : subsequence [] []
  | sub_keep x a b : subsequence a b -> subsequence (x :: a) (x :: b)
  | sub_skip x a b : subsequence a b -> subsequence a (x :: b).

(** One option: a word that stands for itself, or two words.  *)
Definition single_option (o : list str) : Prop := exists w i, o = [w] /\ word w = inl i.
Definition double_option (o : list str) : Prop := exists w a k, o = [w; a] /\ word w = inr k.
(** The word occurs once. *)
Definition once (w : str) (l : list str) : Prop := exists a b, l = a ++ w :: b /\ ~ In w a /\ ~ In w b.
