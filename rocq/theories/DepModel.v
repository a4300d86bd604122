(** Model of lib/fbuild/builders/c/gcc/__init__.py: Builder.compile (438-464), reading
    the dependency file the compiler writes, and of lib/fbuild/builders/ocaml/__init__.py:
    Ocamldep.modules (55-65), reading the output of ocamldep.

    Text is a list of code points.  The regular expressions of the source work on bytes;
    all bytes of characters beyond ASCII are no white space to them and are not
    special, so nothing is lost by matching code points.  Undecodable bytes are left out. *)
From Coq Require Import List NArith Bool Arith.
From Verif Require Import FnModel.
Import ListNotations.
Open Scope N_scope.

Definition c_colon : chr := 58.
Definition c_space : chr := 32.

(** \s of a bytes pattern *)
Definition is_bspace (c : chr) : bool := N.eqb c 32 || (N.leb 9 c && N.leb c 13).

(** str.isspace, the separators of str.split() *)
Definition is_uspace (c : chr) : bool :=
  is_bspace c || (N.leb 28 c && N.leb c 31) || existsb (N.eqb c) [133; 160; 5760; 8232; 8233; 8239; 8287; 12288]
  || (N.leb 8192 c && N.leb c 8202).

(** str.split() without argument; [cur] is the word being read. *)
Fixpoint split_ (cur : str) (s : str) : list str :=
  match s with
  | [] => match cur with [] => [] | _ => [cur] end
  | c :: s' => if is_uspace c
               then match cur with [] => split_ [] s' | _ => cur :: split_ [] s' end
               else split_ (cur ++ [c]) s'
  end.
Definition split (s : str) : list str := split_ [] s.

(** gcc/__init__.py:452: replace(b'\\\n', b'') *)
Fixpoint join_lines (s : str) : str :=
  match s with
  | [] => []
  | c :: s1 => if N.eqb c c_bs
               then match s1 with
                    | d :: s' => if N.eqb d c_nl then join_lines s' else c :: join_lines s1
                    | [] => [c]
                    end
               else c :: join_lines s1
  end.

(** $: at the end, or before a newline at the end *)
Definition at_end (s : str) : bool :=
  match s with
  | [] => true
  | [c] => N.eqb c c_nl
  | _ => false
  end.

(** (.* )$ with .* taking at most [n] characters, the longest first *)
Fixpoint line_ (n : nat) (s : str) : option str :=
  if at_end (skipn n s) then Some (firstn n s)
  else match n with O => None | S n' => line_ n' s end.
(** the length of the longest .* *)
Fixpoint dots (s : str) : nat :=
  match s with
  | [] => O
  | c :: s' => if N.eqb c c_nl then O else S (dots s')
  end.

(** (?: (.* ))?$  The outer None: no match; the inner one: the group took no part. *)
Definition tail_match (s : str) : option (option str) :=
  let skip := if at_end s then Some None else None in
  match s with
  | c :: s' => if N.eqb c c_space
               then match line_ (dots s') s' with
                    | Some g => Some (Some g)
                    | None => skip
                    end
               else skip
  | [] => skip
  end.

(** \S+ taking [n] characters or fewer, at least one, then a colon and the rest *)
Fixpoint target_match (n : nat) (s : str) : option (option str) :=
  match n with
  | O => None
  | S n' => match skipn n s with
            | c :: s' => match (if N.eqb c c_colon then tail_match s' else None) with
                         | Some r => Some r
                         | None => target_match n' s
                         end
            | [] => target_match n' s
            end
  end.
(** the length of the longest run at the front *)
Fixpoint run (p : chr -> bool) (s : str) : nat :=
  match s with
  | [] => O
  | c :: s' => if p c then S (run p s') else O
  end.

(** re.match(b'\S+:(?: (.* ))?$', s) *)
Definition rule_match (s : str) : option (option str) :=
  target_match (run (fun c => negb (is_bspace c)) s) s.

(** re.match(b'\s*\S+:(?: (.* ))?$', s): \s* taking [n] characters or fewer *)
Fixpoint spaced_match (n : nat) (s : str) : option (option str) :=
  match rule_match (skipn n s) with
  | Some r => Some r
  | None => match n with O => None | S n' => spaced_match n' s end
  end.

(** gcc/__init__.py:449-462.  None: ExecutionError; otherwise the files registered as
    external sources (nothing is registered for an empty group, 461). *)
Definition read_deps (file : str) : option (list str) :=
  let stdout := join_lines file in
  match spaced_match (run is_bspace stdout) stdout with
  | None => None
  | Some None => Some []
  | Some (Some s) => Some (split s)
  end.

(** bytes.strip() *)
Fixpoint lstrip (s : str) : str :=
  match s with
  | [] => []
  | c :: s' => if is_bspace c then lstrip s' else s
  end.
Definition strip (s : str) : str := rev (lstrip (rev (lstrip s))).

(** ocaml/__init__.py:56-65 *)
Definition read_modules (stdout : str) : option (list str) :=
  match rule_match (strip stdout) with
  | None => None
  | Some None => Some []
  | Some (Some s) => Some (split s)
  end.
