(** How ocamlc and ocamlopt read their arguments, after the manual, and what is expected of builds. *)
From Coq Require Import List NArith Bool Arith.
From Verif Require Import FnModel PathModel PathSpec GlobModel OcamlSpec.
Import ListNotations.
Open Scope N_scope.

Inductive oitem :=
  | OIn (f : str)            (* a file to compile or link *)
  | OOut (f : str)           (* -o *)
  | OInc (d : str)           (* -I *)
  | OOpt (w : str)           (* any other option *)
  | OOpt2 (w a : str).       (* any other option and its argument, the next word *)

(** Options with an argument: -cc -cclib -ccopt -pp -ppx -for-pack -w -warn-error -open -impl -intf -dllib -dllpath
    -use-runtime -inline -package -syntax -ppopt *)
Definition with_argument : list str :=
  [ [45;99;99]; [45;99;99;108;105;98]; [45;99;99;111;112;116]; [45;112;112]; [45;112;112;120];
    [45;102;111;114;45;112;97;99;107]; [45;119]; [45;119;97;114;110;45;101;114;114;111;114]; [45;111;112;101;110];
    [45;105;109;112;108]; [45;105;110;116;102]; [45;100;108;108;105;98]; [45;100;108;108;112;97;116;104];
    [45;117;115;101;45;114;117;110;116;105;109;101]; [45;105;110;108;105;110;101];
    [45;112;97;99;107;97;103;101]; [45;115;121;110;116;97;120]; [45;112;112;111;112;116] ].

Definition oword (w : str) : oitem + (str -> oitem) :=
  match w with
  | c :: _ =>
      if N.eqb c 45 then
        if str_eqb w [45; 111] then inr OOut
        else if str_eqb w [45; 73] then inr OInc
        else if existsb (str_eqb w) with_argument then inr (OOpt2 w)
        else inl (OOpt w)
      else inl (OIn w)
  | [] => inl (OIn w)
  end.
(** None: the argument of the last option is missing. *)
Fixpoint oitems (ws : list str) : option (list oitem) :=
  match ws with
  | [] => Some []
  | w :: ws' =>
      match oword w with
      | inl i => option_map (cons i) (oitems ws')
      | inr k => match ws' with
                 | [] => None
                 | a :: ws'' => option_map (cons (k a)) (oitems ws'')
                 end
      end
  end.
Definition o_inputs (l : list oitem) : list str := flat_map (fun i => match i with OIn f => [f] | _ => [] end) l.
Definition o_outputs (l : list oitem) : list str := flat_map (fun i => match i with OOut f => [f] | _ => [] end) l.

(** [src] needs [p]: a file of a module it names, or its interface. *)
Definition needs (w : world) (includes : list str) (buildroot : str) (modules : str -> list str) (src p : str) : Prop :=
  (exists m, In m (modules src) /\ names_file w includes m p) \/ has_interface w includes buildroot src p.

(** What is needed for compiling alone: of each module named its interface, or its implementation if it has none. *)
Definition compile_needs (w : world) (includes : list str) (buildroot : str) (modules : str -> list str) (src p : str) : Prop :=
  has_interface w includes buildroot src p \/
  exists m, In m (modules src) /\ names_file w includes m p /\
    forall q, names_file w includes m q -> (exists b, q = b ++ [46; 109; 108; 105]) -> exists b, p = b ++ [46; 109; 108; 105].

(** .ml and .mli *)
Definition implementation (s : str) : Prop := exists b, s = b ++ [46; 109; 108].
Definition interface (s : str) : Prop := exists b, s = b ++ [46; 109; 108; 105].

(** A relative path that starts with the root only as a directory. *)
Definition placed (root p : str) : Prop :=
  isabs p = false /\ root <> [] /\ ends_sep root = false /\ forall q, p = root ++ q -> exists r, q = c_sep :: r.
(** Where it is in the root. *)
Definition copy_of (root s c : str) : Prop :=
  (exists r, s = root ++ c_sep :: r) /\ c = s \/ (forall r, s <> root ++ c_sep :: r) /\ c = root ++ c_sep :: s.
(** A source with more than dots before its extension. *)
Definition source (s : str) : Prop := exists b n c,
  (s = b ++ [46; 109; 108] \/ s = b ++ [46; 109; 108; 105]) /\ is_last_name b n /\ In c n /\ c <> c_dot.
(** The compiled file of a source: .cmi for interfaces. *)
Definition object_of (suffix root s o : str) : Prop := exists c b, copy_of root s c /\
  (c = b ++ [46; 109; 108] /\ o = b ++ suffix \/ c = b ++ [46; 109; 108; 105] /\ o = b ++ [46; 99; 109; 105]).

(** Those elements that are ..., in the same order. *)
Inductive kept (P : str -> Prop) : list str -> list str -> Prop :=
  | kept_nil : kept P [] []
  | kept_take x l k : P x -> kept P l k -> kept P (x :: l) (x :: k)
  | kept_skip x l k : ~ P x -> kept P l k -> kept P l (x :: k).
