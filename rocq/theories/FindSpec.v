(** What ocamlfind should be told besides what ocamlc is. *)
From Coq Require Import List NArith Bool Arith.
From Verif Require Import FnModel OcamlBuildSpec FindModel.
Import ListNotations.
Open Scope N_scope.

(** -package -syntax -ppopt -linkpkg *)
Definition s_package : str := [45; 112; 97; 99; 107; 97; 103; 101].
Definition s_syntax : str := [45; 115; 121; 110; 116; 97; 120].
Definition s_ppopt : str := [45; 112; 112; 111; 112; 116].
Definition s_linkpkg : str := [45; 108; 105; 110; 107; 112; 107; 103].
(** Values of the option [w] among what a command says, in order. *)
Fixpoint values (w : str) (l : list oitem) : list str :=
  match l with
  | OOpt2 v a :: l' => if str_eqb v w then a :: values w l' else values w l'
  | _ :: l' => values w l'
  | [] => []
  end.
Definition says (w : str) (l : list oitem) : bool :=
  existsb (fun i => match i with OOpt v => str_eqb v w | _ => false end) l.
(** Without the options of ocamlfind. *)
Definition is_find (i : oitem) : bool :=
  match i with
  | OOpt2 w _ => str_eqb w s_package || str_eqb w s_syntax || str_eqb w s_ppopt
  | OOpt w => str_eqb w s_linkpkg
  | _ => false
  end.
Definition others (l : list oitem) : list oitem := filter (fun i => negb (is_find i)) l.

(** [l'] is [l] with [new] somewhere in it. *)
Definition inserted (new l l' : list str) : Prop := exists a b, l = a ++ b /\ l' = a ++ new ++ b.

(** [args]: the command of ocamlfind, then what [plain] says and the options of ocamlfind: the packages, syntaxes and
    options for the preprocessor of the builder and those of the call, and whether the packages are linked.  [P]: what
    [plain] says; the flags of a script may be options of ocamlfind themselves. *)
Definition told (cmd : str) (self call : libs_of) (linkpkg : bool) (P : list oitem) (args : list str) : Prop :=
  exists words L, args = cmd :: words /\ oitems words = Some L /\
  others L = others P /\
  inserted (fi_packages self ++ fi_packages call) (values s_package P) (values s_package L) /\
  inserted (fi_syntaxes self ++ fi_syntaxes call) (values s_syntax P) (values s_syntax L) /\
  inserted (fi_ppopts self ++ fi_ppopts call) (values s_ppopt P) (values s_ppopt L) /\
  says s_linkpkg L = says s_linkpkg P || linkpkg.
