(** What is in a directory. *)
From Coq Require Import List Bool String Ascii.
From Verif Require Import CrxModel.
Import ListNotations.
Open Scope string_scope.

Inductive kind := IsFile | IsDir.
(** The names that lead to an entry, and what it is. *)
Inductive leads : tree -> list string -> kind -> Prop :=
  | leads_file n r : leads (File n r) [n] IsFile
  | leads_dir n s r : leads (Sub n s r) [n] IsDir
  | leads_in n s r ns k : leads s ns k -> leads (Sub n s r) (n :: ns) k
  | leads_past_file n r ns k : leads r ns k -> leads (File n r) ns k
  | leads_past_sub n s r ns k : leads r ns k -> leads (Sub n s r) ns k.
Fixpoint each (P : ascii -> Prop) (s : string) : Prop := match s with EmptyString => True | String c s => P c /\ each P s end.
Definition name_ok (n : string) : Prop := n <> "" /\ each (fun c => c <> "/"%char) n.
Fixpoint names_ok (t : tree) : Prop :=
  match t with End => True | File n r => name_ok n /\ names_ok r | Sub n s r => name_ok n /\ names_ok s /\ names_ok r end.
(** A pathname that does not end with a slash. *)
Definition proper (root : string) : Prop := root <> "" /\ forall a, root <> a ++ "/".
Definition wanted (include_dirs : bool) (k : kind) : Prop := k = IsDir -> include_dirs = true.
(** The number of entries. *)
Fixpoint entries (include_dirs : bool) (t : tree) : nat :=
  match t with
  | End => 0
  | File _ r => S (entries include_dirs r)
  | Sub _ s r => (if include_dirs then 1 else 0) + entries include_dirs s + entries include_dirs r
  end.
