(** Properties of path operations (path.py). *)
From Coq Require Import String Ascii List NArith Bool Lia.
From Verif Require Import FnModel PathModel PathSpec PathFacts.
Import ListNotations.
Open Scope N_scope.

Definition text (s : string) : str := map N_of_ascii (list_ascii_of_string s).

(** C42, the claims. *)
Definition placed_below : Prop := forall root p, root <> [] -> below root (addroot p root).
Definition removeroot_undoes : Prop :=
  forall root p, isabs p = false -> removeroot (addroot p root) (root ++ [c_sep]) = p.

(** buildx/a already starts with the characters of build. *)
Theorem C42_below_refuted : ~ placed_below.
Proof.
  intros H. destruct (H (text "build") (text "buildx/a") ltac:(discriminate)) as (_ & cs & Hc & _).
  vm_compute in Hc. discriminate.
Qed.

(** ../a is put at build/../a. *)
Theorem C42_below_refuted_dotdot : ~ below (text "build") (addroot (text "../a") (text "build")).
Proof.
  intros (_ & cs & Hc & Hs). vm_compute in Hc. injection Hc as <-. vm_compute in Hs. discriminate.
Qed.

(** build/a is put at build/a, and so removeroot gives a. *)
Theorem C42_removeroot_refuted : ~ removeroot_undoes.
Proof. intros H. specialize (H (text "build") (text "build/a") eq_refl). vm_compute in H. discriminate. Qed.

(** [placeable]: a relative path does not climb out of the directory it starts from;
    the last name of an absolute one is not "..", and a path starting with the root
    does so up to a slash. *)
Theorem C42_below_partial root p : placeable root p -> below root (addroot p root).
Proof. exact (addroot_below root p). Qed.

Theorem C42_idempotent p root : addroot (addroot p root) root = addroot p root.
Proof. exact (addroot_idem p root). Qed.

Theorem C42_removeroot_partial p root :
  isabs p = false -> (forall q, p <> root ++ q) -> ends_sep root = false ->
  removeroot (addroot p root) (root ++ [c_sep]) = p.
Proof. exact (removeroot_addroot p root). Qed.

(** C43: splitall returns (for any fuel beyond the length of the path), its parts are
    names or the leading slashes, and joining them gives the path with repeated
    slashes squeezed. *)
Theorem C43_splitall p fuel : (fuel > length p)%nat ->
  exists l, splitall fuel p = Some l /\ path_new l = squeeze p /\
    (forall n, In n l -> (~ In c_sep n \/ (n <> [] /\ forall c, In c n -> c = c_sep))).
Proof. exact (splitall_ok p fuel). Qed.

(** splitext finds the extension of the last name. *)
Theorem C43_splitext p r e : splitext p = (r, e) <-> is_ext p r e.
Proof. exact (splitext_ext p r e). Qed.

(** replaceext changes the last name only, in its extension only. *)
Theorem C43_replaceext p ext n :
  ~ In c_sep ext -> is_last_name p n ->
  fst (psplit (replaceext p ext)) = fst (psplit p) /\
  exists h r e, p = h ++ n /\ n = r ++ e /\ replaceext p ext = h ++ r ++ ext /\
    snd (splitext p) = e /\ is_last_name (replaceext p ext) (r ++ ext).
Proof. exact (replaceext_last p ext n). Qed.

(** addprefix changes the last name only, by the prefix. *)
Theorem C43_addprefix p pre n :
  ~ In c_sep pre -> is_last_name p n ->
  fst (psplit (addprefix p pre)) = fst (psplit p) /\ is_last_name (addprefix p pre) (pre ++ n).
Proof. exact (addprefix_last p pre n). Qed.

(** C44, the claim. *)
Definition products_distinct : Prop :=
  forall root p q, addroot p root = addroot q root -> p = q.

(** /x/a.c and /y/a.c are both put at build/a.c. *)
Theorem C44_distinct_refuted : ~ products_distinct.
Proof. intros H. specialize (H (text "build") (text "/x/a.c") (text "/y/a.c") eq_refl). discriminate. Qed.

(** Objects of a.c and a.cpp, too. *)
Theorem C44_distinct_refuted_ext :
  replaceext (addroot (text "a.c") (text "build")) (text ".o") =
  replaceext (addroot (text "a.cpp") (text "build")) (text ".o").
Proof. vm_compute. reflexivity. Qed.

Theorem C44_distinct_partial root p q :
  isabs p = false -> isabs q = false ->
  (forall r, p <> root ++ r) -> (forall r, q <> root ++ r) ->
  addroot p root = addroot q root -> p = q.
Proof. exact (addroot_inj root p q). Qed.

(** Also for products with a new extension, from sources with the same one. *)
Theorem C44_products_partial root ext p q :
  isabs p = false -> isabs q = false ->
  (forall r, p <> root ++ r) -> (forall r, q <> root ++ r) ->
  snd (splitext p) = snd (splitext q) ->
  replaceext (addroot p root) ext = replaceext (addroot q root) ext -> p = q.
Proof. exact (product_inj root ext p q). Qed.

(** Examples *)
Lemma not_starting p root : startswith p root = false -> forall q, p <> root ++ q.
Proof. intros H q ->. rewrite startswith_app in H. discriminate. Qed.

Example ex_placeable : placeable (text "build") (text "src/../src/a.c").
Proof.
  split; [discriminate|]. split.
  - intros q Hq. exfalso. exact (not_starting (text "src/../src/a.c") (text "build") eq_refl q Hq).
  - split; [reflexivity|discriminate].
Qed.
Example ex_placed : addroot (text "src/../src/a.c") (text "build") = text "build/src/../src/a.c".
Proof. vm_compute. reflexivity. Qed.
Example ex_placeable_abs : placeable (text "build") (text "/usr/include/a.h").
Proof.
  split; [discriminate|]. split.
  - intros q Hq. exfalso. exact (not_starting (text "/usr/include/a.h") (text "build") eq_refl q Hq).
  - split; [discriminate|]. intros _ _ Hl. apply last_name_cut in Hl. vm_compute in Hl. discriminate.
Qed.
Example ex_placeable_there : placeable (text "build") (text "build/a.o").
Proof.
  split; [discriminate|]. split.
  - intros q Hq. change (text "build/a.o") with (text "build" ++ text "/a.o") in Hq.
    apply app_inv_head in Hq. subst q. split; [right; left; reflexivity|reflexivity].
  - split; intros Hn; exfalso; exact (Hn (text "/a.o") eq_refl).
Qed.
Example ex_splitall : splitall 20 (text "//a//b/c.ext") = Some [text "//"; text "a"; text "b"; text "c.ext"].
Proof. vm_compute. reflexivity. Qed.
Example ex_splitall_slash : splitall 20 (text "a/b//") = Some [text "a"; text "b"; []].
Proof. vm_compute. reflexivity. Qed.
Example ex_splitext : splitext (text "a.b/c.d.e") = (text "a.b/c.d", text ".e").
Proof. vm_compute. reflexivity. Qed.
Example ex_splitext_hidden : splitext (text "a.b/.profile") = (text "a.b/.profile", []).
Proof. vm_compute. reflexivity. Qed.
Example ex_replaceext : replaceext (text "a.b/c.d.e") (text ".o") = text "a.b/c.d.o".
Proof. vm_compute. reflexivity. Qed.
Example ex_distinct_hyps : isabs (text "a/x.c") = false /\ startswith (text "a/x.c") (text "build") = false /\
  isabs (text "b/x.c") = false /\ startswith (text "b/x.c") (text "build") = false /\
  snd (splitext (text "a/x.c")) = snd (splitext (text "b/x.c")).
Proof. vm_compute. auto. Qed.

Print Assumptions C42_below_refuted.
Print Assumptions C42_below_refuted_dotdot.
Print Assumptions C42_removeroot_refuted.
Print Assumptions C42_below_partial.
Print Assumptions C42_idempotent.
Print Assumptions C42_removeroot_partial.
Print Assumptions C43_splitall.
Print Assumptions C43_splitext.
Print Assumptions C43_replaceext.
Print Assumptions C44_distinct_refuted.
Print Assumptions C44_distinct_refuted_ext.
Print Assumptions C44_distinct_partial.
Print Assumptions C44_products_partial.

Example C43_addprefix_ex : addprefix (text "foo/bar/baz.ext") (text "boo") = text "foo/bar/boobaz.ext".
Proof. reflexivity. Qed.
Print Assumptions C43_addprefix.
