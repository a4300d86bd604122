(** Properties of the order of libraries (builders/c/gcc: Gcc.__call__). *)
From Coq Require Import String Ascii List NArith Bool.
From Verif Require Import FnModel PathModel PathSpec PathFacts LinkModel LinkSpec LinkFacts.
Import ListNotations.

Definition text (s : string) : str := map N_of_ascii (list_ascii_of_string s).

(** C53, the claims: a library is left of what it depends on; different libraries
    are listed separately. *)
Definition before_dependencies : Prop :=
  forall sp p se e sl l k d d',
    used (sl ++ l) k -> In d (deps k) -> reach d d' ->
    left_of (named k) (named d') (r_libs (link sp p se e sl l)).
Definition each_listed : Prop :=
  forall sp p se e sl l k k', used (sl ++ l) k -> used (sl ++ l) k' -> path_of k <> path_of k' ->
    exists a b, In a (r_libs (link sp p se e sl l)) /\ In b (r_libs (link sp p se e sl l)) /\
      a = named k /\ b = named k' /\ a <> b.

Definition liby : lib := Plain (text "out/liby.so").
Definition libx : lib := Library (text "out/libx.so") [] [liby] [].

(** The same library given as path first, then with its dependencies. *)
Theorem C53_order_refuted : ~ before_dependencies.
Proof.
  intros H. specialize (H [] [] [] [] [] [Plain (text "out/libx.so"); libx] libx liby liby).
  destruct H as (l1 & l2 & l3 & E).
  - exists libx. split; [right; left; reflexivity|constructor].
  - left. reflexivity.
  - constructor.
  - vm_compute in E. destruct l1 as [|a [|b [|c l1]]]; try discriminate. injection E as _ E.
    destruct l2; discriminate.
Qed.

(** Libraries of the same name in different directories. *)
Theorem C53_listed_refuted : ~ each_listed.
Proof.
  intros H. destruct (H [] [] [] [] [] [Plain (text "a/libx.so"); Plain (text "b/libx.so")]
    (Plain (text "a/libx.so")) (Plain (text "b/libx.so"))) as (a & b & _ & _ & -> & -> & Hn).
  - eexists. split; [left; reflexivity|constructor].
  - eexists. split; [right; left; reflexivity|constructor].
  - discriminate.
  - apply Hn. reflexivity.
Qed.

(** No name is listed twice. *)
Theorem C53_once sp p se e sl l : NoDup (r_libs (link sp p se e sl l)).
Proof. exact (link_nodup sp p se e sl l). Qed.

(** All libraries with different names: exactly those used are listed, each left of
    all it depends on. *)
Theorem C53_order_partial sp p se e sl l :
  distinct_names (sl ++ l) ->
  let r := r_libs (link sp p se e sl l) in
  (forall n, In n r <-> exists k, used (sl ++ l) k /\ named k = n) /\
  (forall k d d', used (sl ++ l) k -> In d (deps k) -> reach d d' -> left_of (named k) (named d') r).
Proof. exact (link_order sp p se e sl l). Qed.

(** The names used for linking: of dir/libNAME.ext it is NAME. *)
Theorem C53_name p pre n e :
  is_last_name p (pre ++ n ++ c_dot :: e) -> length pre = 3%nat -> ~ In c_dot e -> link_name p = n.
Proof.
  intros Hp Hl He. apply last_name_cut in Hp. unfold link_name. rewrite psplit_snd, Hp.
  rewrite skipn_app, Hl, (skipn_all2 pre) by (rewrite Hl; apply le_n). simpl.
  assert (last_dot e = None) as Hn.
  { clear Hp. induction e as [|c e IH]; [reflexivity|]. simpl. rewrite IH by (intros K; apply He; right; exact K).
    destruct (N.eqb c c_dot) eqn:E; [|reflexivity]. apply N.eqb_eq in E. destruct He. left. exact E. }
  assert (last_dot (n ++ c_dot :: e) = Some (n, c_dot :: e)) as ->; [|reflexivity].
  clear Hp. induction n as [|c n IH]; simpl; [rewrite Hn; reflexivity|rewrite IH; reflexivity].
Qed.
Example C53_name_ex : link_name (text "out/libfoo.so.so") = text "foo.so".
Proof. reflexivity. Qed.
Print Assumptions C53_name.

(** The external libraries of all of them are listed too. *)
Theorem C53_externals sp p se e sl l k x :
  used (sl ++ l) k -> In x (needs_external k) -> In x (r_externals (link sp p se e sl l)).
Proof. exact (link_externals sp p se e sl l k x). Qed.

(** An instance: z and x both depend on y. *)
Definition libz : lib := Library (text "out/libz.so") [text "/opt"] [liby; libx] [text "m"].
Lemma ex_used k : used [libz; libx] k -> k = libz \/ k = libx \/ k = liby.
Proof.
  assert (forall k, reach liby k -> k = liby) as Hy.
  { intros k0 H. inversion H; subst; [reflexivity|contradiction]. }
  assert (forall k, reach libx k -> k = libx \/ k = liby) as Hx.
  { intros k0 H. inversion H as [|? d ? Hd Hr]; subst; [auto|]. destruct Hd as [<-|[]]. right. apply Hy. exact Hr. }
  intros (r & [<-|[<-|[]]] & H).
  - inversion H as [|? d ? Hd Hr]; subst; [auto|]. destruct Hd as [<-|[<-|[]]].
    + right. right. apply Hy. exact Hr.
    + destruct (Hx _ Hr); auto.
  - destruct (Hx _ H); auto.
Qed.
Example C53_order_ex :
  distinct_names ([libz] ++ [libx]) /\
  r_libs (link [] [] [] [] [libz] [libx]) = [text "z"; text "x"; text "y"] /\
  r_externals (link [] [] [] [] [libz] [libx]) = [text "m"].
Proof.
  split; [|split; reflexivity]. split.
  - intros k k' Hk Hk' E. destruct (ex_used k Hk) as [->|[->| ->]], (ex_used k' Hk') as [->|[->| ->]];
      try reflexivity; vm_compute in E; discriminate.
  - intros p k Hk Hk'. destruct (ex_used _ Hk) as [H|[H|H]]; try discriminate H. injection H as ->.
    destruct (ex_used k Hk') as [->|[->| ->]]; vm_compute; discriminate.
Qed.

Print Assumptions C53_order_refuted.
Print Assumptions C53_listed_refuted.
Print Assumptions C53_once.
Print Assumptions C53_order_partial.
Print Assumptions C53_externals.
