(** C90: the products of the builders for Haskell, Felix, LLVM and Bison are where they are said to be. *)
From Coq Require Import Ascii String List NArith Bool Arith Lia.
From Verif Require Import FnModel PathModel PathSpec PathFacts LinkModel GccModel GccSpec GccFacts TryModel TrySpec TryFacts TryPlaces OwnSpec OwnPlaces JavaModel SmallModel SmallSpec.
Import ListNotations.
Open Scope N_scope.
Open Scope string_scope.
Open Scope list_scope.
Definition text (s : string) : str := map N_of_ascii (list_ascii_of_string s).

(** *** Where products are *)
Section Where.
  Context (cwd : str) (Hcwd : isabs cwd = true).
  Lemma after_root p D suffix ns n r : kept p ns n -> no_prefix D p -> stem n r -> ~ In 47 suffix ->
    place cwd (replaceext (addroot p D) suffix) = place cwd D ++ ns ++ [r ++ suffix].
  Proof.
    intros Hk Hn Hr Hs. destruct (addroot_kept cwd Hcwd p D ns n Hk Hn) as (Hg & h & -> & Hh & Hph).
    unfold replaceext. rewrite path_new_one. pose proof (stem_good n r) as Hgr. destruct Hr as (e & He). pose proof He as Hs'. apply splitext_ext in Hs'.
    rewrite (splitext_dir h n r e Hh Hs'). cbn [fst]. rewrite <- app_assoc.
    rewrite (place_dir cwd Hcwd h); [rewrite Hph, <- app_assoc; reflexivity|exact Hh|].
    apply (good_around [] r suffix); [intros []|exact Hs|]. apply Hgr; [|exists e; exact He].
    apply Forall_app in Hg as [_ Hg]. inversion Hg; assumption.
  Qed.
  Lemma dirlike_spec h : (h = [] \/ exists h', h = h' ++ [47]) <-> dirlike h.
  Proof. reflexivity. Qed.
  Lemma with_suffix_is p suffix p' : with_suffix p suffix p' -> replaceext p suffix = p'.
  Proof.
    intros (h & n & r & -> & Hh & Hn & (e & He) & ->). unfold replaceext. rewrite path_new_one. apply splitext_ext in He.
    rewrite (splitext_dir h n r e Hh He). cbn [fst]. rewrite <- app_assoc. reflexivity.
  Qed.
  Lemma kept_form p ns n : kept p ns n -> exists h, p = h ++ n /\ dirlike h /\ good_name n /\
    forall m, good_name m -> kept (h ++ m) ns m.
  Proof.
    assert (forall ns n, Forall good_name (ns ++ [n]) -> exists h, joined (ns ++ [n]) = h ++ n /\ dirlike h /\
      forall m, joined (ns ++ [m]) = h ++ m) as J.
    { induction ns0 as [|x ns0 IH]; intros n0 H.
      - exists []. split; [reflexivity|]. split; [left; reflexivity|reflexivity].
      - inversion H as [|? ? Hx H']; subst. destruct (IH n0 H') as (h & E & Hd & Hm). exists (x ++ c_sep :: h). cbn [app].
        rewrite joined_cons by (destruct ns0; discriminate). rewrite E. split; [rewrite <- app_assoc; reflexivity|]. split.
        + right. destruct Hd as [->|[h' ->]]; [exists x; reflexivity|]. exists (x ++ c_sep :: h'). rewrite <- app_assoc. reflexivity.
        + intros m. rewrite joined_cons by (destruct ns0; discriminate). rewrite Hm, <- app_assoc. reflexivity. }
    intros [(_ & Hg & ->)|(-> & Hg & ms & Hm & ->)].
    - destruct (J ns n Hg) as (h & E & Hd & Hj). exists h. split; [exact E|]. split; [exact Hd|]. apply Forall_app in Hg as [Hg1 Hg2].
      split; [inversion Hg2; assumption|]. intros m Hm. left. split; [destruct ns; discriminate|]. split; [apply Forall_app; split; [exact Hg1|constructor; [exact Hm|constructor]]|].
      symmetry. apply Hj.
    - exists (slashed ms ++ [47]). split.
      + rewrite slashed_app, <- app_assoc. cbn [slashed app]. rewrite app_nil_r. reflexivity.
      + split; [right; exists (slashed ms); reflexivity|]. split; [exact Hg|]. intros m Hgm. right. split; [reflexivity|]. split; [exact Hgm|].
        exists ms. split; [exact Hm|]. rewrite slashed_app, <- app_assoc. cbn [slashed app]. rewrite app_nil_r. reflexivity.
  Qed.
  Lemma before_root p D suffix ns n r : kept p ns n -> (forall p', with_suffix p suffix p' -> no_prefix D p') -> stem n r -> ~ In 47 suffix ->
    place cwd (addroot (replaceext p suffix) D) = place cwd D ++ ns ++ [r ++ suffix].
  Proof.
    intros Hk Hn Hr Hs. destruct (kept_form p ns n Hk) as (h & -> & Hd & Hg & Hm).
    assert (with_suffix (h ++ n) suffix (h ++ r ++ suffix)) as Hw.
    { exists h, n, r. split; [reflexivity|]. split; [exact Hd|]. split; [apply Hg|]. split; [exact Hr|reflexivity]. }
    rewrite (with_suffix_is _ _ _ Hw). assert (good_name (r ++ suffix)) as Hgr.
    { apply (good_around [] r suffix); [intros []|exact Hs|]. apply (stem_good n r Hg Hr). }
    destruct (addroot_kept cwd Hcwd (h ++ r ++ suffix) D ns (r ++ suffix) (Hm _ Hgr) (Hn _ Hw)) as (_ & h' & -> & Hh' & Hp).
    rewrite (place_dir cwd Hcwd h' _ Hh' Hgr), Hp, <- app_assoc. reflexivity.
  Qed.
End Where.
Lemma chosen_or o x y : chosen o x y <-> or_ o x = y.
Proof.
  split.
  - intros [[-> H]|[[->| ->] ->]]; [destruct y; [contradiction|reflexivity]|reflexivity|reflexivity].
  - intros <-. destruct o as [[|c o]|]; [right; auto|left; split; [reflexivity|discriminate]|right; auto].
Qed.

(** Objects of Haskell and LLVM are in the build root, below the directories of their source, with the suffix. *)
Theorem C90_objects cwd root suffix p ns n r : isabs cwd = true -> kept p ns n -> stem n r -> ~ In 47 suffix ->
  (forall p', with_suffix p suffix p' -> no_prefix root p') ->
  (forall self_flags dst src ctx_root buildroot odir hidir pre flags, chosen dst src p -> chosen buildroot ctx_root root ->
     place cwd (snd (ghc_compile self_flags suffix ctx_root src dst buildroot odir hidir pre flags)) = place cwd root ++ ns ++ [r ++ suffix]) /\
  (forall self_flags dst src pre flags arch rel ty, chosen dst src p ->
     place cwd (snd (llc_compile self_flags suffix root src dst pre flags arch rel ty)) = place cwd root ++ ns ++ [r ++ suffix]).
Proof.
  intros Hc Hk Hr Hs Hn. split.
  - intros sf dst src cr br odir hidir pre flags H1 H2. apply chosen_or in H1, H2. unfold ghc_compile. cbv zeta. cbn [snd]. rewrite H1, H2.
    apply (before_root cwd Hc p root suffix ns n r); assumption.
  - intros sf dst src pre flags arch rel ty H. apply chosen_or in H. unfold llc_compile. cbv zeta. cbn [snd]. rewrite H.
    apply (before_root cwd Hc p root suffix ns n r); assumption.
Qed.
(** So are the programs and libraries of Felix and the parsers of Bison. *)
Theorem C90_products cwd root suffix p ns n r : isabs cwd = true -> kept p ns n -> stem n r -> no_prefix root p -> ~ In 47 suffix ->
  (forall x there ctx_root buildroot includes debug static flags, chosen buildroot ctx_root root ->
     suffix = (if match static with Some s => s | None => x_static x end then x_exe x else x_lib x) ->
     place cwd (snd (felix_compile x there ctx_root p buildroot includes debug static flags)) = place cwd root ++ ns ++ [r ++ suffix]) /\
  (forall self_flags self_suffix given ctx_root src dst buildroot name_prefix verbose defines flags, chosen buildroot ctx_root root -> chosen dst src p ->
     chosen given self_suffix suffix ->
     place cwd (snd (bison self_flags self_suffix ctx_root src dst given buildroot name_prefix verbose defines flags)) = place cwd root ++ ns ++ [r ++ suffix]).
Proof.
  intros Hc Hk Hr Hn Hs. split.
  - intros x there cr br includes debug static flags H E. apply chosen_or in H. unfold felix_compile. cbv zeta. cbn [snd]. rewrite H.
    assert ((if match static with Some s => s | None => x_static x end then x_exe x else x_lib x) = suffix) as E' by (symmetry; exact E).
    rewrite <- E' in Hs |- *. destruct static; apply (after_root cwd Hc p root _ ns n r); assumption.
  - intros sf ss given cr src dst br np v d flags H1 H2 H3. apply chosen_or in H1, H2, H3. unfold bison. cbv zeta. cbn [snd]. rewrite H1, H2, H3.
    apply (after_root cwd Hc p root _ ns n r); assumption.
Qed.
(** What goes to different places: sources that differ also without their extensions. *)
Theorem C90_apart cwd root suffix ns r ms q : place cwd root ++ ns ++ [r ++ suffix] = place cwd root ++ ms ++ [q ++ suffix] -> ns = ms /\ r = q.
Proof. intros E. apply app_inv_head in E. apply app_inj_tail in E as [E1 E2]. apply app_inv_tail in E2. auto. Qed.

(** *** What the programs are told *)
Theorem C90_ghc self_flags suffix root src dst buildroot odir hidir pre flags :
  let (a, d) := ghc_compile self_flags suffix root src dst buildroot odir hidir pre flags in
  has_pair (text "-o") d a /\ In (text "-c") a /\ ends_with a (firsts str_eqb (self_flags ++ flags) ++ [src]) /\
  (forall f, In f pre -> In f a) /\
  has_pair (text "-odir") (match odir with Some (c :: o) => c :: o | _ => fst (psplit d) end) a /\
  has_pair (text "-hidir") (match hidir with Some (c :: o) => c :: o | _ => fst (psplit d) end) a.
Proof.
  unfold ghc_compile. cbv zeta. set (d := addroot _ _). unfold ghc_args. cbn [opt_arg].
  set (fl := fold_left add_new (self_flags ++ flags) []). repeat split.
  - exists (pre ++ [w_c]). eexists. reflexivity.
  - apply in_or_app. left. apply in_or_app. right. left. reflexivity.
  - exists ((pre ++ [w_c]) ++ [w_o; d] ++ [w_odir; or_ odir (fst (psplit d))] ++ [w_hidir; or_ hidir (fst (psplit d))]). unfold fl. rewrite dedup_firsts, <- !app_assoc. reflexivity.
  - intros f H. apply in_or_app. left. apply in_or_app. left. exact H.
  - exists ((pre ++ [w_c]) ++ [w_o; d]). eexists. rewrite <- !app_assoc. cbn [app]. reflexivity.
  - exists ((pre ++ [w_c]) ++ [w_o; d] ++ [w_odir; or_ odir (fst (psplit d))]). eexists. rewrite <- !app_assoc. cbn [app]. reflexivity.
Qed.
Theorem C90_ghc_link self_flags root dst buildroot srcs pre flags :
  let (a, d) := ghc_link self_flags root dst buildroot srcs pre flags in
  has_pair (text "-o") d a /\ ends_with a (firsts str_eqb (self_flags ++ flags) ++ srcs) /\ (forall f, In f pre -> In f a) /\
  exists root', chosen buildroot root root' /\ d = addroot dst root'.
Proof.
  unfold ghc_link. cbv zeta. set (d := addroot _ _). unfold ghc_args. cbn [opt_arg app]. rewrite dedup_firsts. repeat split.
  - exists pre. eexists. reflexivity.
  - exists (pre ++ [w_o; d]). rewrite <- !app_assoc. reflexivity.
  - intros f H. apply in_or_app. left. exact H.
  - exists (or_ buildroot root). split; [apply chosen_or; reflexivity|reflexivity].
Qed.
Theorem C90_felix x there root src buildroot includes debug static flags :
  let '(a, copy, d) := felix_compile x there root src buildroot includes debug static flags in
  In (text "-c") a /\ ends_with a [copy] /\ (exists root', chosen buildroot root root' /\ copy = addroot src root') /\
  (forall f, In f (x_flags x) \/ In f flags -> In f a) /\
  (forall i, In i includes \/ In i (x_includes x) \/ i = fst (psplit copy) -> there i = true -> In (text "-I" ++ i) a) /\
  (static = Some true \/ (static = None /\ x_static x = true) -> In (text "--static") a /\ d = replaceext copy (x_exe x)) /\
  (static = Some false \/ (static = None /\ x_static x = false) -> d = replaceext copy (x_lib x)) /\
  (debug = Some true \/ (debug = None /\ x_debug x = true) -> In (text "--debug") a).
Proof.
  unfold felix_compile. cbv zeta. set (copy := addroot _ _). unfold flx_args.
  set (dbg := if match debug with None => x_debug x | Some d => d end then [w_debug] else []).
  set (st := match static with None => x_static x | Some s => s end).
  set (incs := map (app w_I) _). repeat split.
  - do 4 (apply in_or_app; right). apply in_or_app. left. left. reflexivity.
  - exists (dbg ++ (if st then [w_static] else []) ++ incs ++ x_flags x ++ w_c :: x_flags x ++ flags). rewrite <- !app_assoc. cbn [app]. rewrite <- !app_assoc. reflexivity.
  - exists (or_ buildroot root). split; [apply chosen_or; reflexivity|reflexivity].
  - intros f [Hf|Hf].
    + do 3 (apply in_or_app; right). apply in_or_app. left. exact Hf.
    + do 4 (apply in_or_app; right). apply in_or_app. left. right. apply in_or_app. right. exact Hf.
  - intros i Hi Ht. do 2 (apply in_or_app; right). apply in_or_app. left. apply (in_map (app w_I)). apply filter_In. split; [|exact Ht].
    apply sorted_in. apply set_of_in. destruct Hi as [H|[H|H]]; [apply in_or_app; left; exact H| |]; apply in_or_app; right; apply in_or_app.
    + left. exact H.
    + right. left. symmetry. exact H.
  - assert (st = true) as E by (unfold st; match goal with K : _ \/ _ |- _ => destruct K as [->|[-> ->]] end; reflexivity). rewrite E. apply in_or_app. right. left. reflexivity.
  - assert (st = true) as E by (unfold st; match goal with K : _ \/ _ |- _ => destruct K as [->|[-> ->]] end; reflexivity). rewrite E. reflexivity.
  - intros H. assert (st = false) as E by (unfold st; destruct H as [->|[-> ->]]; reflexivity). rewrite E. reflexivity.
  - intros H. apply in_or_app. left. unfold dbg. destruct H as [->|[-> ->]]; left; reflexivity.
Qed.
Theorem C90_llc self_flags suffix root src dst pre flags arch rel ty :
  let (a, d) := llc_compile self_flags suffix root src dst pre flags arch rel ty in
  has_pair (text "-o") d a /\ ends_with a (flags ++ [src]) /\ (forall f, In f pre -> In f a) /\
  (forall x, arch = Some x -> In (text "-march=" ++ x) a) /\ (forall x, rel = Some x -> In (text "-relocation-model=" ++ x) a) /\
  (forall x, ty = Some x -> In (text "-filetype=" ++ x) a).
Proof.
  unfold llc_compile. cbv zeta. set (d := addroot _ _). repeat split.
  - exists pre. eexists. reflexivity.
  - exists (pre ++ [w_o; d] ++ opt_word w_march arch ++ opt_word w_relocation rel ++ opt_word w_filetype ty). rewrite <- !app_assoc. reflexivity.
  - intros f Hf. apply in_or_app. left. exact Hf.
  - intros x ->. do 2 (apply in_or_app; right). left. reflexivity.
  - intros x ->. do 3 (apply in_or_app; right). left. reflexivity.
  - intros x ->. do 4 (apply in_or_app; right). left. reflexivity.
Qed.
Theorem C90_bison self_flags self_suffix root src dst suffix buildroot name_prefix verbose defines flags :
  let (a, d) := bison self_flags self_suffix root src dst suffix buildroot name_prefix verbose defines flags in
  ends_with a (self_flags ++ flags ++ [text "-o"; d; src]) /\
  (verbose = true -> In (text "-v") a) /\ (defines = true -> In (text "-d") a) /\ (forall x, name_prefix = Some x -> has_pair (text "-p") x a).
Proof.
  unfold bison. cbv zeta. set (d := replaceext _ _). repeat split.
  - exists ((if verbose then [w_v] else []) ++ opt_arg w_p name_prefix ++ (if defines then [w_d] else [])). rewrite <- !app_assoc. reflexivity.
  - intros ->. left. reflexivity.
  - intros ->. do 2 (apply in_or_app; right). left. reflexivity.
  - intros x ->. exists (if verbose then [w_v] else []). eexists. reflexivity.
Qed.

(** *** Examples and what does not hold *)
Example C90_example :
  ghc_compile [text "-Wall"] (text ".o") (text "build") (text "src/Main.hs") None None None None [] [text "-O"; text "-Wall"] =
    (map text ["-c"; "-o"; "build/src/Main.o"; "-odir"; "build/src"; "-hidir"; "build/src"; "-Wall"; "-O"; "src/Main.hs"], text "build/src/Main.o") /\
  felix_compile (Felix false [text "--inline"] [] (text ".so") false []) (fun _ => true) (text "build") (text "a/b.flx") None [text "inc"] None None [] =
    (map text ["-Ibuild/a"; "-Iinc"; "--inline"; "-c"; "--inline"; "build/a/b.flx"], text "build/a/b.flx", text "build/a/b.so") /\
  bison [] (text ".c") (text "build") (text "a/p.y") None None None (Some (text "yy_")) false true [] =
    (map text ["-p"; "yy_"; "-d"; "-o"; "build/a/p.c"; "a/p.y"], text "build/a/p.c").
Proof. vm_compute. repeat split. Qed.
Example C90_example_place : place (text "/w") (snd (ghc_compile [] (text ".o") (text "build") (text "src/Main.hs") None None None None [] [])) =
  map text ["w"; "build"; "src"; "Main.o"].
Proof.
  destruct (C90_objects (text "/w") (text "build") (text ".o") (text "src/Main.hs") [text "src"] (text "Main.hs") (text "Main")) as [H _].
  - reflexivity.
  - left. split; [discriminate|]. split; [|reflexivity]. repeat constructor; try discriminate; intros K; cbn in K; repeat (destruct K as [K|K]; [discriminate|]); destruct K.
  - apply stem_split. reflexivity.
  - intros K. cbn in K. repeat (destruct K as [K|K]; [discriminate|]). destruct K.
  - intros p' Hp' q E. apply with_suffix_is in Hp'. vm_compute in Hp'. rewrite <- Hp' in E. discriminate E.
  - rewrite (H [] None (text "src/Main.hs") (text "build") None None None [] []); [reflexivity| |]; apply chosen_or; reflexivity.
Qed.
(** The flags llc was made with do not reach it. *)
Definition llc_flags_passed_on : Prop := forall self_flags suffix root src dst pre flags arch rel ty f,
  In f self_flags -> In f (fst (llc_compile self_flags suffix root src dst pre flags arch rel ty)).
Theorem C90_llc_flags_refuted : ~ llc_flags_passed_on.
Proof.
  intros H. specialize (H [text "-O3"] (text ".o") (text "build") (text "a.ll") None [] [] None None None (text "-O3") (or_introl eq_refl)).
  vm_compute in H. repeat (destruct H as [H|H]; [discriminate|]). destruct H.
Qed.
(** llvm-as writes beside the source, not in the build root. *)
Definition in_build_root : Prop := forall cwd root p ns n r, isabs cwd = true -> kept p ns n -> stem n r -> no_prefix root p ->
  exists l, place cwd (snd (llvm_as root p None [] [])) = place cwd root ++ l.
Theorem C90_llvm_as_refuted : ~ in_build_root.
Proof.
  intros H. destruct (H (text "/w") (text "build") (text "a.ll") [] (text "a.ll") (text "a") eq_refl) as [l E].
  - left. split; [discriminate|]. split; [|reflexivity]. repeat constructor; try discriminate; intros K; cbn in K; repeat (destruct K as [K|K]; [discriminate|]); destruct K.
  - apply stem_split. reflexivity.
  - intros q E. discriminate E.
  - vm_compute in E. discriminate E.
Qed.

Print Assumptions C90_objects.
Print Assumptions C90_products.
Print Assumptions C90_apart.
Print Assumptions C90_ghc.
Print Assumptions C90_ghc_link.
Print Assumptions C90_felix.
Print Assumptions C90_llc.
Print Assumptions C90_bison.
Print Assumptions C90_llc_flags_refuted.
Print Assumptions C90_llvm_as_refuted.
