(** Properties of globbing (glob.py, path.py: Path.glob and Path.globall). *)
From Coq Require Import String Ascii List NArith Bool Arith Lia.
From Verif Require Import FnModel FnSpec PathModel GlobModel GlobSpec GlobFacts GlobPaths.
Import ListNotations.

Definition text (s : string) : str := map N_of_ascii (list_ascii_of_string s).

(** A tree:
      src/a.c src/b.ml src/.h.c src/sub/c.c src/sub/.git/d.c notes .rc
    and the current directory is the root. *)
Definition sub_dir : node := NDir [(text "c.c", NFile); (text ".git", NDir [(text "d.c", NFile)])].
Definition src_dir : node := NDir [(text "a.c", NFile); (text "b.ml", NFile); (text ".h.c", NFile); (text "sub", sub_dir)].
Definition ex_world : world := World (NDir [(text "src", src_dir); (text "notes", NFile); (text ".rc", NFile)]) [].
Definition star_c : glob := GCons IStar (GCons (ILit 46) (GCons (ILit 99) GNil)).   (* *.c *)
Definition star : glob := GCons IStar GNil.

Lemma not_in_text c s : existsb (N.eqb c) s = false -> ~ In c s.
Proof. intros H Hi. assert (existsb (N.eqb c) s = true) as E; [|congruence]. apply existsb_exists. exists c. split; [exact Hi|apply N.eqb_refl]. Qed.
Ltac tree_tac :=
  lazymatch goal with
  | |- tree_ok NFile => constructor
  | |- tree_ok _ => cbv delta [src_dir sub_dir]; constructor;
      [ repeat (constructor; [cbn [map fst In]; intros Hx; repeat (destruct Hx as [Hx|Hx]; [discriminate Hx|]); exact Hx|]); constructor
      | let x := fresh in let n := fresh in let H := fresh in intros x n H;
        repeat (destruct H as [H|H]; [injection H as <- <-; repeat apply conj; [discriminate|apply not_in_text; reflexivity|apply not_in_text; reflexivity|discriminate|discriminate|tree_tac]|]); destruct H ]
  end.
Lemma ex_world_ok : world_ok ex_world.
Proof. split; [unfold ex_world; cbn [w_root]; tree_tac|]. eexists. constructor. Qed.
Lemma star_c_ok : pattern_ok star_c.
Proof. vm_compute. repeat split; intros; discriminate. Qed.
Lemma star_ok : pattern_ok star.
Proof. vm_compute. repeat split; intros; discriminate. Qed.

(** * C61: globbing finds exactly what matches *)

(** A pattern is a start without wildcards, a component with wildcards or **, and further
    components, the last one not **. *)
Theorem C61_exact w recursive base cs c :
  world_ok w -> base_ok base -> Forall (comp_ok recursive) (cs ++ [c]) -> c <> CDeep ->
  (exists c0, hd_error (cs ++ [c]) = Some c0 /\ is_magic c0) ->
  exists l, glob_files w recursive (put base (map comp_text (cs ++ [c]))) = Some l /\
    forall q, In q l <-> exists loc0 names loc,
      starts w base loc0 /\ reaches w (cs ++ [c]) loc0 names loc /\ q = put base names.
Proof.
  intros Hw Hb H Hc (c0 & H0 & Hm).
  pose proof (glob_exact w Hw recursive base c (rev cs) Hb) as Hx.
  assert (text_of base (c :: rev cs) = put base (map comp_text (cs ++ [c]))) as Et by (unfold text_of; cbn [rev]; rewrite rev_involutive; reflexivity).
  assert (rev (c :: rev cs) = cs ++ [c]) as Er by (cbn [rev]; rewrite rev_involutive; reflexivity).
  rewrite Et, Er in Hx. apply Hx; [| |exact Hc].
  - apply Forall_forall. intros x Hi. apply (proj1 (Forall_forall _ _) H). rewrite <- Er. apply in_rev. rewrite rev_involutive. exact Hi.
  - exists c0, (rev (tl (cs ++ [c]))). split; [|exact Hm]. rewrite <- (rev_involutive (c :: rev cs)), Er.
    destruct (cs ++ [c]) as [|c1 cs1]; [discriminate H0|]. injection H0 as ->. reflexivity.
Qed.
(** and these exist. *)
Theorem C61_exists w recursive base cs c l q :
  world_ok w -> base_ok base -> Forall (comp_ok recursive) (cs ++ [c]) -> c <> CDeep ->
  (exists c0, hd_error (cs ++ [c]) = Some c0 /\ is_magic c0) ->
  glob_files w recursive (put base (map comp_text (cs ++ [c]))) = Some l -> In q l -> lexists w q = true.
Proof.
  intros Hw Hb H Hc (c0 & H0 & Hm).
  pose proof (glob_exists w Hw recursive base c (rev cs) l q Hb) as Hx.
  assert (text_of base (c :: rev cs) = put base (map comp_text (cs ++ [c]))) as Et by (unfold text_of; cbn [rev]; rewrite rev_involutive; reflexivity).
  assert (rev (c :: rev cs) = cs ++ [c]) as Er by (cbn [rev]; rewrite rev_involutive; reflexivity).
  rewrite Et in Hx. apply Hx; [| |exact Hc].
  - apply Forall_forall. intros x Hi. apply (proj1 (Forall_forall _ _) H). rewrite <- Er. apply in_rev. rewrite rev_involutive. exact Hi.
  - exists c0, (rev (tl (cs ++ [c]))). split; [|exact Hm]. rewrite <- (rev_involutive (c :: rev cs)), Er.
    destruct (cs ++ [c]) as [|c1 cs1]; [discriminate H0|]. injection H0 as ->. reflexivity.
Qed.
(** Patterns ending in a slash: the matches that are directories, each with a slash behind it. *)
Theorem C61_slash w recursive base cs c :
  world_ok w -> base_ok base -> Forall (comp_ok recursive) (cs ++ [c]) -> c <> CDeep ->
  (exists c0, hd_error (cs ++ [c]) = Some c0 /\ is_magic c0) ->
  exists l, glob_files w recursive (pjoin (put base (map comp_text (cs ++ [c]))) []) = Some l /\
    forall q, In q l <-> exists loc0 names loc,
      starts w base loc0 /\ reaches w (cs ++ [c]) loc0 names loc /\ is_dir w loc /\ q = pjoin (put base names) [].
Proof.
  intros Hw Hb H Hc (c0 & H0 & Hm).
  pose proof (glob_slash w Hw recursive base c (rev cs) Hb) as Hx.
  assert (text_of base (c :: rev cs) = put base (map comp_text (cs ++ [c]))) as Et by (unfold text_of; cbn [rev]; rewrite rev_involutive; reflexivity).
  assert (rev (c :: rev cs) = cs ++ [c]) as Er by (cbn [rev]; rewrite rev_involutive; reflexivity).
  rewrite Et, Er in Hx. apply Hx; [| |exact Hc].
  - apply Forall_forall. intros x Hi. apply (proj1 (Forall_forall _ _) H). rewrite <- Er. apply in_rev. rewrite rev_involutive. exact Hi.
  - exists c0, (rev (tl (cs ++ [c]))). split; [|exact Hm]. rewrite <- (rev_involutive (c :: rev cs)), Er.
    destruct (cs ++ [c]) as [|c1 cs1]; [discriminate H0|]. injection H0 as ->. reflexivity.
Qed.
Lemma dwalk_exists w p loc : world_ok w -> dwalk w p = Some loc -> exists n, node_at (w_root w) loc = Some n.
Proof.
  intros [Ht [es Hc]]. apply (leads_at _ _ _ Ht) in Hc.
  assert (forall xs l n, node_at (w_root w) l = Some n -> walk w l xs = Some loc -> exists n', node_at (w_root w) loc = Some n') as H.
  { induction xs as [|x xs IH]; intros l n Hn; cbn; [intros H; injection H as <-; exists n; exact Hn|].
    destruct (enter w l x) as [l'|] eqn:E; [|discriminate]. destruct (enter_exists w (conj Ht (ex_intro _ es (proj2 (leads_at _ _ _ Ht) Hc))) l x l' E) as (n' & Hn').
    exact (IH l' n' Hn'). }
  unfold dwalk, resolve. destruct p as [|c p]; [intros E; injection E as <-; eexists; exact Hc|].
  destruct (isabs (c :: p)); [apply (H _ [] (w_root w)); reflexivity|apply (H _ _ _ Hc)].
Qed.
Lemma pjoin_slash_text p : p <> [] -> ends_sep p = false -> pjoin p [] = p ++ [c_sep].
Proof. intros Hp He. unfold pjoin. cbn. destruct p; [contradiction|]. rewrite He. reflexivity. Qed.
(** Without wildcards: the path itself if it leads somewhere; with a slash behind it, if to a directory. *)
Theorem C61_plain w recursive p :
  world_ok w -> p <> [] -> ends_sep p = false -> has_magic p = false ->
  (exists l, glob_files w recursive p = Some l /\ (forall q, In q l <-> q = p /\ exists loc, starts w p loc) /\ (length l <= 1)%nat) /\
  (exists l, glob_files w recursive (pjoin p []) = Some l /\
     (forall q, In q l <-> q = pjoin p [] /\ exists loc, starts w p loc /\ is_dir w loc) /\ (length l <= 1)%nat).
Proof.
  intros Hw Hp He Hm.
  assert (forall q, has_magic q = false -> recursive && isrecursive q = false) as Hnr.
  { intros q Hq. destruct recursive; [|reflexivity]. cbn. destruct (isrecursive q) eqn:E; [|reflexivity].
    unfold isrecursive in E. apply PathFacts.str_eqb_true in E. subst q. discriminate Hq. }
  assert (lexists w p = true <-> exists loc, starts w p loc) as Hl.
  { unfold lexists, stat. rewrite <- (dwalk_nonnil w p Hp). split.
    - destruct (dwalk w p) as [loc|] eqn:E; [|discriminate]. intros _. exists loc. apply (starts_dwalk w Hw). exact E.
    - intros (loc & H). apply (starts_dwalk w Hw) in H. rewrite H. destruct (dwalk_exists w p loc Hw H) as (n & ->). reflexivity. }
  assert (isdir w p = true <-> exists loc, starts w p loc /\ is_dir w loc) as Hd.
  { unfold isdir, stat. rewrite <- (dwalk_nonnil w p Hp). split.
    - destruct (dwalk w p) as [loc|] eqn:E; [|discriminate]. destruct (node_at (w_root w) loc) as [[|es]|] eqn:En; try discriminate.
      intros _. exists loc. split; [apply (starts_dwalk w Hw), E|]. apply (is_dir_at w Hw). exists es. exact En.
    - intros (loc & H & H'). apply (starts_dwalk w Hw) in H. rewrite H. apply (is_dir_at w Hw) in H' as (es & ->). reflexivity. }
  assert (snd (psplit p) <> []) as Hb.
  { rewrite PathFacts.psplit_snd. intros E. destruct (cut p) as [h t] eqn:Ec. cbn in E. subst t. destruct (PathFacts.cut_spec p h [] Ec) as (E & _ & Hh). rewrite app_nil_r in E. subst h.
    destruct Hh as [->|[h' ->]]; [contradiction|]. unfold ends_sep in He. rewrite rev_app_distr in He. discriminate He. }
  split.
  - unfold glob_files. cbn [iglob_]. rewrite (Hnr p Hm), Hm. cbn [negb]. destruct (psplit p) as [d b] eqn:E. cbn in Hb.
    destruct b as [|x b]; [contradiction|]. eexists. split; [reflexivity|]. destruct (lexists w p) eqn:El.
    + split; [|cbn; lia]. intros q. cbn. pose proof (proj1 Hl eq_refl). intuition.
    + split; [|cbn; lia]. intros q. split; [intros []|]. intros [_ H]. apply Hl in H. discriminate.
  - assert (has_magic (pjoin p []) = false) as Hm'.
    { rewrite (pjoin_slash_text p Hp He). rewrite has_magic_app, Hm. reflexivity. }
    unfold glob_files. cbn [iglob_]. rewrite (Hnr _ Hm'), Hm', (psplit_slash p Hp He). cbn [negb]. eexists. split; [reflexivity|].
    destruct (isdir w p) eqn:El.
    + split; [|cbn; lia]. intros q. cbn. pose proof (proj1 Hd eq_refl). intuition.
    + split; [|cbn; lia]. intros q. split; [intros []|]. intros [_ H]. apply Hd in H. discriminate.
Qed.

(** Patterns ending in **: everything below, and each start with a slash put behind it (also if
    it is a file, or, without wildcards before, missing). *)
Theorem C61_base_deep w base :
  world_ok w -> base_ok base ->
  exists l, glob_files w true (put base [str_deep]) = Some l /\
    forall q, In q l <-> (base <> [] /\ q = pjoin base []) \/
      exists loc0 names, starts w base loc0 /\ names <> [] /\ descends w loc0 names /\ q = put base names.
Proof. intros Hw Hb. exact (glob_base_deep w Hw base Hb). Qed.
Theorem C61_deep w base cs c :
  world_ok w -> base_ok base -> Forall (comp_ok true) (cs ++ [c]) -> c <> CDeep ->
  (exists c0, hd_error (cs ++ [c]) = Some c0 /\ is_magic c0) ->
  exists l, glob_files w true (put base (map comp_text (cs ++ [c; CDeep]))) = Some l /\
    forall q, In q l <-> exists loc0 names loc,
      starts w base loc0 /\ reaches w (cs ++ [c]) loc0 names loc /\
      (q = pjoin (put base names) [] \/ exists below, below <> [] /\ descends w loc below /\ q = put base (names ++ below)).
Proof.
  intros Hw Hb H Hc (c0 & H0 & Hm).
  pose proof (glob_deep w Hw base c (rev cs) Hb) as Hx.
  assert (text_of base (CDeep :: c :: rev cs) = put base (map comp_text (cs ++ [c; CDeep]))) as Et.
  { unfold text_of. cbn [rev]. rewrite rev_involutive, <- app_assoc. reflexivity. }
  assert (rev (c :: rev cs) = cs ++ [c]) as Er by (cbn [rev]; rewrite rev_involutive; reflexivity).
  rewrite Et, Er in Hx. apply Hx; [| |exact Hc].
  - apply Forall_forall. intros x Hi. apply (proj1 (Forall_forall _ _) H). rewrite <- Er. apply in_rev. rewrite rev_involutive. exact Hi.
  - exists c0, (rev (tl (cs ++ [c]))). split; [|exact Hm]. rewrite <- (rev_involutive (c :: rev cs)), Er.
    destruct (cs ++ [c]) as [|c1 cs1]; [discriminate H0|]. injection H0 as ->. reflexivity.
Qed.

(** The claim for all patterns: what is found exists. *)
Definition found_exists : Prop :=
  forall w p l q, world_ok w -> glob_files w true p = Some l -> In q l -> lexists w q = true.
(** Globbing missing/** finds missing/. *)
Theorem C61_refuted : ~ found_exists.
Proof.
  intros H. specialize (H ex_world (text "missing/**") _ (text "missing/") ex_world_ok eq_refl).
  assert (In (text "missing/") [text "missing/"]) as Hi by (left; reflexivity). specialize (H Hi). vm_compute in H. discriminate H.
Qed.

(** The hypotheses of C61_exact are met by src/**/*.c *)
Example C61_example_hyps :
  base_ok (text "src") /\ Forall (comp_ok true) ([CDeep] ++ [CGlob star_c]) /\ CGlob star_c <> CDeep /\
  (exists c0, hd_error ([CDeep] ++ [CGlob star_c]) = Some c0 /\ is_magic c0).
Proof.
  split; [split; [reflexivity|right; reflexivity]|]. split.
  - constructor; [|constructor; [|constructor]].
    + split; [discriminate|]. split; [apply not_in_text; reflexivity|reflexivity].
    + split; [discriminate|]. split; [apply not_in_text; reflexivity|]. split; [exact star_c_ok|]. split; [reflexivity|]. intros _. discriminate.
  - split; [discriminate|]. exists CDeep. split; [reflexivity|exact I].
Qed.
(** Hidden files and what is below hidden directories are not found; the order is that of the tree. *)
Example C61_example :
  glob_files ex_world true (text "src/**/*.c") = Some [text "src/a.c"; text "src/sub/c.c"].
Proof. vm_compute. reflexivity. Qed.
Example C61_example_not_recursive :
  glob_files ex_world false (text "src/**/*.c") = Some [text "src/sub/c.c"].
Proof. vm_compute. reflexivity. Qed.
Example C61_example_hidden :
  glob_files ex_world true (text "src/.*") = Some [text "src/.h.c"] /\
  glob_files ex_world true (text "src/{.h,a}.c") = Some [text "src/a.c"] /\
  glob_files ex_world true (text "src/*/.git/*.c") = Some [text "src/sub/.git/d.c"].
Proof. vm_compute. repeat split; reflexivity. Qed.
(** A slash inside braces: the components {src and notes}/a.c, one plain and one a pattern *)
Example C61_example_slash :
  glob_files ex_world true (text "{src/a.c,notes}") = Some [].
Proof. vm_compute. reflexivity. Qed.
(** notes is a file; the pattern **/ (outside the theorem) finds the directories below. *)
Example C61_example_dirs :
  glob_files ex_world true (text "*/") = Some [text "src/"] /\
  glob_files ex_world true (text "src/*/") = Some [text "src/sub/"] /\
  glob_files ex_world true (text "**/") = Some [text "src/"; text "src/sub/"].
Proof. vm_compute. repeat split; reflexivity. Qed.
(** A name after the wildcards, also ..; it needs a directory. *)
Example C61_example_name :
  glob_files ex_world true (text "*/sub/../a.c") = Some [text "src/sub/../a.c"] /\
  glob_files ex_world true (text "*/..") = Some [text "src/.."].
Proof. vm_compute. split; reflexivity. Qed.
Example C61_example_deep :
  glob_files ex_world true (text "src/**") =
    Some [text "src/"; text "src/a.c"; text "src/b.ml"; text "src/sub"; text "src/sub/c.c"] /\
  glob_files ex_world true (text "**") =
    Some [text "src"; text "src/a.c"; text "src/b.ml"; text "src/sub"; text "src/sub/c.c"; text "notes"] /\
  glob_files ex_world true (text "n*/**") = Some [text "notes/"].
Proof. vm_compute. repeat split; reflexivity. Qed.

(** * C62: no file is found twice *)
Definition at_most_one_deep (cs : list comp) : Prop :=
  forall a b d, cs = a ++ CDeep :: b ++ CDeep :: d -> False.
Lemma deeps_le cs : at_most_one_deep cs -> (deeps (rev cs) <= 1)%nat.
Proof.
  intros H. assert (deeps (rev cs) = deeps cs) as ->.
  { unfold deeps. clear H. induction cs as [|c cs IH]; [reflexivity|]. cbn [rev]. rewrite filter_app, app_length, IH. cbn [filter].
    destruct c; cbn [length]; lia. }
  assert (forall cs, (0 < deeps cs)%nat -> exists a b, cs = a ++ CDeep :: b) as Hin.
  { intros l. induction l as [|c l IH]; intros Hl; [cbn in Hl; lia|]. destruct c as [s|g|].
    - destruct (IH Hl) as (a & b & ->). exists (CName s :: a), b. reflexivity.
    - destruct (IH Hl) as (a & b & ->). exists (CGlob g :: a), b. reflexivity.
    - exists [], l. reflexivity. }
  destruct (le_gt_dec (deeps cs) 1) as [Hl|Hg]; [exact Hl|]. exfalso.
  induction cs as [|c cs IH]; [cbn in Hg; lia|]. destruct c as [s|g|].
  - apply IH; [|exact Hg]. intros a b d ->. exact (H (CName s :: a) b d eq_refl).
  - apply IH; [|exact Hg]. intros a b d ->. exact (H (CGlob g :: a) b d eq_refl).
  - destruct (Hin cs) as (a & b & ->); [unfold deeps in *; cbn [filter length] in Hg; lia|]. exact (H [] a b eq_refl).
Qed.
Theorem C62_once w recursive base cs l :
  world_ok w -> base_ok base -> Forall (comp_ok recursive) cs -> at_most_one_deep cs ->
  (exists c0, hd_error cs = Some c0 /\ is_magic c0) ->
  glob_files w recursive (put base (map comp_text cs)) = Some l -> NoDup l.
Proof.
  intros Hw Hb H Hd (c0 & H0 & Hm).
  pose proof (glob_NoDup w Hw recursive base (rev cs) l Hb) as Hx.
  assert (text_of base (rev cs) = put base (map comp_text cs)) as Et by (unfold text_of; rewrite rev_involutive; reflexivity).
  rewrite Et in Hx. apply Hx; [| |exact (deeps_le cs Hd)].
  - apply Forall_forall. intros x Hi. apply (proj1 (Forall_forall _ _) H). apply in_rev. exact Hi.
  - exists c0, (rev (tl cs)). split; [|exact Hm]. destruct cs as [|c1 cs1]; [discriminate H0|]. injection H0 as ->. reflexivity.
Qed.
(** The claim for all patterns. *)
Definition found_once : Prop :=
  forall w p l, world_ok w -> glob_files w true p = Some l -> NoDup l.
(** **/**/*.c finds files below the current directory twice and more. *)
Theorem C62_refuted : ~ found_once.
Proof.
  intros H. specialize (H ex_world (text "**/**/a.c") _ ex_world_ok eq_refl). vm_compute in H.
  apply NoDup_cons_iff in H. apply (proj1 H). left. reflexivity.
Qed.
Example C62_example_hyps :
  Forall (comp_ok true) [CGlob star; CDeep; CGlob star_c] /\ at_most_one_deep [CGlob star; CDeep; CGlob star_c] /\
  (exists c0, hd_error [CGlob star; CDeep; CGlob star_c] = Some c0 /\ is_magic c0).
Proof.
  split.
  - constructor; [|constructor; [|constructor; [|constructor]]].
    + split; [discriminate|]. split; [apply not_in_text; reflexivity|]. split; [exact star_ok|]. split; [reflexivity|]. intros _. discriminate.
    + split; [discriminate|]. split; [apply not_in_text; reflexivity|reflexivity].
    + split; [discriminate|]. split; [apply not_in_text; reflexivity|]. split; [exact star_c_ok|]. split; [reflexivity|]. intros _. discriminate.
  - split; [|exists (CGlob star); split; [reflexivity|exact I]]. intros a b d E.
    apply (f_equal deeps) in E. unfold deeps in E. rewrite filter_app in E. cbn [filter] in E. rewrite filter_app in E. cbn [filter] in E.
    rewrite app_length in E. cbn [length] in E. rewrite app_length in E. cbn [length] in E. lia.
Qed.
Example C62_example :
  glob_files ex_world true (text "*/**/*.c") = Some [text "src/a.c"; text "src/sub/c.c"].
Proof. vm_compute. reflexivity. Qed.
Example C62_example_twice :
  glob_files ex_world true (text "**/**") =
    Some ([[]; text "src"; text "src/a.c"; text "src/b.ml"; text "src/sub"; text "src/sub/c.c"; text "notes"] ++
          [text "src/"; text "src/a.c"; text "src/b.ml"; text "src/sub"; text "src/sub/c.c"; text "src/a.c/"; text "src/b.ml/";
           text "src/sub/"; text "src/sub/c.c"; text "src/sub/c.c/"; text "notes/"]).
Proof. vm_compute. reflexivity. Qed.

(** * C63: excluding *)
(** Path.glob keeps what matches no excluding pattern, in order. *)
Theorem C63_glob w gs p l :
  Forall pattern_ok gs -> glob_files w true p = Some l ->
  exists keep, path_glob w (map show gs) p = Some (filter keep l) /\
    forall q, ~ In c_nl q -> (keep q = true <-> Forall (fun g => ~ lang anything g q) gs).
Proof.
  intros H Hl. exists (clear gs). split; [rewrite (path_glob_spec w gs p H), Hl; reflexivity|].
  intros q Hq. exact (clear_iff gs q H Hq).
Qed.
(** Path.globall on texts: the results of each text in turn. *)
Theorem C63_globall w gs ss ls :
  Forall pattern_ok gs -> Forall2 (fun s l => glob_files w true s = Some l) ss ls ->
  exists keep, globall w (map show gs) (map PText ss) = Some (filter keep (concat ls)) /\
    forall q, ~ In c_nl q -> (keep q = true <-> Forall (fun g => ~ lang anything g q) gs).
Proof.
  intros H Hl. exists (clear gs). split; [|intros q Hq; exact (clear_iff gs q H Hq)].
  rewrite globall_texts. induction Hl as [|s l ss ls Hs _ IH]; [reflexivity|]. cbn [gather concat].
  rewrite (path_glob_spec w gs s H), Hs, IH. cbn [option_map]. rewrite filter_app. reflexivity.
Qed.
(** Of a list among the patterns, however nested, all texts are globbed, and nothing is excluded. *)
Theorem C63_nested w ex ps ls :
  Forall2 (fun s l => glob_files w true s = Some l) (flat_map texts ps) ls ->
  globall w ex [PList ps] = Some (concat ls).
Proof.
  intros H. cbn [globall]. rewrite globall1_list.
  assert (gather (path_glob w []) (flat_map texts ps) = Some (concat ls)) as ->; [|cbn; rewrite app_nil_r; reflexivity].
  induction H as [|s l ss ls Hs _ IH]; [reflexivity|]. cbn [gather concat].
  pose proof (path_glob_spec w [] s (Forall_nil _)) as E. change (map show []) with (@nil str) in E. rewrite E, Hs, IH. cbn [option_map].
  assert (filter (clear []) l = l) as -> by (clear; induction l as [|x l IH]; [reflexivity|cbn; rewrite IH; reflexivity]). reflexivity.
Qed.
(** The claim for all arguments: what an excluding pattern matches is not among the results. *)
Definition excluded_absent : Prop :=
  forall w ps gs g l q, world_ok w -> Forall pattern_ok gs -> globall w (map show gs) ps = Some l ->
    In g gs -> ~ In c_nl q -> lang anything g q -> ~ In q l.
(** globall of a list with src/*.c in it, excluding all. *)
Theorem C63_refuted : ~ excluded_absent.
Proof.
  intros H. specialize (H ex_world [PList [PText (text "src/*.c")]] [star] star [text "src/a.c"] (text "src/a.c") ex_world_ok).
  assert (Forall pattern_ok [star]) as Hs by (repeat constructor; exact star_ok).
  specialize (H Hs eq_refl (or_introl eq_refl)).
  apply H; [apply not_in_text; reflexivity| |left; reflexivity].
  exists (text "src/a.c"), []. split; [reflexivity|]. split; [|reflexivity].
  intros c _. exact I.
Qed.
Example C63_example :
  globall ex_world [text "*/sub/*"] [PText (text "src/**/*.c"); PText (text "n*")] = Some [text "src/a.c"; text "notes"] /\
  globall ex_world [text "*/sub/*"] [PList [PText (text "src/**/*.c")]; PText (text "n*")] =
    Some [text "src/a.c"; text "src/sub/c.c"; text "notes"].
Proof. vm_compute. split; reflexivity. Qed.

Print Assumptions C61_plain.
Print Assumptions C61_exact.
Print Assumptions C61_exists.
Print Assumptions C61_slash.
Print Assumptions C61_base_deep.
Print Assumptions C61_deep.
Print Assumptions C61_refuted.
Print Assumptions C62_once.
Print Assumptions C62_refuted.
Print Assumptions C63_glob.
Print Assumptions C63_globall.
Print Assumptions C63_nested.
Print Assumptions C63_refuted.
