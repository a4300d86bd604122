(** The order of object files. *)
From Coq Require Import List NArith Bool Arith Lia.
From Verif Require Import FnModel PathFacts NmModel NmSpec.
Import ListNotations.

Lemma memb_in s l : memb s l = true <-> In s l.
Proof.
  unfold memb. rewrite existsb_exists. split.
  - intros (x & Hx & E). apply str_eqb_true in E. subst. exact Hx.
  - intros H. exists s. split; [exact H|apply str_eqb_refl].
Qed.
Lemma memb_notin s l : memb s l = false <-> ~ In s l.
Proof. rewrite <- memb_in. destruct (memb s l); split; congruence. Qed.

Section Facts.
  Variable nm : str -> symbols.
  Variable objs : list str.

  Lemma definer_provides sym d : definer nm objs sym = Some d <-> provides nm objs d sym.
  Proof.
    unfold provides. induction objs as [|o l IH]; simpl.
    - split; [discriminate|]. intros ([] & l2 & H & _); discriminate.
    - assert (definer nm l sym = None <-> forall o, In o l -> ~ In sym (defined (nm o))) as Hnone.
      { clear. induction l as [|x l IH]; simpl; [split; [intros _ o []|reflexivity]|].
        destruct (definer nm l sym) as [y|].
        - split; [discriminate|]. intros H. assert (forall o, In o l -> ~ In sym (defined (nm o))) as K by (intros o Ho; apply H; right; exact Ho).
          apply IH in K. discriminate.
        - destruct (memb sym (defined (nm x))) eqn:E.
          + split; [discriminate|]. intros H. apply memb_in in E. destruct (H x (or_introl eq_refl) E).
          + apply memb_notin in E. split; [|reflexivity]. intros _ o [<-|Ho]; [exact E|]. exact (proj1 IH eq_refl o Ho). }
      destruct (definer nm l sym) as [y|] eqn:E.
      + split.
        * intros [= ->]. destruct (proj1 IH eq_refl) as (l1 & l2 & -> & H). exists (o :: l1), l2. split; [reflexivity|exact H].
        * intros (l1 & l2 & Hl & Hd & Hn). destruct l1 as [|x l1]; injection Hl as -> ->.
          -- apply Hnone in Hn. discriminate.
          -- apply IH. exists l1, l2. split; [reflexivity|split; assumption].
      + destruct (memb sym (defined (nm o))) eqn:Em.
        * split.
          -- intros [= <-]. exists [], l. split; [reflexivity|]. split; [apply memb_in, Em|apply Hnone; reflexivity].
          -- intros (l1 & l2 & Hl & Hd & Hn). destruct l1 as [|x l1]; injection Hl as -> ->; [reflexivity|].
             destruct (proj1 Hnone eq_refl d); [apply in_or_app; right; left; reflexivity|exact Hd].
        * split; [discriminate|]. intros (l1 & l2 & Hl & Hd & Hn). destruct l1 as [|x l1]; injection Hl as -> ->.
          -- apply memb_notin in Em. contradiction.
          -- destruct (proj1 Hnone eq_refl d); [apply in_or_app; right; left; reflexivity|exact Hd].
  Qed.

  Lemma provides_in d sym : provides nm objs d sym -> In d objs.
  Proof. intros (l1 & l2 & -> & _). apply in_or_app. right. left. reflexivity. Qed.

  (** Everything an object in the list needs stands before it. *)
  Definition closed (acc : list str) : Prop :=
    NoDup acc /\ incl acc objs /\
    forall l1 o l2, acc = l1 ++ o :: l2 -> forall d, needs nm objs o d -> In d l1.

  Lemma closed_snoc acc o :
    closed acc -> In o objs -> ~ In o acc -> (forall d, needs nm objs o d -> In d acc) -> closed (acc ++ [o]).
  Proof.
    intros (H1 & H2 & H3) Ho Hn Hd. split; [|split].
    - assert (forall l, NoDup l -> ~ In o l -> NoDup (l ++ [o])) as K; [|apply K; assumption].
      clear. induction l as [|x l IH]; simpl; intros Hnd Hni; [constructor; [intros []|constructor]|].
      inversion Hnd; subst. constructor; [|apply IH; tauto]. rewrite in_app_iff. simpl. intuition.
    - intros x Hx. apply in_app_or in Hx as [Hx|[<-|[]]]; [apply H2; exact Hx|exact Ho].
    - intros l1 x l2 E d Hxd. destruct l2 as [|y l2] using rev_ind.
      + apply app_inj_tail in E as [<- <-]. apply Hd. exact Hxd.
      + clear IHl2. rewrite app_comm_cons, app_assoc in E. apply app_inj_tail in E as [-> _]. eapply H3; [reflexivity|exact Hxd].
  Qed.

  Hypothesis Hacyclic : acyclic nm objs.

  (** [path]: the objects being visited, the latest first. *)
  Fixpoint chain (path : list str) : Prop :=
    match path with
    | o :: ((p :: _) as path') => needs nm objs p o /\ chain path'
    | _ => True
    end.

  Lemma path_snoc a b c : needs_path nm objs a b -> needs nm objs b c -> needs_path nm objs a c.
  Proof.
    induction 1 as [a b H|a b d H _ IH]; intros Hc; [eapply np_more; [exact H|apply np_one, Hc]|].
    eapply np_more; [exact H|exact (IH Hc)].
  Qed.

  Lemma chain_path o path : chain (o :: path) -> forall p, In p path -> needs_path nm objs p o.
  Proof.
    revert o. induction path as [|q path IH]; intros o Hc p Hp; [destruct Hp|].
    destruct Hc as [Hn Hc]. destruct Hp as [<-|Hp]; [apply np_one, Hn|].
    exact (path_snoc _ _ _ (IH q Hc p Hp) Hn).
  Qed.

  Lemma visit_spec fuel : forall o path acc,
    chain (o :: path) -> NoDup (o :: path) -> incl (o :: path) objs ->
    (length objs < fuel + length (o :: path))%nat -> closed acc ->
    exists acc', f nm fuel objs o acc = Some acc' /\ closed acc' /\ (exists new, acc' = acc ++ new) /\ In o acc' /\
      (forall p, In p path -> ~ In p acc -> ~ In p acc').
  Proof.
    induction fuel as [|fuel IH]; intros o path acc Hch Hnd Hin Hlen Hcl.
    { exfalso. simpl in Hlen. pose proof (NoDup_incl_length Hnd Hin) as K. simpl in K. lia. }
    cbn [f]. destruct (memb o acc) eqn:Em.
    { exists acc. split; [reflexivity|]. split; [exact Hcl|]. split; [exists []; rewrite app_nil_r; reflexivity|].
      split; [apply memb_in, Em|]. tauto. }
    apply memb_notin in Em.
    match goal with |- context [fold_left ?g _ _] => set (step := g) end.
    assert (forall syms acc, closed acc -> ~ In o acc -> incl syms (undefined (nm o)) ->
      exists acc', fold_left step syms (Some acc) = Some acc' /\ closed acc' /\ (exists new, acc' = acc ++ new) /\
        ~ In o acc' /\ (forall p, In p path -> ~ In p acc -> ~ In p acc') /\
        (forall sym d, In sym syms -> o <> d -> provides nm objs d sym -> In d acc')) as Hloop.
    { induction syms as [|sym syms IHs]; intros acc0 Hcl0 Hno Hsub.
      { exists acc0. split; [reflexivity|]. split; [exact Hcl0|]. split; [exists []; rewrite app_nil_r; reflexivity|].
        split; [exact Hno|]. split; [tauto|]. intros ? ? []. }
      assert (In sym (undefined (nm o))) as Hsym by (apply Hsub; left; reflexivity).
      assert (incl syms (undefined (nm o))) as Hsub' by (intros x Hx; apply Hsub; right; exact Hx).
      cbn [fold_left]. unfold step at 2. destruct (definer nm objs sym) as [d|] eqn:Ed.
      2: { destruct (IHs acc0 Hcl0 Hno Hsub') as (acc' & -> & K1 & K2 & K3 & K4 & K5).
           exists acc'. split; [reflexivity|]. do 4 (split; [assumption|]).
           intros s d [<-|Hs] Hne Hp; [|exact (K5 s d Hs Hne Hp)]. apply definer_provides in Hp. congruence. }
      destruct (str_eqb o d) eqn:Eo.
      { apply str_eqb_true in Eo. subst d. destruct (IHs acc0 Hcl0 Hno Hsub') as (acc' & -> & K1 & K2 & K3 & K4 & K5).
        exists acc'. split; [reflexivity|]. do 4 (split; [assumption|]).
        intros s d [<-|Hs] Hne Hp; [|exact (K5 s d Hs Hne Hp)]. apply definer_provides in Hp. congruence. }
      apply str_eqb_false in Eo. apply definer_provides in Ed as Hp.
      assert (needs nm objs o d) as Hneed by (split; [exact Eo|exists sym; split; assumption]).
      assert (~ In d (o :: path)) as Hd.
      { intros [<-|Hd]; [contradiction|]. apply (Hacyclic d).
        exact (path_snoc _ _ _ (chain_path o path Hch d Hd) Hneed). }
      destruct (IH d (o :: path) acc0) as (acc1 & E1 & C1 & (new1 & N1) & I1 & P1).
      - split; assumption.
      - constructor; assumption.
      - intros x [<-|Hx]; [eapply provides_in; exact Hp|apply Hin; exact Hx].
      - cbn [length] in *. lia.
      - exact Hcl0.
      - rewrite E1. assert (~ In o acc1) as Hno1 by (apply P1; [left; reflexivity|exact Hno]).
        destruct (IHs acc1 C1 Hno1 Hsub') as (acc' & -> & K1 & (new2 & K2) & K3 & K4 & K5).
        exists acc'. split; [reflexivity|]. split; [exact K1|].
        split; [exists (new1 ++ new2); rewrite K2, N1, app_assoc; reflexivity|]. split; [exact K3|].
        split; [intros p Hp' Hna; apply K4; [exact Hp'|]; apply P1; [right; exact Hp'|exact Hna]|].
        intros s e [<-|Hs] Hne Hpe; [|exact (K5 s e Hs Hne Hpe)].
        apply definer_provides in Hpe. assert (e = d) as -> by congruence. rewrite K2. apply in_or_app. left. exact I1. }
    destruct (Hloop (undefined (nm o)) acc Hcl Em (incl_refl _)) as (acc' & -> & K1 & (new & K2) & K3 & K4 & K5).
    exists (acc' ++ [o]). split; [reflexivity|]. split.
    { apply closed_snoc; [exact K1|apply Hin; left; reflexivity|exact K3|].
      intros d [Hne (sym & Hs & Hp)]. exact (K5 sym d Hs Hne Hp). }
    split; [exists (new ++ [o]); rewrite K2, app_assoc; reflexivity|].
    split; [apply in_or_app; right; left; reflexivity|].
    intros p Hp Hna K. apply in_app_or in K as [K|[<-|[]]]; [exact (K4 p Hp Hna K)|].
    inversion Hnd; contradiction.
  Qed.

  Lemma dependencies_ok fuel :
    (length objs <= fuel)%nat ->
    exists l, object_dependencies nm fuel objs = Some l /\ NoDup l /\ (forall o, In o l <-> In o objs) /\
      (forall o d, In o objs -> needs nm objs o d -> left_of o d l).
  Proof.
    intros Hf. unfold object_dependencies.
    assert (forall os acc, incl os objs -> closed acc ->
      exists acc', fold_left (fun a obj => match a with None => None | Some acc => f nm fuel objs obj acc end) os (Some acc) = Some acc' /\
        closed acc' /\ (exists new, acc' = acc ++ new) /\ incl os acc') as Hloop.
    { induction os as [|o os IH]; intros acc Hin Hcl.
      { exists acc. split; [reflexivity|]. split; [exact Hcl|]. split; [exists []; rewrite app_nil_r; reflexivity|intros x []]. }
      cbn [fold_left]. destruct (visit_spec fuel o [] acc) as (acc1 & -> & C1 & (n1 & N1) & I1 & _).
      - exact I.
      - constructor; [intros []|constructor].
      - intros x [<-|[]]. apply Hin. left. reflexivity.
      - simpl. lia.
      - exact Hcl.
      - destruct (IH acc1) as (acc' & -> & C2 & (n2 & N2) & I2); [intros x Hx; apply Hin; right; exact Hx|exact C1|].
        exists acc'. split; [reflexivity|]. split; [exact C2|].
        split; [exists (n1 ++ n2); rewrite N2, N1, app_assoc; reflexivity|].
        intros x [<-|Hx]; [rewrite N2; apply in_or_app; left; exact I1|apply I2; exact Hx]. }
    destruct (Hloop objs [] (incl_refl _)) as (acc & -> & (C1 & C2 & C3) & _ & C4).
    { split; [constructor|]. split; [intros x []|]. intros [] ? ? E; discriminate. }
    exists (rev acc). split; [reflexivity|]. split; [apply NoDup_rev; exact C1|].
    split; [intros o; rewrite <- in_rev; split; [apply C2|apply C4]|].
    intros o d Ho Hn. apply C4 in Ho. apply in_split in Ho as (l1 & l2 & ->).
    pose proof (C3 l1 o l2 eq_refl d Hn) as Hd. apply in_split in Hd as (l3 & l4 & ->).
    exists (rev l2), (rev l4), (rev l3). rewrite <- app_assoc. cbn [app].
    rewrite rev_app_distr. cbn [rev]. rewrite rev_app_distr. cbn [rev]. rewrite <- !app_assoc. cbn [app].
    reflexivity.
  Qed.
End Facts.
