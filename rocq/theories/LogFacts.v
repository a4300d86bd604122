(** Facts about the log. *)
From Coq Require Import List Bool Arith Lia Permutation.
From Verif Require Import LogModel LogSpec.
Import ListNotations.

Definition emits (k : list micro) : list msg :=
  flat_map (fun a => match a with MEmit m => [m] | MFlush => [] end) k.
Definition flushes (k : list micro) : nat :=
  length (filter (fun a => match a with MFlush => true | _ => false end) k).

Lemma emits_app k l : emits (k ++ l) = emits k ++ emits l.
Proof. apply flat_map_app. Qed.
Lemma emits_map b : emits (map MEmit b) = b.
Proof. induction b as [|m b IH]; simpl; [reflexivity|]. f_equal. exact IH. Qed.
Lemma flushes_map b k : flushes (map MEmit b ++ k) = flushes k.
Proof. induction b as [|m b IH]; simpl; [reflexivity|]. exact IH. Qed.

(** *** The view of one thread *)
(** A thread's own steps: calls and micro steps. *)
Inductive own := WStart (o : op) | WMicro.
Fixpoint own_events (t : tid) (es : list event) : list own :=
  match es with
  | [] => []
  | EStart u o :: es' => if Nat.eqb u t then WStart o :: own_events t es' else own_events t es'
  | EMicro u :: es' => if Nat.eqb u t then WMicro :: own_events t es' else own_events t es'
  end.
Fixpoint own_run (one : bool) (s : tstate) (acc : list msg) (ws : list own) : option (tstate * list msg) :=
  match ws with
  | [] => Some (s, acc)
  | WStart o :: ws' => match todo s with [] => own_run one (start one s o) acc ws' | _ => None end
  | WMicro :: ws' =>
      match micro_step s with
      | Some (s', o) => own_run one s' (acc ++ match o with Some m => [m] | None => [] end) ws'
      | None => None
      end
  end.
Fixpoint own_calls (ws : list own) : list op :=
  match ws with
  | [] => []
  | WStart o :: ws' => o :: own_calls ws'
  | WMicro :: ws' => own_calls ws'
  end.

Lemma own_calls_ok t es : own_calls (own_events t es) = calls t es.
Proof.
  induction es as [|[u o|u] es IH]; simpl; [reflexivity| |];
    destruct (Nat.eqb u t); simpl; rewrite ?IH; reflexivity.
Qed.

Lemma arrived_app t l l' : arrived t (l ++ l') = arrived t l ++ arrived t l'.
Proof. unfold arrived. rewrite filter_app. apply map_app. Qed.

Lemma run_own one t es : forall s s',
  run one s es = Some s' ->
  own_run one (threads s t) (arrived t (out s)) (own_events t es) = Some (threads s' t, arrived t (out s')).
Proof.
  induction es as [|e es IH]; intros s s' H; simpl in *.
  - injection H as <-. reflexivity.
  - destruct (step one s e) as [s1|] eqn:E; [|discriminate]. specialize (IH s1 s' H).
    destruct e as [u o|u]; simpl in E.
    + destruct (todo (threads s u)) eqn:Et; [|discriminate]. injection E as <-. simpl in IH. unfold upd in IH.
      destruct (Nat.eqb u t) eqn:Eu.
      * apply Nat.eqb_eq in Eu as ->. rewrite Nat.eqb_refl in IH. simpl. rewrite Et. exact IH.
      * rewrite Nat.eqb_sym, Eu in IH. exact IH.
    + destruct (micro_step (threads s u)) as [[ts o]|] eqn:Em; [|discriminate]. injection E as <-.
      simpl in IH. unfold upd in IH. rewrite arrived_app in IH. destruct (Nat.eqb u t) eqn:Eu.
      * apply Nat.eqb_eq in Eu as ->. rewrite Nat.eqb_refl in IH. simpl. rewrite Em.
        replace (arrived t match o with Some m => [(t, m)] | None => [] end)
          with (match o with Some m => [m] | None => [] end) in IH; [exact IH|].
        destruct o as [m|]; [|reflexivity]. unfold arrived. simpl. rewrite Nat.eqb_refl. reflexivity.
      * rewrite Nat.eqb_sym, Eu in IH.
        replace (arrived t match o with Some m => [(u, m)] | None => [] end) with (@nil msg) in IH.
        -- rewrite app_nil_r in IH. exact IH.
        -- destruct o as [m|]; [|reflexivity]. unfold arrived. simpl. rewrite Eu. reflexivity.
Qed.

(** *** Nothing is lost or doubled *)
Lemma own_perm one ws : forall s acc s' acc',
  own_run one s acc ws = Some (s', acc') ->
  Permutation (acc' ++ emits (todo s') ++ concat (stack s'))
              (acc ++ emits (todo s) ++ concat (stack s) ++ written (own_calls ws)).
Proof.
  induction ws as [|[o|] ws IH]; intros s acc s' acc' H; simpl in *.
  - injection H as <- <-. rewrite app_nil_r. reflexivity.
  - destruct (todo s) eqn:Et; [|discriminate]. rewrite (IH _ _ _ _ H). clear IH H.
    apply Permutation_app_head. destruct o as [| |m b]; simpl.
    + rewrite Et. reflexivity.
    + reflexivity.
    + destruct (negb b || one); simpl.
      * rewrite Permutation_middle. reflexivity.
      * destruct (stack s) as [|c st]; simpl; [reflexivity|].
        destruct (m_newline m); simpl; rewrite <- !app_assoc; apply Permutation_app_head; simpl;
          apply Permutation_middle.
  - destruct (micro_step s) as [[s1 o]|] eqn:Em; [|discriminate]. rewrite (IH _ _ _ _ H). clear IH H.
    unfold micro_step in Em. destruct (todo s) as [|[m|] k] eqn:Et; [discriminate| |].
    + injection Em as <- <-. simpl. rewrite <- app_assoc. reflexivity.
    + destruct (stack s) as [|c st]; injection Em as <- <-; simpl; rewrite app_nil_r.
      * reflexivity.
      * apply Permutation_app_head. rewrite emits_app, emits_map, <- !app_assoc.
        rewrite (Permutation_app_swap_app c). reflexivity.
Qed.

(** *** No buffer is left *)
Lemma own_depth one ws : forall s acc s' acc' d d',
  own_run one s acc ws = Some (s', acc') ->
  length (stack s) <= d + flushes (todo s) ->
  depth d (own_calls ws) = Some d' ->
  length (stack s') <= d' + flushes (todo s').
Proof.
  induction ws as [|[o|] ws IH]; intros s acc s' acc' d d' H Hd Hc; simpl in *.
  - injection H as <- <-. injection Hc as <-. exact Hd.
  - destruct (todo s) eqn:Et; [|discriminate]. unfold flushes in Hd. simpl in Hd.
    destruct o as [| |m b]; simpl in H, Hc.
    + apply (IH _ _ _ _ (S d) d' H); [|exact Hc]. simpl. lia.
    + destruct d as [|d]; [discriminate|]. apply (IH _ _ _ _ d d' H); [|exact Hc].
      unfold flushes. simpl. lia.
    + apply (IH _ _ _ _ d d' H); [|exact Hc]. destruct (negb b || one); [simpl; lia|].
      destruct (stack s); simpl in *; lia.
  - destruct (micro_step s) as [[s1 o]|] eqn:Em; [|discriminate].
    apply (IH _ _ _ _ d d' H); [|exact Hc]. unfold micro_step in Em.
    destruct (todo s) as [|[m|] k] eqn:Et; [discriminate| |]; unfold flushes in Hd; simpl in Hd; fold (flushes k) in Hd.
    + injection Em as <- <-. simpl. unfold flushes. simpl. fold (flushes k). lia.
    + destruct (stack s) as [|c st]; injection Em as <- <-; simpl in *; rewrite ?flushes_map; lia.
Qed.

Theorem log_once one es s t :
  run one init es = Some s -> todo (threads s t) = [] -> depth 0 (calls t es) = Some 0 ->
  Permutation (arrived t (out s)) (written (calls t es)).
Proof.
  intros H Ht Hd. apply (run_own one t) in H. rewrite <- own_calls_ok in *.
  pose proof (own_perm _ _ _ _ _ _ H) as Hp.
  pose proof (own_depth _ _ _ _ _ _ 0 0 H ltac:(simpl; lia) Hd) as Hl.
  rewrite Ht in Hp, Hl. unfold flushes in Hl. simpl in Hl, Hp.
  destruct (stack (threads s t)); simpl in Hl; [|lia]. simpl in Hp. rewrite app_nil_r in Hp. exact Hp.
Qed.

(** At any time: what arrived and what still waits is what was written. *)
Theorem log_accounted one es s t :
  run one init es = Some s ->
  Permutation (arrived t (out s) ++ emits (todo (threads s t)) ++ concat (stack (threads s t)))
              (written (calls t es)).
Proof.
  intros H. apply (run_own one t) in H. rewrite <- own_calls_ok. apply (own_perm _ _ _ _ _ _ H).
Qed.

(** *** Order *)
Lemma own_order_one ws : forall s acc s' acc',
  own_run true s acc ws = Some (s', acc') -> Forall (fun b => b = []) (stack s) ->
  acc' ++ emits (todo s') = acc ++ emits (todo s) ++ written (own_calls ws).
Proof.
  induction ws as [|[o|] ws IH]; intros s acc s' acc' H Hs; simpl in *.
  - injection H as <- <-. rewrite app_nil_r. reflexivity.
  - destruct (todo s) eqn:Et; [|discriminate]. destruct o as [| |m b]; simpl in H.
    + rewrite (IH _ _ _ _ H) by (constructor; [reflexivity|exact Hs]). simpl. rewrite Et. reflexivity.
    + rewrite (IH _ _ _ _ H) by exact Hs. reflexivity.
    + rewrite orb_true_r in H. rewrite (IH _ _ _ _ H) by exact Hs. reflexivity.
  - destruct (micro_step s) as [[s1 o]|] eqn:Em; [|discriminate]. unfold micro_step in Em.
    destruct (todo s) as [|[m|] k] eqn:Et; [discriminate| |].
    + injection Em as <- <-. rewrite (IH _ _ _ _ H) by exact Hs. simpl. rewrite <- app_assoc. reflexivity.
    + destruct (stack s) as [|c st] eqn:Est.
      * injection Em as <- <-. rewrite (IH _ _ _ _ H) by constructor. rewrite app_nil_r. reflexivity.
      * injection Em as <- <-. inversion Hs as [|? ? Hc Hst]; subst. simpl in H.
        rewrite (IH _ _ _ _ H) by exact Hst. rewrite app_nil_r. reflexivity.
Qed.

Lemma own_order_simple ws : forall s acc s' acc' ins,
  own_run false s acc ws = Some (s', acc') ->
  simple ins (own_calls ws) = true ->
  length (stack s) <= 1 ->
  (stack s <> [] -> emits (todo s) = []) ->
  (ins = false -> length (stack s) <= flushes (todo s)) ->
  acc' ++ emits (todo s') ++ concat (stack s') =
  acc ++ emits (todo s) ++ concat (stack s) ++ written (own_calls ws).
Proof.
  induction ws as [|[o|] ws IH]; intros s acc s' acc' ins H Hsim Hl He Hf; simpl in *.
  - injection H as <- <-. rewrite app_nil_r. reflexivity.
  - destruct (todo s) eqn:Et; [|discriminate]. unfold flushes in Hf. simpl in Hf.
    destruct o as [| |m b]; simpl in H, Hsim.
    + apply andb_prop in Hsim as [Hi Hsim]. destruct ins; [discriminate|]. specialize (Hf eq_refl).
      destruct (stack s) eqn:Est; [|simpl in Hf; lia].
      rewrite (IH _ _ _ _ true H Hsim); simpl; rewrite ?Et; try reflexivity; try lia.
    + apply andb_prop in Hsim as [-> Hsim].
      rewrite (IH _ _ _ _ false H Hsim); simpl; [reflexivity|exact Hl|reflexivity|].
      intros _. unfold flushes. simpl. lia.
    + apply andb_prop in Hsim as [Hb Hsim]. rewrite orb_false_r in H. destruct (stack s) as [|c st] eqn:Est.
      { replace (if negb b then T [] [MEmit m] else T [] [MEmit m]) with (T [] [MEmit m]) in H by (destruct b; reflexivity).
        rewrite (IH _ _ _ _ ins H Hsim); simpl; try reflexivity; try lia. contradiction. }
      destruct b; simpl in H.
      * simpl in Hl. destruct st; [|simpl in Hl; lia].
        rewrite (IH _ _ _ _ ins H Hsim); simpl.
        -- destruct (m_newline m); simpl; rewrite !app_nil_r, <- app_assoc; reflexivity.
        -- lia.
        -- intros _. destruct (m_newline m); reflexivity.
        -- intros Hi. specialize (Hf Hi). simpl in Hf. lia.
      * simpl in Hb. destruct ins; [discriminate|]. specialize (Hf eq_refl). simpl in Hf. lia.
  - destruct (micro_step s) as [[s1 o]|] eqn:Em; [|discriminate]. unfold micro_step in Em.
    destruct (todo s) as [|[m|] k] eqn:Et; [discriminate| |].
    + injection Em as <- <-. destruct (stack s) as [|c st] eqn:Est.
      * rewrite (IH _ _ _ _ ins H Hsim); simpl; [rewrite <- !app_assoc; reflexivity|lia|contradiction|lia].
      * simpl in He. discriminate (He ltac:(discriminate)).
    + destruct (stack s) as [|c st] eqn:Est; injection Em as <- <-.
      * rewrite app_nil_r in H. rewrite (IH _ _ _ _ ins H Hsim); simpl; [reflexivity|lia|contradiction|lia].
      * simpl in Hl. destruct st; [|simpl in Hl; lia]. simpl in He. specialize (He ltac:(discriminate)).
        rewrite app_nil_r in H. rewrite (IH _ _ _ _ ins H Hsim); simpl; [|lia|contradiction|lia].
        rewrite emits_app, emits_map, He, !app_nil_r. reflexivity.
Qed.

Theorem log_order one es s t :
  run one init es = Some s -> todo (threads s t) = [] -> depth 0 (calls t es) = Some 0 ->
  one = true \/ simple false (calls t es) = true ->
  arrived t (out s) = written (calls t es).
Proof.
  intros H Ht Hd Hc. apply (run_own one t) in H. rewrite <- own_calls_ok in *. destruct one.
  - pose proof (own_order_one _ _ _ _ _ H ltac:(constructor)) as Ho. rewrite Ht in Ho. simpl in Ho.
    rewrite app_nil_r in Ho. exact Ho.
  - destruct Hc as [Hc|Hc]; [discriminate|].
    pose proof (own_order_simple _ _ _ _ _ false H Hc ltac:(simpl; lia) ltac:(contradiction) ltac:(simpl; lia)) as Ho.
    pose proof (own_depth _ _ _ _ _ _ 0 0 H ltac:(simpl; lia) Hd) as Hl.
    rewrite Ht in Ho, Hl. unfold flushes in Hl. simpl in Hl, Ho.
    destruct (stack (threads s t)); simpl in Hl; [|lia]. simpl in Ho. rewrite app_nil_r in Ho. exact Ho.
Qed.
