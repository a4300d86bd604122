(** Proofs about the identity of cached functions. *)
From stdpp Require Import base list strings gmap.
From Coq Require Import Ascii.
From Verif Require Import PyMonad IdModel IdSpec.
Local Open Scope string_scope.
Local Open Scope list_scope.

(** The first entry of a name is the one in the registry. *)
Definition first (n : string) (es : list (string * string)) : option string :=
  match filter (fun e => e.1 = n) es with [] => None | e :: _ => Some e.2 end.

Lemma first_cons n e es : first n (e :: es) = if decide (e.1 = n) then Some e.2 else first n es.
Proof. unfold first. rewrite filter_cons. by destruct (decide _). Qed.

Lemma fold_entries es m n :
  foldl add_entry m es !! n = match m !! n with Some x => Some x | None => first n es end.
Proof.
  revert m. induction es as [|e es IH]; intros m; cbn [foldl].
  { by destruct (m !! n). }
  rewrite IH, first_cons. unfold add_entry. destruct (m !! e.1) as [x|] eqn:E.
  - destruct (m !! n) eqn:En; [done|]. destruct (decide (e.1 = n)) as [He|He]; [congruence|done].
  - destruct (decide (e.1 = n)) as [He|He].
    + subst n. by rewrite lookup_insert, E.
    + by rewrite lookup_insert_ne.
Qed.

Lemma registry_first P n : registry P !! n = first n (P ≫= entries_of).
Proof. unfold registry. by rewrite fold_entries, lookup_empty. Qed.

Lemma first_app n es es' : first n (es ++ es') = match first n es with Some x => Some x | None => first n es' end.
Proof.
  induction es as [|e es IH]; [done|]. cbn [app]. rewrite !first_cons. by destruct (decide _).
Qed.

Lemma first_none n es : (forall e, e ∈ es -> e.1 <> n) -> first n es = None.
Proof.
  induction es as [|e es IH]; intros H; [done|]. rewrite first_cons, decide_False by (apply H; by left).
  apply IH. intros e' He. apply H. by right.
Qed.

Lemma first_some n es x : first n es = Some x -> (n, x) ∈ es.
Proof.
  induction es as [|[k y] es IH]; [done|]. rewrite first_cons. simpl. destruct (decide (k = n)) as [->|].
  - intros [= ->]. by left.
  - intros H. right. by apply IH.
Qed.

Lemma entries_names d e : e ∈ entries_of d -> e.1 ∈ names_of d.
Proof.
  destruct d as [f|c]; simpl.
  - intros ->%elem_of_list_singleton. by left.
  - destruct (decide _); [by intros ?%elem_of_nil|]. rewrite elem_of_app. intros [H|H].
    + apply elem_of_list_fmap in H as (f & -> & H). right. simpl.
      change (method_name c f) with ((fun f => method_name c f) f). by apply elem_of_list_fmap_1.
    + apply elem_of_list_singleton in H as ->. by left.
Qed.

(** Other definitions do not matter. *)
Lemma registry_only P n i d :
  (forall j d', P !! j = Some d' -> n ∈ names_of d' -> j = i) -> P !! i = Some d ->
  registry P !! n = first n (entries_of d).
Proof.
  intros Hn Hi. rewrite registry_first. pose proof (take_drop_middle _ _ _ Hi) as Hp.
  assert (forall l, (forall d', d' ∈ l -> n ∉ names_of d') -> first n (l ≫= entries_of) = None) as Hno.
  { intros l Hl. apply first_none. intros e (d' & He & Hd)%elem_of_list_bind <-. apply (Hl d' Hd). by apply entries_names. }
  rewrite <- Hp at 1. rewrite bind_app, first_app, Hno.
  - cbn. rewrite first_app. destruct (first n (entries_of d)); [done|]. apply Hno.
    intros d' [j Hj]%elem_of_list_lookup Hin. rewrite lookup_drop in Hj. specialize (Hn _ _ Hj Hin). lia.
  - intros d' [j Hj]%elem_of_list_lookup Hin. pose proof (lookup_lt_Some _ _ _ Hj) as Hl. rewrite take_length in Hl.
    rewrite lookup_take in Hj by lia. specialize (Hn _ _ Hj Hin). lia.
Qed.

Lemma inmost_plain f : plain f -> inmost f = f_text (unwrap f).
Proof. by destruct f as [m n x [[m' n' x' [?|]]|]]. Qed.

(** In a program with distinct names a call is checked against the text of its own code. *)
Lemma own_source P k : distinct P -> defines P k -> creates k = false -> registry P !! call_name k = Some (code k).
Proof.
  intros [D1 D2 D3 D4] Hk Hc. pose proof (D3 k Hk) as Hpl. destruct k as [f|c f|c]; [| |done].
  - apply elem_of_list_lookup in Hk as [i Hi].
    assert (forall j d', P !! j = Some d' -> call_name (KFun f) ∈ names_of d' -> j = i) as Ho.
    { intros j d' Hj Hin. eapply (D1 j i); [exact Hj|exact Hi|exact Hin|]. by left. }
    rewrite (registry_only P (call_name (KFun f)) i (DFun f) Ho Hi). cbn [entries_of]. rewrite first_cons.
    cbn [call_name fst]. rewrite decide_True by done. cbn [snd code]. by rewrite inmost_plain.
  - destruct Hk as [Hd Hf]. pose proof (D4 c Hd) as Hn. pose proof Hd as Hd'. apply elem_of_list_lookup in Hd as [i Hi].
    assert (forall j d', P !! j = Some d' -> call_name (KMethod c f) ∈ names_of d' -> j = i) as Ho.
    { intros j d' Hj Hin. eapply (D1 j i); [exact Hj|exact Hi|exact Hin|]. right.
      change (call_name (KMethod c f)) with ((fun f => call_name (KMethod c f)) f). apply elem_of_list_fmap_1.
      rewrite elem_of_app. by left. }
    rewrite (registry_only P _ i (DClass c) Ho Hi). cbn [entries_of]. rewrite decide_False by done.
    rewrite fmap_app, <- app_assoc, first_app.
    assert (first (call_name (KMethod c f)) ((fun f => (method_name c f, f_text (unwrap f))) <$> c_members c) = Some (code (KMethod c f))) as ->; [|done].
    clear Hi Ho. assert (forall g, g ∈ c_members c -> method_name c g = method_name c f -> g = f) as Huniq.
    { intros g Hg He. by apply (D2 c). }
    cbn [call_name code]. revert Hf Huniq. generalize (c_members c) as ms. intros ms Hf Huniq.
    induction ms as [|g ms IH]; [by apply elem_of_nil in Hf|]. cbn [fmap list_fmap]. rewrite first_cons. cbn [fst snd].
    destruct (decide (method_name c g = method_name c f)) as [He|Hne].
    + rewrite (Huniq g) by (done || by left). by rewrite inmost_plain.
    + apply elem_of_cons in Hf as [->|Hf]; [done|]. apply IH; [done|]. intros h Hh. apply Huniq. by right.
Qed.

Lemma first_unique c f ms : f ∈ ms -> plain f ->
  (forall g, g ∈ ms -> method_name c g = method_name c f -> g = f) ->
  first (method_name c f) ((fun f => (method_name c f, f_text (unwrap f))) <$> ms) = Some (inmost f).
Proof.
  intros Hf Hpl Huniq. induction ms as [|g ms IH]; [by apply elem_of_nil in Hf|]. cbn [fmap list_fmap].
  rewrite first_cons. cbn [fst snd]. destruct (decide (method_name c g = method_name c f)) as [He|Hne].
  - rewrite (Huniq g) by (done || by left). by rewrite inmost_plain.
  - apply elem_of_cons in Hf as [->|Hf]; [done|]. apply IH; [done|]. intros h Hh. apply Huniq. by right.
Qed.

Lemma inherited_source P k : distinct P -> inherited P k -> registry P !! call_name k = Some (code k).
Proof.
  intros [D1 D2 D3 D4] Hk. destruct k as [f|c f|c]; [done| |done]. destruct Hk as (Hd & Hf & Hpl & Hu).
  pose proof (D4 c Hd) as Hn. apply elem_of_list_lookup in Hd as [i Hi].
  assert (f ∈ c_members c ++ (c_bases c ≫= c_members)) as Hf' by (rewrite elem_of_app; by right).
  assert (forall j d', P !! j = Some d' -> call_name (KMethod c f) ∈ names_of d' -> j = i) as Ho.
  { intros j d' Hj Hin. eapply (D1 j i); [exact Hj|exact Hi|exact Hin|]. right.
    change (call_name (KMethod c f)) with ((fun f => call_name (KMethod c f)) f). by apply elem_of_list_fmap_1. }
  rewrite (registry_only P _ i (DClass c) Ho Hi). cbn [entries_of]. rewrite decide_False by done. rewrite first_app.
  cbn [call_name code]. rewrite first_unique; [done|done|done|]. intros g Hg He. by apply (Hu g).
Qed.

Lemma own_name_source P k : own_name P k -> registry P !! call_name k = Some (code k).
Proof. intros (Hd & Hc & [H|H]); [by apply own_source|by apply inherited_source]. Qed.

(** The text of constructors does not matter. *)
Fixpoint forget (c : cls) : cls :=
  match c with Cls m n _ ms bs => Cls m n "" ms (map forget bs) end.
Definition forget_def (d : definition) : definition := match d with DFun f => DFun f | DClass c => DClass (forget c) end.

Lemma forget_entries d : entries_of (forget_def d) = entries_of d.
Proof.
  destruct d as [f|[m n i ms bs]]; [done|]. cbn [forget_def entries_of forget c_name c_module c_members c_bases].
  assert (map forget bs ≫= c_members = bs ≫= c_members) as H.
  { induction bs as [|[m' n' i' ms' bs'] bs IH]; [done|]. cbn. by rewrite IH. }
  unfold class_name, method_name. cbn [c_name c_module]. by rewrite H.
Qed.

Lemma forget_registry P : registry (forget_def <$> P) = registry P.
Proof.
  unfold registry. f_equal. induction P as [|d P IH]; [done|]. cbn. by rewrite forget_entries, IH.
Qed.

(** *** Names *)
Lemma app_string_assoc s1 s2 s3 : (s1 +:+ s2) +:+ s3 = s1 +:+ (s2 +:+ s3).
Proof.
  induction s1 as [|a s IH]; [done|]. change (String a ((s +:+ s2) +:+ s3) = String a (s +:+ (s2 +:+ s3))). by rewrite IH.
Qed.

Lemma undotted_tail a s : undotted (String a s) -> undotted s.
Proof. intros H u v ->. by apply (H (String a u) v). Qed.

(** The last component of a dotted name is determined. *)
Lemma last_dot m1 n1 m2 n2 : undotted n1 -> undotted n2 ->
  m1 +:+ "." +:+ n1 = m2 +:+ "." +:+ n2 -> m1 = m2 /\ n1 = n2.
Proof.
  intros H1 H2. revert m2. induction m1 as [|a m1 IH]; intros [|b m2] H.
  - change (String "."%char n1 = String "."%char n2) in H. by injection H.
  - change (String "."%char n1 = String b (m2 +:+ "." +:+ n2)) in H. injection H as <- H. by destruct (H1 m2 n2 H).
  - change (String a (m1 +:+ "." +:+ n1) = String "."%char n2) in H. injection H as -> H. by destruct (H2 m1 n1 (eq_sym H)).
  - change (String a (m1 +:+ "." +:+ n1) = String b (m2 +:+ "." +:+ n2)) in H. injection H as -> H.
    destruct (IH m2 H) as [-> ->]. done.
Qed.

Lemma same_function f g : undotted (f_name (unwrap f)) -> undotted (f_name (unwrap g)) ->
  (call_name (KFun f) = call_name (KFun g) <->
   f_module (unwrap f) = f_module (unwrap g) /\ f_name (unwrap f) = f_name (unwrap g)).
Proof.
  intros H1 H2. cbn [call_name]. unfold function_name. split; [by apply last_dot|]. by intros [-> ->].
Qed.

Lemma same_method c f c' g :
  undotted (f_name (unwrap f)) -> undotted (f_name (unwrap g)) -> undotted (c_name c) -> undotted (c_name c') ->
  (call_name (KMethod c f) = call_name (KMethod c' g) <->
   f_module (unwrap f) = f_module (unwrap g) /\ c_name c = c_name c' /\ f_name (unwrap f) = f_name (unwrap g)).
Proof.
  intros H1 H2 H3 H4. cbn [call_name]. unfold method_name. split; [|by intros (-> & -> & ->)].
  intros H.
  assert ((f_module (unwrap f) +:+ "." +:+ c_name c) +:+ "." +:+ f_name (unwrap f) =
          (f_module (unwrap g) +:+ "." +:+ c_name c') +:+ "." +:+ f_name (unwrap g)) as H'.
  { by rewrite !app_string_assoc. }
  apply last_dot in H' as [H' ->]; [|done..]. by apply last_dot in H' as [-> ->].
Qed.

Lemma function_method f c g : undotted (f_name (unwrap f)) -> undotted (f_name (unwrap g)) ->
  (call_name (KFun f) = call_name (KMethod c g) <->
   f_module (unwrap f) = f_module (unwrap g) +:+ "." +:+ c_name c /\ f_name (unwrap f) = f_name (unwrap g)).
Proof.
  intros H1 H2. cbn [call_name]. unfold function_name, method_name.
  assert (f_module (unwrap g) +:+ "." +:+ c_name c +:+ "." +:+ f_name (unwrap g) =
    (f_module (unwrap g) +:+ "." +:+ c_name c) +:+ "." +:+ f_name (unwrap g)) as -> by by rewrite !app_string_assoc.
  split; [by apply last_dot|]. by intros [-> ->].
Qed.
