(** bind_args agrees with Python's binding on plain calls. *)
From stdpp Require Import base list strings gmap.
From Coq Require Import Lia.
From Verif Require Import PyMonad ArgsModel ArgsSpec.

Section Facts.
  Context {V : Type} (probe_of : V -> probe V) (is_inner : V -> bool).
  Notation sig := (sig V).
  Notation bind_args := (bind_args probe_of is_inner).

  (** pos_loop *)
  Section Pos.
    Context (sg : sig) (args : list V).
    Context (Hpos : sg_posonly sg = 0) (Hdef : length (sg_defaults sg) <= length (sg_args sg)).

    Lemma default_eq i :
      i < length (sg_args sg) ->
      (if decide (length (sg_args sg) - i <= length (sg_defaults sg)) then
         sg_defaults sg !! (length (sg_defaults sg) - (length (sg_args sg) - i))
       else None) = default_of sg i.
    Proof.
      intros Hi. unfold default_of.
      destruct (decide (length (sg_args sg) - i <= _)), (decide (_ - _ <= i)); try lia; [|done].
      f_equal. lia.
    Qed.

    Lemma default_some i :
      i < length (sg_args sg) -> length (sg_args sg) - i <= length (sg_defaults sg) ->
      is_Some (sg_defaults sg !! (length (sg_defaults sg) - (length (sg_args sg) - i))).
    Proof. intros ??. apply lookup_lt_is_Some. lia. Qed.

    Definition pv (kw : gmap name V) i p := pos_value sg args kw i p.

    Lemma pv_delete kw i p q : p <> q -> pv (delete q kw) i p = pv kw i p.
    Proof. intros. unfold pv, pos_value. by rewrite lookup_delete_ne. Qed.

    Lemma pos_loop_spec i ks kw :
      i + length ks = length (sg_args sg) -> NoDup ks ->
      match pos_loop sg args i ks kw with
      | None => exists j p, ks !! j = Some p /\ i + j < length args /\ is_Some (kw !! p)
      | Some (vs, cnt, kw') =>
          (cnt = length ks /\ length vs = length ks /\
           (forall j p, ks !! j = Some p -> is_Some (pv kw (i + j) p) /\ vs !! j = pv kw (i + j) p /\
              (i + j < length args -> kw !! p = None)) /\
           (forall q, kw' !! q = if decide (q ∈ ks) then None else kw !! q)) \/
          (i + cnt + length (sg_defaults sg) < length (sg_args sg) /\
           exists j p, ks !! j = Some p /\ pv kw (i + j) p = None)
      end.
    Proof.
      revert i kw. induction ks as [|k ks IH]; intros i kw Hlen Hnd; simpl.
      { left. split_and!; try done. }
      apply NoDup_cons in Hnd as [Hk Hnd]. simpl in Hlen.
      (* the continuation *)
      assert (forall v kw1, pv kw i k = Some v -> (i < length args -> kw !! k = None) ->
        (kw1 = kw /\ kw !! k = None \/ kw1 = delete k kw) ->
        match (match pos_loop sg args (S i) ks kw1 with
               | Some (vs, n, kw'') => Some (v :: vs, S n, kw'')
               | None => None end) with
        | None => exists j p, (k :: ks) !! j = Some p /\ i + j < length args /\ is_Some (kw !! p)
        | Some (vs, cnt, kw') =>
          (cnt = S (length ks) /\ length vs = S (length ks) /\
           (forall j p, (k :: ks) !! j = Some p -> is_Some (pv kw (i + j) p) /\ vs !! j = pv kw (i + j) p /\
              (i + j < length args -> kw !! p = None)) /\
           (forall q, kw' !! q = if decide (q ∈ k :: ks) then None else kw !! q)) \/
          (i + cnt + length (sg_defaults sg) < length (sg_args sg) /\
           exists j p, (k :: ks) !! j = Some p /\ pv kw (i + j) p = None)
        end) as Hcont.
      { intros v kw1 Hv Honce Hkw1.
        assert (forall p, p <> k -> kw1 !! p = kw !! p) as Hsame.
        { intros p Hp. destruct Hkw1 as [[-> _]| ->]; [done|]. by rewrite lookup_delete_ne. }
        assert (forall j p, ks !! j = Some p -> p <> k) as Hin.
        { intros j p Hj ->. apply Hk. by eapply elem_of_list_lookup_2. }
        assert (forall j p, ks !! j = Some p -> pv kw1 (S i + j) p = pv kw (i + S j) p) as Hpv.
        { intros j p Hj. unfold pv, pos_value. rewrite Hsame by eauto. by rewrite Nat.add_succ_r. }
        specialize (IH (S i) kw1 ltac:(lia) Hnd).
        destruct (pos_loop sg args (S i) ks kw1) as [[[vs cnt] kw']|].
        - destruct IH as [(-> & Hl & Hall & Hkw')|(Hlt & j & p & Hj & Hp)].
          + left. split_and!; [done|simpl; lia| |].
            * intros [|j] p Hj; simpl in Hj.
              -- injection Hj as <-. rewrite Nat.add_0_r. rewrite Hv. split_and!; try done.
              -- destruct (Hall j p Hj) as (H1 & H2 & H3).
                 rewrite (Hpv j p Hj) in H1, H2. split_and!; [done|done|].
                 intros. rewrite <- Hsame by eauto. apply H3. lia.
            * intros q. rewrite Hkw'.
              destruct (decide (q ∈ ks)) as [Hq|Hq].
              -- rewrite decide_True; [done|by right].
              -- destruct (decide (q = k)) as [->|Hqk].
                 ++ rewrite decide_True by by left.
                    destruct Hkw1 as [[-> ?]| ->]; [done|]. by rewrite lookup_delete.
                 ++ rewrite decide_False; [by apply Hsame|]. rewrite elem_of_cons. tauto.
          + right. split; [lia|]. exists (S j), p. split; [done|]. by rewrite <- Hpv.
        - destruct IH as (j & p & Hj & Hlt & Hp). exists (S j), p.
          split; [done|]. split; [lia|]. by rewrite <- Hsame by eauto. }
      assert (pv kw i k = match args !! i with
               | Some v => Some v
               | None => match kw !! k with Some v => Some v | None => default_of sg i end end) as Hpv0.
      { unfold pv, pos_value. rewrite Hpos. destruct (args !! i); [done|].
        rewrite decide_False by lia. done. }
      destruct (kw !! k) as [v|] eqn:Ek.
      - destruct (decide (i < length args)) as [Hi|Hi].
        + exists 0, k. rewrite Nat.add_0_r. rewrite Ek. eauto.
        + apply Hcont; [|lia|by right].
          rewrite Hpv0. rewrite lookup_ge_None_2 by lia. done.
      - destruct (args !! i) as [v|] eqn:Ea.
        + apply Hcont; [by rewrite Hpv0|done|by left].
        + rewrite <- default_eq in Hpv0 by lia.
          destruct (decide _) as [Hd|Hd].
          * destruct (default_some i) as [v Hv]; [lia|done|]. rewrite Hv in *.
            apply Hcont; [done|done|by left].
          * right. split; [lia|]. exists 0, k. by rewrite Nat.add_0_r.
    Qed.
  End Pos.

  Lemma kw_loop_spec (sg : sig) ks kw :
    NoDup ks ->
    match kw_loop sg ks kw with
    | None => exists p, p ∈ ks /\ kwonly_value sg kw p = None
    | Some (b, kw') =>
        (forall p, p ∈ ks -> is_Some (kwonly_value sg kw p)) /\
        (forall p, b !! p = if decide (p ∈ ks) then kwonly_value sg kw p else None) /\
        (forall p, kw' !! p = if decide (p ∈ ks) then None else kw !! p)
    end.
  Proof.
    revert kw. induction ks as [|k ks IH]; intros kw Hnd; simpl.
    { split_and!; try done. intros p Hp. by apply elem_of_nil in Hp. }
    apply NoDup_cons in Hnd as [Hk Hnd].
    assert (forall v kw1, kwonly_value sg kw k = Some v ->
      (kw1 = kw /\ kw !! k = None \/ kw1 = delete k kw) ->
      match (match kw_loop sg ks kw1 with
             | Some (b, kw') => Some (<[k := v]> b, kw')
             | None => None end) with
      | None => exists p, p ∈ k :: ks /\ kwonly_value sg kw p = None
      | Some (b, kw') =>
        (forall p, p ∈ k :: ks -> is_Some (kwonly_value sg kw p)) /\
        (forall p, b !! p = if decide (p ∈ k :: ks) then kwonly_value sg kw p else None) /\
        (forall p, kw' !! p = if decide (p ∈ k :: ks) then None else kw !! p)
      end) as Hcont.
    { intros v kw1 Hv Hkw1.
      assert (forall p, p <> k -> kw1 !! p = kw !! p) as Hsame.
      { intros p Hp. destruct Hkw1 as [[-> _]| ->]; [done|]. by rewrite lookup_delete_ne. }
      assert (forall p, p <> k -> kwonly_value sg kw1 p = kwonly_value sg kw p) as Hkv.
      { intros p Hp. unfold kwonly_value. by rewrite Hsame. }
      specialize (IH kw1 Hnd). destruct (kw_loop sg ks kw1) as [[b kw']|].
      - destruct IH as (H1 & H2 & H3). split_and!.
        + intros p [->|Hp]%elem_of_cons; [by rewrite Hv|].
          rewrite <- Hkv; [by apply H1|]. intros ->. done.
        + intros p. destruct (decide (k = p)) as [<-|Hn].
          * rewrite lookup_insert, decide_True by by left. done.
          * rewrite lookup_insert_ne by done. rewrite H2.
            destruct (decide (p ∈ ks)).
            -- rewrite decide_True by by right. by apply Hkv.
            -- rewrite decide_False; [done|]. rewrite elem_of_cons. intros [->|]; done.
        + intros p. rewrite H3. destruct (decide (p ∈ ks)).
          * by rewrite decide_True by by right.
          * destruct (decide (p = k)) as [->|Hn].
            -- rewrite decide_True by by left.
               destruct Hkw1 as [[-> ?]| ->]; [done|]. by rewrite lookup_delete.
            -- rewrite decide_False; [by apply Hsame|]. rewrite elem_of_cons. tauto.
      - destruct IH as (p & Hp & Hpv). exists p. split; [by right|].
        rewrite <- Hkv; [done|]. intros ->. done. }
    destruct (kw !! k) as [v|] eqn:Ek.
    - apply Hcont; [|by right]. unfold kwonly_value. by rewrite Ek.
    - destruct (sg_kwdefaults sg !! k) as [v|] eqn:Ed.
      + apply Hcont; [|by left]. unfold kwonly_value. by rewrite Ek.
      + exists k. split; [by left|]. unfold kwonly_value. by rewrite Ek.
  Qed.

  Lemma bind_pos_spec ks (vs : list V) b p :
    NoDup ks -> length ks <= length vs ->
    (forall j, ks !! j = Some p -> bind_pos ks vs b !! p = BVal <$> vs !! j) /\
    (p ∉ ks -> bind_pos ks vs b !! p = b !! p).
  Proof.
    revert vs b. induction ks as [|k ks IH]; intros vs b Hnd Hl; simpl.
    { split; [done|]. by destruct vs. }
    destruct vs as [|v vs]; simpl in Hl; [lia|].
    apply NoDup_cons in Hnd as [Hk Hnd].
    destruct (IH vs (<[k := BVal v]> b) Hnd ltac:(lia)) as [IH1 IH2]. split.
    - intros [|j] Hj; simpl in *.
      + injection Hj as <-. rewrite IH2 by done. by rewrite lookup_insert.
      + by apply IH1.
    - intros Hp. rewrite elem_of_cons in Hp. rewrite IH2 by tauto.
      rewrite lookup_insert_ne; [done|]. intros ->. tauto.
  Qed.

  Lemma bind_kw_spec ks (kw : gmap name V) b :
    NoDup ks -> (forall k, k ∈ ks -> is_Some (kw !! k)) ->
    exists kw' b', bind_kw ks kw b = Some (kw', b') /\
      (forall p, kw' !! p = if decide (p ∈ ks) then None else kw !! p) /\
      (forall p, b' !! p = if decide (p ∈ ks) then BVal <$> kw !! p else b !! p).
  Proof.
    revert kw b. induction ks as [|k ks IH]; intros kw b Hnd Hall; simpl.
    { exists kw, b. done. }
    apply NoDup_cons in Hnd as [Hk Hnd].
    destruct (Hall k) as [v Hv]; [by left|]. rewrite Hv.
    destruct (IH (delete k kw) (<[k := BVal v]> b) Hnd) as (kw' & b' & -> & H1 & H2).
    { intros q Hq. rewrite lookup_delete_ne; [|intros ->; done]. apply Hall. by right. }
    exists kw', b'. split; [done|]. split.
    - intros p. rewrite H1. destruct (decide (p ∈ ks)).
      + by rewrite decide_True by by right.
      + destruct (decide (p = k)) as [->|Hn].
        * rewrite decide_True by by left. apply lookup_delete.
        * rewrite decide_False by (rewrite elem_of_cons; tauto). by rewrite lookup_delete_ne.
    - intros p. rewrite H2. destruct (decide (p ∈ ks)).
      + rewrite decide_True by by right. rewrite lookup_delete_ne; [done|]. intros ->. done.
      + destruct (decide (p = k)) as [->|Hn].
        * rewrite decide_True by by left. by rewrite lookup_insert, Hv.
        * rewrite decide_False by (rewrite elem_of_cons; tauto). by rewrite lookup_insert_ne.
  Qed.

  (** normalize_args without the short cut for functions that take nothing. *)
  Definition normalize_gen (sg : sig) (args : list V) (kw : gmap name V)
    : option (list V * gmap name V) :=
    if decide (length (sg_args sg) + length (sg_kwonly sg) < length args /\ sg_varargs sg = None) then None
    else
      match pos_loop sg args 0 (sg_args sg) kw with
      | None => None
      | Some (vs, argcount, kw1) =>
          if decide (argcount + length (sg_defaults sg) < length (sg_args sg)) then None
          else
            let bound_args := match sg_varargs sg with
                              | Some _ => vs ++ drop argcount args
                              | None => vs
                              end in
            match kw_loop sg (sg_kwonly sg) kw1 with
            | None => None
            | Some (bk, kw2) =>
                match sg_varkw sg with
                | Some _ => Some (bound_args, kw2 ∪ bk)
                | None =>
                    if decide (map_Forall (fun k _ => k ∈ sg_args sg \/ k = inner) kw2)
                    then Some (bound_args, kw2 ∪ bk) else None
                end
            end
      end.

  Lemma normalize_eq sg args kw :
    length (sg_defaults sg) <= length (sg_args sg) ->
    kw !! inner = None -> normalize_args sg args kw = normalize_gen sg args kw.
  Proof.
    intros Hd Hin.
    assert (sg_args sg = [] -> sg_kwonly sg = [] -> sg_varargs sg = None -> sg_varkw sg = None ->
      (if decide (args = [] /\ kw = ∅) then Some ([], ∅) else None) = normalize_gen sg args kw) as Hf.
    { intros H1 H2 H3 H4. unfold normalize_gen. rewrite H1, H2, H3, H4 in *. simpl in *.
      destruct (decide (args = [] /\ kw = ∅)) as [[-> ->]|Hn].
      - rewrite decide_False by (simpl; intros [? _]; lia).
        rewrite decide_True by apply map_Forall_empty. by rewrite (right_id_L ∅ (∪)).
      - destruct args as [|v args].
        + rewrite decide_False by (simpl; intros [? _]; lia). rewrite decide_False; [done|].
          intros Hall. apply Hn. split; [done|]. apply map_empty. intros k.
          destruct (kw !! k) as [v|] eqn:E; [|done].
          destruct (Hall k v E) as [H|H]; [by apply elem_of_nil in H|]. subst k. congruence.
        + rewrite decide_True; [done|]. simpl. split; [lia|done]. }
    unfold normalize_args.
    destruct (sg_args sg) eqn:E1, (sg_kwonly sg) eqn:E2, (sg_varargs sg) eqn:E3, (sg_varkw sg) eqn:E4;
      try (by apply Hf); unfold normalize_gen; by rewrite E1, E2, E3, ?E4.
  Qed.

  Lemma strip_ok kind (b : gmap name (bvalue V)) :
    (b !! kind = None \/ (exists m, b !! kind = Some (BDict m) /\ m !! inner = None) \/
     (exists v, b !! kind = Some (BVal v) /\ probe_of v = PAbsent) \/
     (exists vs, b !! kind = Some (BTuple vs) /\ forall v, v ∈ vs -> is_inner v = false)) ->
    strip_inner probe_of is_inner kind b = Some b.
  Proof.
    unfold strip_inner. intros [->|[(m & Hb & Hm)|[(v & Hb & Hv)|(vs & Hb & Hv)]]]; [done|rewrite Hb..].
    - f_equal. rewrite delete_notin by done. by apply insert_id.
    - by rewrite Hv.
    - destruct (existsb is_inner vs) eqn:E; [|done]. apply existsb_exists in E as (v & Hin & E).
      rewrite Hv in E; [done|]. by apply elem_of_list_In.
  Qed.

  Lemma bind_args_spec sg args kw :
    sig_ok sg -> ordinary_call probe_of is_inner sg args kw ->
    match bind_args sg args kw with
    | Some b => py_accepts sg args kw /\ py_binds sg args kw b
    | None => ~ py_accepts sg args kw
    end.
  Proof.
    intros [Hnd Hdef _] [Hpo Hct Hin Hnm].
    unfold ArgsModel.bind_args. rewrite normalize_eq by done. unfold normalize_gen.
    unfold params in Hnd.
    pose proof Hnd as (Hnda & Hdisj & Hnd1)%NoDup_app.
    pose proof Hnd1 as (Hndk & Hdisjk & Hnd2)%NoDup_app.
    assert (keywords sg = sg_args sg ++ sg_kwonly sg) as Hkeys
      by (unfold keywords; by rewrite Hpo, drop_0).
    destruct (decide _) as [[Hmany Hnv]|Hfew].
    { intros [Hc _ _ _ _]. specialize (Hc Hnv). lia. }
    pose proof (pos_loop_spec sg args Hpo Hdef 0 (sg_args sg) kw eq_refl Hnda) as Hpl.
    destruct (pos_loop sg args 0 (sg_args sg) kw) as [[[vs cnt] kw1]|].
    2: { destruct Hpl as (j & p & Hj & Hlt & [v Hv]). intros [_ _ Ho _ _].
         specialize (Ho j p Hj ltac:(lia) Hlt). congruence. }
    destruct Hpl as [(-> & Hlen & Hall & Hkw1)|(Hlt & j & p & Hj & Hp)].
    2: { rewrite decide_True by lia. intros [_ Ha _ _ _]. destruct (Ha j p Hj) as [v Hv].
         unfold pv in Hp. simpl in Hp. congruence. }
    rewrite decide_False by lia. cbv zeta.
    simpl in Hall.
    pose proof (kw_loop_spec sg (sg_kwonly sg) kw1 Hndk) as Hkl.
    assert (forall p, p ∈ sg_kwonly sg -> kw1 !! p = kw !! p) as Hkw1k.
    { intros p Hp. rewrite Hkw1. rewrite decide_False; [done|]. intros Hpa.
      apply (Hdisj p Hpa). apply elem_of_app. by left. }
    assert (forall p, p ∈ sg_kwonly sg -> kwonly_value sg kw1 p = kwonly_value sg kw p) as Hkv.
    { intros p Hp. unfold kwonly_value. by rewrite Hkw1k. }
    destruct (kw_loop sg (sg_kwonly sg) kw1) as [[bk kw2]|].
    2: { destruct Hkl as (p & Hp & Hpv). intros [_ _ _ Hk _]. destruct (Hk p Hp) as [v Hv].
         rewrite Hkv in Hpv by done. congruence. }
    destruct Hkl as (Hk1 & Hk2 & Hk3).
    assert (forall p, kw2 !! p = if decide (p ∈ keywords sg) then None else kw !! p) as Hkw2.
    { intros p. rewrite Hk3, Hkw1, Hkeys.
      destruct (decide (p ∈ sg_kwonly sg)), (decide (p ∈ sg_args sg)); simpl.
      all: try (rewrite decide_True by (apply elem_of_app; tauto); done).
      rewrite decide_False; [done|]. rewrite elem_of_app; tauto. }
    assert ((sg_varkw sg = None -> forall k, is_Some (kw !! k) -> k ∈ keywords sg) ->
      (sg_varargs sg = None -> length args <= length (sg_args sg)) ->
      py_accepts sg args kw) as Hacc.
    { intros Hkn Hc. split.
      - done.
      - intros i p Hi. by apply (Hall i p).
      - intros i p Hi _ Hlt. by apply (Hall i p).
      - intros p Hp. rewrite <- Hkv by done. by apply Hk1.
      - done. }
    assert (sg_varargs sg = None -> length args <= length (sg_args sg)) as Hcount.
    { intros Hv. destruct (Hct Hv) as [?|?]; [done|]. exfalso. apply Hfew. done. }
    assert (forall kwb, kwb = kw2 ∪ bk ->
      let bargs := match sg_varargs sg with Some _ => vs ++ drop (length (sg_args sg)) args | None => vs end in
      match
        (let b1 := bind_pos (sg_args sg) bargs ∅ in
        let b2 := match sg_varargs sg with
                  | Some a => <[a := BTuple (drop (length (sg_args sg)) bargs)]> b1
                  | None => b1
                  end in
        match bind_kw (sg_kwonly sg) kwb b2 with
        | None => None
        | Some (kw2, b3) =>
            let b4 := match sg_varkw sg with
                      | Some a => <[a := BDict kw2]> b3
                      | None => b3
                      end in
            match strip_inner probe_of is_inner "kw"%string b4 with
            | Some b5 => strip_inner probe_of is_inner "kwargs"%string b5
            | None => None
            end
        end) with
      | Some b => py_binds sg args kw b
      | None => False
      end) as Hbind.
    { intros kwb -> bargs. cbv zeta.
      set (b1 := bind_pos (sg_args sg) bargs ∅).
      set (b2 := match sg_varargs sg with
                  | Some a => <[a := BTuple (drop (length (sg_args sg)) bargs)]> b1
                  | None => b1 end).
      assert (exists tl, bargs = vs ++ tl /\ (sg_varargs sg <> None -> tl = drop (length (sg_args sg)) args)) as (tl & Hb & Htl).
      { unfold bargs. destruct (sg_varargs sg); [eauto|]. exists []. by rewrite app_nil_r. }
      assert (length (sg_args sg) <= length bargs) as Hlb by (rewrite Hb, app_length; lia).
      assert (forall p, kw2 !! p = None \/ bk !! p = None) as Hdis.
      { intros p. rewrite Hkw2, Hk2. rewrite Hkeys.
        destruct (decide (p ∈ sg_kwonly sg)); [|by right].
        left. rewrite decide_True; [done|]. apply elem_of_app. by right. }
      assert (forall p, p ∈ sg_kwonly sg -> (kw2 ∪ bk) !! p = kwonly_value sg kw p) as Hun.
      { intros p Hp. rewrite lookup_union_r.
        - rewrite Hk2, decide_True by done. by apply Hkv.
        - rewrite Hkw2, decide_True; [done|]. rewrite Hkeys. apply elem_of_app. by right. }
      destruct (bind_kw_spec (sg_kwonly sg) (kw2 ∪ bk) b2 Hndk) as (kw3 & b3 & -> & H3 & H4).
      { intros k Hk. rewrite Hun by done. rewrite <- Hkv by done. by apply Hk1. }
      assert (kw3 = kw2) as ->.
      { apply map_eq. intros p. rewrite H3. destruct (decide (p ∈ sg_kwonly sg)) as [Hp|Hp].
        - rewrite Hkw2, decide_True; [done|]. rewrite Hkeys. apply elem_of_app. by right.
        - rewrite lookup_union_l; [done|]. rewrite Hk2. by rewrite decide_False. }
      set (b4 := match sg_varkw sg with Some a => <[a := BDict kw2]> b3 | None => b3 end).
      (* lookups in b4 *)
      assert (forall p, p ∉ opt_list (sg_varkw sg) -> b4 !! p = b3 !! p) as Hb4.
      { intros p Hp. unfold b4. destruct (sg_varkw sg); [|done]. simpl in Hp.
        rewrite lookup_insert_ne; [done|]. intros ->. apply Hp. by left. }
      assert (forall p, p ∉ opt_list (sg_varargs sg) -> b2 !! p = b1 !! p) as Hb2.
      { intros p Hp. unfold b2. destruct (sg_varargs sg); [|done]. simpl in Hp.
        rewrite lookup_insert_ne; [done|]. intros ->. apply Hp. by left. }
      assert (py_binds sg args kw b4) as Hpb.
      { split.
        - intros i p Hi. pose proof (elem_of_list_lookup_2 _ _ _ Hi) as Hpa.
          pose proof (Hdisj p Hpa) as Hq. rewrite !elem_of_app in Hq.
          rewrite Hb4 by tauto. rewrite H4. rewrite decide_False by tauto.
          rewrite Hb2 by tauto.
          destruct (bind_pos_spec (sg_args sg) bargs ∅ p Hnda Hlb) as [Hbp _].
          unfold b1. rewrite (Hbp i Hi), Hb. rewrite lookup_app_l.
          + f_equal. by apply (Hall i p).
          + rewrite Hlen. by eapply lookup_lt_Some.
        - intros p Hp. pose proof (Hdisjk p Hp) as Hq. rewrite elem_of_app in Hq.
          rewrite Hb4 by tauto. rewrite H4, decide_True by done. f_equal. by apply Hun.
        - intros a Ha. rewrite Ha in Hnd, Hdisj, Hdisjk, Hnd2. simpl in *.
          rewrite Hb4.
          2: { apply NoDup_cons in Hnd2. tauto. }
          rewrite H4. rewrite decide_False.
          2: { intros Hk. apply (Hdisjk a Hk). by left. }
          unfold b2. rewrite Ha. rewrite lookup_insert. do 2 f_equal.
          rewrite Hb. rewrite Htl by congruence. rewrite <- Hlen at 1. by rewrite drop_app.
        - intros a Ha. unfold b4. rewrite Ha, lookup_insert. do 2 f_equal.
          apply map_eq. intros p. rewrite Hkw2.
          destruct (decide (p ∈ keywords sg)) as [Hp|Hp].
          + symmetry. apply map_filter_lookup_None. right. simpl. intros ? ? ?. tauto.
          + destruct (kw !! p) as [v|] eqn:E.
            * symmetry. apply map_filter_lookup_Some. done.
            * symmetry. apply map_filter_lookup_None. by left.
        - intros p Hp. unfold params in Hp. rewrite !elem_of_app in Hp.
          rewrite Hb4 by tauto. rewrite H4, decide_False by tauto. rewrite Hb2 by tauto.
          destruct (bind_pos_spec (sg_args sg) bargs ∅ p Hnda Hlb) as [_ Hbp].
          unfold b1. rewrite Hbp by tauto. apply lookup_empty. }
      assert (forall p : name, p = "kw"%string \/ p = "kwargs"%string ->
        strip_inner probe_of is_inner p b4 = Some b4) as Hst.
      { intros p Hp. destruct (Hnm p Hp) as (Hn1 & Hn2 & Hn3). apply strip_ok.
        assert (sg_varkw sg = Some p -> b4 !! p = Some (BDict kw2)) as Hbv by (intros E; unfold b4; rewrite E; apply lookup_insert).
        clear Hb4. clearbody b4.
        destruct (decide (sg_varkw sg = Some p)) as [Hv|Hv].
        { right. left. exists kw2. split; [by apply Hbv|]. rewrite Hkw2. by destruct (decide _). }
        destruct (decide (p ∈ params sg)) as [Hpp|Hpp]; [|left; by apply (pb_dom _ _ _ _ Hpb p Hpp)].
        unfold params in Hpp. rewrite !elem_of_app in Hpp. destruct Hpp as [Hx|[Hx|[Hx|Hx]]].
        - apply elem_of_list_lookup_1 in Hx as [i Hi]. pose proof (pb_args _ _ _ _ Hpb i p Hi) as Ex.
          destruct (pos_value sg args kw i p) as [v|] eqn:Ev; [|by left]. do 2 right. left. exists v. split; [exact Ex|]. by apply (Hn1 i).
        - pose proof (pb_kwonly _ _ _ _ Hpb p Hx) as Ex.
          destruct (kwonly_value sg kw p) as [v|] eqn:Ev; [|by left]. do 2 right. left. exists v. split; [exact Ex|]. by apply Hn2.
        - destruct (sg_varargs sg) as [a|] eqn:E1; simpl in Hx; [|by apply elem_of_nil in Hx].
          apply elem_of_list_singleton in Hx. subst a. do 3 right.
          eexists. split; [exact (pb_varargs _ _ _ _ Hpb p E1)|]. intros v Hin'. by apply Hn3.
        - destruct (sg_varkw sg) as [a|] eqn:E1; simpl in Hx; [|by apply elem_of_nil in Hx].
          apply elem_of_list_singleton in Hx. subst. by destruct Hv. }
      rewrite (Hst _ (or_introl eq_refl)), (Hst _ (or_intror eq_refl)). done. }
    specialize (Hbind _ eq_refl).
    destruct (sg_varkw sg) as [w|] eqn:Ew.
    - cbv zeta in Hbind.
      match goal with |- match ?x with _ => _ end => destruct x; [|done] end.
      split; [|done]. by apply Hacc.
    - destruct (decide (map_Forall _ _)) as [Hf|Hf].
      + cbv zeta in Hbind.
        match goal with |- match ?x with _ => _ end => destruct x; [|done] end.
        split; [|done]. apply Hacc; [|done]. intros _ k [v Hv].
        destruct (decide (k ∈ keywords sg)) as [|Hk]; [done|].
        destruct (Hf k v) as [Hka|Hki].
        * rewrite Hkw2. by rewrite decide_False.
        * exfalso. apply Hk. rewrite Hkeys. apply elem_of_app. by left.
        * subst k. congruence.
      + intros [_ _ _ _ Hkn]. apply Hf. intros k v Hk. rewrite Hkw2 in Hk.
        destruct (decide _) as [|Hn]; [done|]. exfalso. apply Hn. apply Hkn; eauto.
  Qed.

  Lemma py_binds_unique (sg : sig) args kw b b' :
    py_binds sg args kw b -> py_binds sg args kw b' -> b = b'.
  Proof.
    intros [A1 A2 A3 A4 A5] [B1 B2 B3 B4 B5]. apply map_eq. intros p.
    destruct (decide (p ∈ params sg)) as [Hp|Hp]; [|by rewrite A5, B5].
    unfold params in Hp. rewrite !elem_of_app in Hp. destruct Hp as [Hp|[Hp|[Hp|Hp]]].
    - apply elem_of_list_lookup_1 in Hp as [i Hi]. by rewrite (A1 i p Hi), (B1 i p Hi).
    - by rewrite A2, B2.
    - destruct (sg_varargs sg) as [a|] eqn:E; simpl in Hp; [|by apply elem_of_nil in Hp].
      apply elem_of_list_singleton in Hp as ->. by rewrite (A3 a), (B3 a).
    - destruct (sg_varkw sg) as [a|] eqn:E; simpl in Hp; [|by apply elem_of_nil in Hp].
      apply elem_of_list_singleton in Hp as ->. by rewrite (A4 a), (B4 a).
  Qed.

  Lemma bind_args_python (sg : sig) args kw b :
    sig_ok sg -> ordinary_call probe_of is_inner sg args kw ->
    bind_args sg args kw = Some b <-> py_accepts sg args kw /\ py_binds sg args kw b.
  Proof.
    intros Hs Hp. pose proof (bind_args_spec sg args kw Hs Hp) as H.
    destruct (bind_args sg args kw) as [b'|].
    - destruct H as [H1 H2]. split.
      + intros [= <-]. done.
      + intros [_ H3]. f_equal. by eapply py_binds_unique.
    - split; [done|]. tauto.
  Qed.
End Facts.
