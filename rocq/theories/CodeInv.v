(** The invariant of tidy histories: what the stored calls and the running calls rest on. *)
From stdpp Require Import base list strings gmap sorting.
From Coq Require Import ZArith Lia.
From Verif Require Import PyMonad DbModel DbSpec DbClaims CacheBackend CacheLift CacheFacts CacheProv DbHistory
  CacheDeps DbDeps CacheNest CodeSpec CodeFacts.

Section Inv.
  Context {V R : Type} (veq : V -> V -> bool) (md5 : content -> digest).
  Notation BK := (cache_backend (V := V) (R := R) veq md5).
  Notation cdb := (cdb V R).
  Notation frame := (frame V R name (name * nat) name).
  Notation sys := (sys V R (pdb V R) name (name * nat) name).
  Notation op := (op V R).
  Notation occ := (occ V R).
  Notation step := (step md5 BK).
  Notation runs := (runs md5 BK).
  Notation mem s := (p_mem (s_db s)).
  Notation disk s := (p_disk (s_db s)).
  Notation table := (gmap name (digest * list name)).
  Notation depth s t := (DbSpec.depth s t).
  Context (t : nat) (s0 : sys) (rank : name -> nat).
  Notation completed := (completed md5 BK t s0).
  Notation oc_code := (oc_code md5 BK s0).
  Notation makes_call := (makes_call md5 BK t s0).
  Notation answered_by := (answered_by veq md5 BK t s0).
  Notation seen := (seen md5 BK t s0).
  Notation calls_of oc g := (calls_during md5 BK s0 t (oc_req oc) (oc_before oc) (oc_during oc) g).
  Notation env_fun os := (e_fun (s_env (runs s0 os))).
  Notation tidy := (tidy md5 BK t s0 rank).

  (** *** Histories grow *)
  Lemma completed_app os os' oc : completed os oc -> completed (os ++ os') oc.
  Proof.
    intros (rest & -> & H). exists (rest ++ os'). split; [|done].
    rewrite <- app_assoc. simpl. by rewrite <- app_assoc.
  Qed.

  Lemma seen_app os o f : seen os f -> lasting o -> seen (os ++ [o]) f.
  Proof.
    intros [(a & rq & c & r & xs & xd & -> & Hf & Hc & Hh)|(oc & c & Hf & Hc & -> & Hr)] Ho.
    - left. exists a, rq, (c ++ [o]), r, xs, xd. rewrite <- app_assoc. split; [done|]. split; [done|].
      split; [|done]. apply Forall_app. by repeat constructor.
    - right. exists oc, (c ++ [o]). split; [done|]. split; [apply Forall_app; by repeat constructor|]. split; [|done].
      rewrite <- app_assoc. simpl. by rewrite <- app_assoc.
  Qed.

  Lemma seen_snoc os o f : seen (os ++ [o]) f ->
    lasting o /\
    (seen os f \/
     (exists rq r xs xd, o = OBegin t rq /\ rq_fun rq = f /\ snd (step (runs s0 os) o) = RHit r xs xd) \/
     (exists oc, o = OEnd t (oc_result oc) /\ oc_fun oc = f /\ os = oc_before oc ++ OBegin t (oc_req oc) :: oc_during oc /\
        runs_during md5 BK s0 t (oc_req oc) (oc_before oc) (oc_during oc))).
  Proof.
    intros [(a & rq & c & r & xs & xd & Hos & Hf & Hc & Hh)|(oc & c & Hf & Hc & Hos & Hr)].
    - destruct c as [|x c _] using rev_ind.
      + apply app_inj_tail in Hos as [-> ->]. split; [done|]. right. left. eauto 10.
      + rewrite app_comm_cons, app_assoc in Hos. apply app_inj_tail in Hos as [-> ->].
        apply Forall_app in Hc as [Hc Hx]. inversion Hx; subst. split; [done|]. left. left. eauto 10.
    - destruct c as [|x c _] using rev_ind.
      + rewrite app_comm_cons, app_assoc in Hos. apply app_inj_tail in Hos as [-> ->]. split; [done|]. right. right. eauto 10.
      + replace (oc_before oc ++ OBegin t (oc_req oc) :: oc_during oc ++ OEnd t (oc_result oc) :: c ++ [x])
          with ((oc_before oc ++ OBegin t (oc_req oc) :: oc_during oc ++ OEnd t (oc_result oc) :: c) ++ [x]) in Hos
          by (rewrite <- app_assoc; simpl; by rewrite <- app_assoc).
        apply app_inj_tail in Hos as [-> ->].
        apply Forall_app in Hc as [Hc Hx]. inversion Hx; subst. split; [done|]. left. right. exists oc, c. split; [done|].
        done.
  Qed.

  Lemma makes_call_snoc a rq b o b1 rq' b2 :
    makes_call a rq (b ++ [o]) b1 rq' b2 ->
    (exists b2', b2 = b2' ++ [o] /\ makes_call a rq b b1 rq' b2') \/
    (b2 = [] /\ b1 = b /\ o = OBegin t rq' /\ depth (runs s0 (a ++ OBegin t rq :: b)) t = S (depth (runs s0 a) t)).
  Proof.
    intros [Hb Hd]. destruct b2 as [|x b2 _] using rev_ind.
    - right. apply app_inj_tail in Hb as [-> ->]. done.
    - left. rewrite app_comm_cons, app_assoc in Hb. apply app_inj_tail in Hb as [-> ->]. exists b2. done.
  Qed.

  Lemma makes_call_app a rq b o b1 rq' b2 :
    makes_call a rq b b1 rq' b2 -> makes_call a rq (b ++ [o]) b1 rq' (b2 ++ [o]).
  Proof. intros [-> Hd]. split; [|done]. by rewrite <- app_assoc. Qed.

  Lemma makes_calls a rq b g :
    calls_during md5 BK s0 t rq a b g <-> exists b1 rq' b2, makes_call a rq b b1 rq' b2 /\ rq_fun rq' = g.
  Proof.
    split.
    - intros (b1 & rq' & b2 & H1 & H2 & H3). exists b1, rq', b2. done.
    - intros (b1 & rq' & b2 & [H1 H3] & H2). exists b1, rq', b2. done.
  Qed.

  Lemma answered_app a rq b1 rq' b2 o oc' :
    answered_by a rq b1 rq' b2 oc' -> answered_by a rq b1 rq' (b2 ++ [o]) oc'.
  Proof.
    intros [(H1 & H2 & (b4 & ->) & H3)|H]; [left|right; done].
    split; [done|]. split; [done|]. split; [|done]. exists (b4 ++ [o]). by rewrite <- app_assoc.
  Qed.

  Lemma answered_fun a rq b1 rq' b2 oc' : answered_by a rq b1 rq' b2 oc' -> oc_fun oc' = rq_fun rq'.
  Proof. unfold oc_fun. intros [(_ & -> & _)|(? & ? & _ & _ & H & _)]; done. Qed.

  Lemma still_snoc a rq b o :
    still_running md5 BK s0 t rq a b ->
    depth (runs s0 a) t < depth (runs s0 ((a ++ OBegin t rq :: b) ++ [o])) t ->
    still_running md5 BK s0 t rq a (b ++ [o]).
  Proof.
    intros [H1 H2] Hd. split; [done|]. intros b1 b2 Hb. apply snoc_split in Hb as [[-> ->]|(b2' & -> & ->)].
    - rewrite <- app_assoc in Hd. done.
    - by eapply H2.
  Qed.

  Lemma top_of a rq b :
    runs_during md5 BK s0 t rq a b ->
    exists fr frs, thread (runs s0 (a ++ OBegin t rq :: b)) t = fr :: frs /\ fr_req fr = rq.
  Proof.
    intros [Hs Hd]. pose proof Hs as [Hr _].
    pose proof (step_frames md5 BK (runs s0 a) (OBegin t rq) t) as Hf. unfold frames_step in Hf.
    rewrite decide_True in Hf by done. rewrite <- runs_snoc in Hf.
    destruct Hf as [(_ & d & p & _ & Hf)|[Hf _]]; [|done].
    destruct (frame_stays md5 BK s0 a t rq b p d Hs Hf) as (Y & fr & Z & Ht & HZ & Hq & _).
    unfold DbSpec.depth in Hd, HZ. rewrite Ht in *. rewrite app_length in Hd. simpl in Hd.
    destruct Y as [|y Y]; simpl in *; [|lia]. eauto.
  Qed.

  (** *** The runs a result rests on *)
  Definition row_fits (T : table) (oc : occ) : Prop :=
    forall d deps, T !! oc_fun oc = Some (d, deps) -> oc_code oc = Some d /\ forall g, calls_of oc g -> g ∈ deps.

  (** The runs that [oc] rests on have completed, are of functions outside of [av], and agree
      with the rows of their functions. *)
  Inductive rests (os : list op) (T : table) (av : name -> Prop) : occ -> Prop :=
    | Rests oc : completed os oc -> ~ av (oc_fun oc) -> row_fits T oc ->
        (forall b1 rq' b2, makes_call (oc_before oc) (oc_req oc) (oc_during oc) b1 rq' b2 ->
           exists oc', answered_by (oc_before oc) (oc_req oc) b1 rq' b2 oc' /\ rests os T av oc') ->
        rests os T av oc.

  Lemma rests_rect (os : list op) (T : table) (av : name -> Prop) (P : occ -> Prop) :
    (forall oc, completed os oc -> ~ av (oc_fun oc) -> row_fits T oc ->
        (forall b1 rq' b2, makes_call (oc_before oc) (oc_req oc) (oc_during oc) b1 rq' b2 ->
           exists oc', answered_by (oc_before oc) (oc_req oc) b1 rq' b2 oc' /\ rests os T av oc' /\ P oc') -> P oc) ->
    forall oc, rests os T av oc -> P oc.
  Proof.
    intros Hstep.
    refine (fix go oc (H : rests os T av oc) {struct H} : P oc :=
      match H with
      | Rests _ _ _ oc h1 h2 h3 h4 => Hstep oc h1 h2 h3 (fun b1 rq' b2 hm =>
          match h4 b1 rq' b2 hm with
          | ex_intro _ oc' (conj ha hj) => ex_intro _ oc' (conj ha (conj hj (go oc' hj)))
          end)
      end).
  Qed.

  Lemma rests_mono os os' T T' (av av' : name -> Prop) oc :
    (forall oc, completed os oc -> completed os' oc) ->
    (forall f, ~ av f -> T' !! f = T !! f \/ T' !! f = None) ->
    (forall f, av' f -> av f) ->
    rests os T av oc -> rests os' T' av' oc.
  Proof.
    intros Ho HT Hav. revert oc. apply rests_rect. intros oc H1 H2 H3 H4. constructor.
    - by apply Ho.
    - intros H. by apply H2, Hav.
    - intros d deps Hr. destruct (HT _ H2) as [E|E]; rewrite E in Hr; [|done]. by apply H3.
    - intros b1 rq' b2 Hm. destruct (H4 _ _ _ Hm) as (oc' & ? & _ & ?). eauto.
  Qed.

  Lemma rests_avoid os T (av av' : name -> Prop) g oc :
    (forall f, av' f -> av f \/ f = g) ->
    (forall oc1, completed os oc1 -> ~ av (oc_fun oc1) -> row_fits T oc1 -> ~ calls_of oc1 g) ->
    rests os T av oc -> oc_fun oc <> g -> rests os T av' oc.
  Proof.
    intros Hav Hno. revert oc. apply (rests_rect os T av (fun oc => oc_fun oc <> g -> rests os T av' oc)).
    intros oc H1 H2 H3 H4 Hg. constructor; [done| |done|].
    - intros [H|H]%Hav; done.
    - intros b1 rq' b2 Hm. destruct (H4 _ _ _ Hm) as (oc' & Ha & _ & Hc). exists oc'. split; [done|]. apply Hc.
      rewrite (answered_fun _ _ _ _ _ _ Ha). intros Hq. apply (Hno oc); [done..|]. apply makes_calls. eauto.
  Qed.

  Lemma rests_up_to_date os E T av oc :
    (forall f d deps, T !! f = Some (d, deps) -> forall g, g ∈ deps -> rank g < rank f) ->
    rests os T av oc -> clean (e_fun E) T (oc_fun oc) -> up_to_date veq md5 BK t s0 E oc.
  Proof.
    intros Hrank. revert oc.
    apply (rests_rect os T av (fun oc => clean (e_fun E) T (oc_fun oc) -> up_to_date veq md5 BK t s0 E oc)).
    intros oc H1 H2 H3 H4 (d & deps & He & Hr & Hd)%clean_inv. destruct (H3 _ _ Hr) as [Hc Hds]. constructor.
    - by rewrite Hc.
    - rewrite Hc. eauto.
    - intros b1 rq' b2 Hm. destruct (H4 _ _ _ Hm) as (oc' & Ha & _ & Hu). exists oc'. split; [done|].
      apply Hu. rewrite (answered_fun _ _ _ _ _ _ Ha).
      assert (rq_fun rq' ∈ deps) as Hin by (apply Hds, makes_calls; eauto).
      apply Hd; [done|]. pose proof (Hrank _ _ _ Hr _ Hin). intros Heq. rewrite Heq in *. lia.
  Qed.

  (** *** Rows stay current *)
  Lemma clean_below E (T : table) g row f :
    (forall f d deps, T !! f = Some (d, deps) -> forall g, g ∈ deps -> rank g < rank f) ->
    clean E T f -> rank f < rank g -> clean E (<[g := row]> T) f.
  Proof.
    intros Hrank Hc. induction Hc as [f d deps H1 H2 H3 IH]. intros Hf.
    apply (Clean _ _ _ d deps); [done| |].
    - rewrite lookup_insert_ne; [done|]. intros ->. lia.
    - intros h Hh Hne. apply IH; [done..|]. pose proof (Hrank _ _ _ H2 _ Hh). lia.
  Qed.

  Lemma clean_insert E (T : table) g d deps f :
    (forall f d deps, T !! f = Some (d, deps) -> forall g, g ∈ deps -> rank g < rank f) ->
    E !! g = Some d -> (forall h, h ∈ deps -> rank h < rank g /\ clean E T h) ->
    clean E T f \/ f = g -> clean E (<[g := (d, deps)]> T) f.
  Proof.
    intros Hrank Hg Hdeps.
    assert (clean E (<[g := (d, deps)]> T) g) as Hcg.
    { apply (Clean _ _ _ d deps); [done|by rewrite lookup_insert|].
      intros h Hh _. destruct (Hdeps _ Hh). by apply clean_below. }
    intros [Hf| ->]; [|done].
    induction Hf as [f d' deps' H1 H2 H3 IH]. destruct (decide (f = g)) as [->|Hne]; [done|].
    apply (Clean _ _ _ d' deps'); [done|by rewrite lookup_insert_ne|done].
  Qed.

  (** *** Running calls *)
  Notation act := (request V R * digest * prepared R name (name * nat) name)%type.
  Definition act_of (fr : frame) : act := (fr_req fr, fr_digest fr, fr_prep fr).
  Definition a_req (x : act) : request V R := x.1.1.
  Definition a_fun (x : act) : name := rq_fun (a_req x).
  Definition a_dirty (x : act) : bool := pr_fun_dirty x.2.
  Definition acts (s : sys) : list act := act_of <$> thread s t.

  Definition doomed (l : list act) (f : name) : Prop := exists x, x ∈ l /\ a_fun x = f /\ a_dirty x = true.

  (** The running calls [xs] with the functions they called, [cs]; those that have an answer got it
      from a [good] run.  The innermost one waits for the call that began after [above]. *)
  Fixpoint stack (os : list op) (good : occ -> Prop) (above : option (list op)) (xs : list act) (cs : list (list name)) : Prop :=
    match xs, cs with
    | [], [] => True
    | x :: xs, L :: cs => exists a b, os = a ++ OBegin t (a_req x) :: b /\
        still_running md5 BK s0 t (a_req x) a b /\ depth (runs s0 a) t = length xs /\
        env_fun a !! a_fun x = Some x.1.2 /\
        (forall g, g ∈ L <-> calls_during md5 BK s0 t (a_req x) a b g) /\
        (forall g, g ∈ L -> rank g < rank (a_fun x)) /\
        (forall b1 rq' b2, makes_call a (a_req x) b b1 rq' b2 ->
           above = Some (a ++ OBegin t (a_req x) :: b1) \/
           exists oc', answered_by a (a_req x) b1 rq' b2 oc' /\ good oc') /\
        stack os good (Some a) xs cs
    | _, _ => False
    end.

  Lemma stack_ext os o (good good' : occ -> Prop) above xs cs :
    (forall oc, good oc -> good' oc) ->
    (forall rq, o = OBegin t rq -> xs = [] \/ length xs < depth (runs s0 os) t) ->
    length xs <= depth (runs s0 (os ++ [o])) t ->
    stack os good above xs cs -> stack (os ++ [o]) good' above xs cs.
  Proof.
    intros Hgood. revert above cs. induction xs as [|x xs IH]; intros above cs Ho Hlen; destruct cs as [|L cs]; try done.
    intros (a & b & Hos & Hs & Hd & He & HL & Hrk & Hc & Hst). exists a, (b ++ [o]).
    assert (forall b1 rq' b2, makes_call a (a_req x) (b ++ [o]) b1 rq' b2 ->
      exists b2', b2 = b2' ++ [o] /\ makes_call a (a_req x) b b1 rq' b2') as Hm.
    { intros b1 rq' b2 [?|(-> & -> & Hb & Hdd)]%makes_call_snoc; [done|].
      destruct (Ho _ Hb) as [?|Ho']; [done|]. rewrite Hos in Ho'. simpl in Ho'. lia. }
    split; [by rewrite Hos, <- app_assoc|].
    split; [apply still_snoc; [done|]; rewrite <- Hos, Hd; simpl in Hlen; lia|]. split; [done|]. split; [done|].
    split.
    { intros g. rewrite HL, !makes_calls. split.
      - intros (b1 & rq' & b2 & H1 & H2). exists b1, rq', (b2 ++ [o]). split; [by apply makes_call_app|done].
      - intros (b1 & rq' & b2 & (b2' & -> & H1)%Hm & H2). eauto. }
    split; [done|]. split.
    { intros b1 rq' b2 (b2' & -> & H1)%Hm. destruct (Hc _ _ _ H1) as [?|(oc' & ? & ?)]; [by left|right].
      exists oc'. split; [by apply answered_app|by apply Hgood]. }
    apply IH; [|simpl in Hlen; lia|done]. intros rq Hb. right. destruct (Ho _ Hb) as [?|Ho']; [done|]. simpl in Ho'. lia.
  Qed.

  Lemma stack_length os good above xs cs : stack os good above xs cs -> length cs = length xs.
  Proof.
    revert above cs. induction xs as [|x xs IH]; intros above [|L cs]; simpl; try done.
    intros (a & b & _ & _ & _ & _ & _ & _ & _ & H). f_equal. by eapply IH.
  Qed.

  (** *** The invariant *)
  Definition rows_ok (os : list op) (T : table) : Prop :=
    forall f d deps, T !! f = Some (d, deps) -> (forall g, g ∈ deps -> rank g < rank f) /\
      exists oc, completed os oc /\ oc_fun oc = f /\ oc_code oc = Some d /\ forall g, g ∈ deps <-> calls_of oc g.

  Definition stored (os : list op) (T : table) (av : name -> Prop) (f : name) (b : V) (r : R) : Prop :=
    exists oc, completed os oc /\ oc_fun oc = f /\ rq_bound (oc_req oc) = b /\ oc_result oc = r /\ rests os T av oc.

  Definition data_ok (os : list op) (av : name -> Prop) (c : cdb) : Prop :=
    rows_ok os (c_functions c) /\
    forall f ds, c_calls c !! f = Some ds -> is_Some (c_functions c !! f) /\
      forall b r, (b, r) ∈ ds -> av f \/ stored os (c_functions c) av f b r.

  Definition good (os : list op) (s : sys) (oc : occ) : Prop :=
    seen os (oc_fun oc) /\ rests os (c_functions (mem s)) (doomed (acts s)) oc.

  Record inv (os : list op) : Prop := Inv {
    i_seen : forall f, seen os f -> clean (env_fun os) (c_functions (mem (runs s0 os))) f;
    i_clean : forall x, x ∈ acts (runs s0 os) -> a_dirty x = false ->
      clean (env_fun os) (c_functions (mem (runs s0 os))) (a_fun x);
    i_none : forall x, x ∈ acts (runs s0 os) -> a_dirty x = true -> pr_fun_id x.2 = None ->
      c_functions (mem (runs s0 os)) !! a_fun x = None;
    i_fid : forall x y, x ∈ acts (runs s0 os) -> pr_fun_id x.2 = Some y -> y = a_fun x;
    i_digest : forall x, x ∈ acts (runs s0 os) -> env_fun os !! a_fun x = Some x.1.2;
    i_sorted : StronglySorted (fun x y => rank (a_fun x) < rank (a_fun y)) (acts (runs s0 os));
    i_mem : data_ok os (doomed (acts (runs s0 os))) (mem (runs s0 os));
    i_disk : data_ok os (fun _ => False) (disk (runs s0 os));
    i_stack : stack os (good os (runs s0 os)) None (acts (runs s0 os)) (s_callstack (runs s0 os))
  }.

  Lemma rows_rank os T : rows_ok os T -> forall f d deps, T !! f = Some (d, deps) -> forall g, g ∈ deps -> rank g < rank f.
  Proof. intros H f d deps Hr. by destruct (H _ _ _ Hr). Qed.

  Lemma rows_app os o T : rows_ok os T -> rows_ok (os ++ [o]) T.
  Proof.
    intros H f d deps Hr. destruct (H _ _ _ Hr) as (Hrk & oc & Hc & Hrest). split; [done|].
    exists oc. split; [by apply completed_app|done].
  Qed.

  Lemma data_app os o (av av' : name -> Prop) (c c' : cdb) :
    c_functions c' = c_functions c -> c_calls c' = c_calls c -> (forall f, av f <-> av' f) ->
    data_ok os av c -> data_ok (os ++ [o]) av' c'.
  Proof.
    intros Hf Hc Hav [H1 H2]. unfold data_ok. rewrite Hf, Hc. split; [by apply rows_app|].
    intros f ds Hds. destruct (H2 _ _ Hds) as [? Hs]. split; [done|].
    intros b r Hbr. destruct (Hs _ _ Hbr) as [?|(oc & Hoc & ? & ? & ? & Hr)]; [left; by apply Hav|right].
    exists oc. split; [by apply completed_app|]. split; [done|]. split; [done|]. split; [done|].
    eapply rests_mono; [| | |exact Hr]; [by apply completed_app|by left|apply Hav].
  Qed.

  Lemma acts_depth s : length (acts s) = depth s t.
  Proof. unfold acts. by rewrite fmap_length. Qed.

  Lemma good_app os o s s' oc :
    lasting o -> c_functions (mem s') = c_functions (mem s) -> acts s' = acts s ->
    good os s oc -> good (os ++ [o]) s' oc.
  Proof.
    intros Ho Hf Ha [H1 H2]. split; [by apply seen_app|]. rewrite Hf, Ha.
    eapply rests_mono; [| | |exact H2]; [by apply completed_app|by left|done].
  Qed.

  (** Steps that change neither the functions and calls stored nor those running. *)
  Lemma inv_quiet os o :
    lasting o -> (forall rq, o = OBegin t rq -> thread (runs s0 os) t = [] /\ forall r xs xd, snd (step (runs s0 os) o) <> RHit r xs xd) ->
    (forall r, o = OEnd t r -> thread (runs s0 os) t = []) ->
    let s := runs s0 os in let s' := fst (step s o) in
    e_fun (s_env s') = e_fun (s_env s) -> same (mem s) (mem s') -> same (disk s) (disk s') ->
    acts s' = acts s -> s_callstack s' = s_callstack s -> inv os -> inv (os ++ [o]).
  Proof.
    intros Ho Hb He s s' HE [Hf Hc _ _] [Hdf Hdc _ _] Ha Hcs I.
    assert (runs s0 (os ++ [o]) = s') as Hs' by apply runs_snoc.
    constructor; rewrite Hs', ?HE, ?Hf, ?Ha, ?Hcs.
    - intros f [_ [H|[(rq & r & xs & xd & Hoo & _ & H)|(oc & Hoo & _ & Hos & H)]]]%seen_snoc; [by apply (i_seen _ I)| |].
      + destruct (Hb _ Hoo) as [_ Hn]. by apply Hn in H.
      + specialize (He _ Hoo). apply top_of in H as (fr & frs & H & _). rewrite <- Hos in H. congruence.
    - apply (i_clean _ I).
    - apply (i_none _ I).
    - apply (i_fid _ I).
    - apply (i_digest _ I).
    - apply (i_sorted _ I).
    - by apply (data_app os o (doomed (acts s)) _ (mem s)), (i_mem _ I).
    - by apply (data_app os o (fun _ => False) _ (disk s)), (i_disk _ I).
    - eapply stack_ext; [| | |apply (i_stack _ I)].
      + intros oc. by apply good_app.
      + intros rq Hrq. destruct (Hb _ Hrq) as [Ht _].
        left. unfold acts, s. by rewrite Ht.
      + rewrite Hs', acts_depth, <- acts_depth, <- Ha, acts_depth. done.
  Qed.

  (** Nothing runs. *)
  Lemma inv_idle os :
    let s := runs s0 os in
    acts s = [] -> s_callstack s = [] -> (forall f, seen os f -> clean (env_fun os) (c_functions (mem s)) f) ->
    data_ok os (fun _ => False) (mem s) -> data_ok os (fun _ => False) (disk s) -> inv os.
  Proof.
    intros s Ha Hcs Hseen Hm Hd. fold s in Hseen.
    assert (forall f, doomed [] f <-> False) as Hno.
    { intros f. split; [|done]. intros (x & ?%elem_of_nil & _). done. }
    constructor; fold s; rewrite ?Ha, ?Hcs.
    - exact Hseen.
    - by intros x ?%elem_of_nil.
    - by intros x ?%elem_of_nil.
    - by intros x y ?%elem_of_nil.
    - by intros x ?%elem_of_nil.
    - constructor.
    - destruct Hm as [H1 H2]. split; [done|]. intros f ds Hds. destruct (H2 _ _ Hds) as [H3 H4]. split; [done|].
      intros b r Hbr. right. destruct (H4 _ _ Hbr) as [?|(oc & ? & ? & ? & ? & Hr)]; [done|].
      exists oc. do 4 (split; [done|]). eapply rests_mono; [| | |exact Hr]; [done|by left|apply Hno].
    - done.
    - done.
  Qed.

  Lemma data_idle os (av : name -> Prop) (c : cdb) : (forall f, ~ av f) -> data_ok os av c -> data_ok os (fun _ => False) c.
  Proof.
    intros Hav [H1 H2]. split; [done|]. intros f ds Hds. destruct (H2 _ _ Hds) as [H3 H4]. split; [done|].
    intros b r Hbr. right. destruct (H4 _ _ Hbr) as [?|(oc & ? & ? & ? & ? & Hr)]; [by edestruct Hav|].
    exists oc. do 4 (split; [done|]). eapply rests_mono; [| | |exact Hr]; [done|by left|done].
  Qed.

  Lemma below_all os g :
    inv os -> (forall fr frs, thread (runs s0 os) t = fr :: frs -> rank g < rank (rq_fun (fr_req fr))) ->
    forall x, x ∈ acts (runs s0 os) -> rank g < rank (a_fun x).
  Proof.
    intros I Hg x Hx. pose proof (i_sorted _ I) as Hs. unfold acts in *.
    destruct (thread (runs s0 os) t) as [|fr frs]; [by apply elem_of_nil in Hx|].
    specialize (Hg _ _ eq_refl). simpl in *. apply StronglySorted_inv in Hs as [_ Hs].
    apply elem_of_cons in Hx as [->|Hx]; [done|]. rewrite Forall_forall in Hs. apply Hs in Hx. unfold a_fun, a_req, act_of in *.
    simpl in *. lia.
  Qed.

  Lemma stack_begin os rq (good good' : occ -> Prop) above' xs cs :
    (forall oc, good oc -> good' oc) ->
    depth (runs s0 os) t = length xs -> length xs <= depth (runs s0 (os ++ [OBegin t rq])) t ->
    (forall x, x ∈ xs -> rank (rq_fun rq) < rank (a_fun x)) ->
    (above' = Some os \/
     exists oc', (forall a rq0 b, os = a ++ OBegin t rq0 :: b -> answered_by a rq0 b rq [] oc') /\ good' oc') ->
    stack os good None xs cs -> stack (os ++ [OBegin t rq]) good' above' xs (note_callee (rq_fun rq) cs).
  Proof.
    intros Hgood Hdep Hlen Hrank Hnew. destruct xs as [|x xs], cs as [|L cs]; simpl; try done.
    intros (a & b & Hos & Hs & Hd & He & HL & Hrk & Hc & Hst). exists a, (b ++ [OBegin t rq]).
    split; [by rewrite Hos, <- app_assoc|].
    split; [apply still_snoc; [done|]; rewrite <- Hos, Hd; simpl in Hlen; lia|]. split; [done|]. split; [done|].
    assert (makes_call a (a_req x) (b ++ [OBegin t rq]) b rq []) as Hthis.
    { split; [done|]. rewrite <- Hos, Hdep, Hd. done. }
    split.
    { intros g. rewrite elem_of_app, HL, !makes_calls. split.
      - intros [(b1 & rq' & b2 & H1 & H2)|H].
        + exists b1, rq', (b2 ++ [OBegin t rq]). split; [by apply makes_call_app|done].
        + apply elem_of_list_singleton in H as ->. eauto.
      - intros (b1 & rq' & b2 & [(b2' & -> & H1)|(-> & -> & [= <-] & _)]%makes_call_snoc & H2); [left; eauto|right].
        rewrite <- H2. by left. }
    split.
    { intros g [Hg|Hg]%elem_of_app; [by apply Hrk|]. apply elem_of_list_singleton in Hg as ->. apply Hrank. by left. }
    split.
    { intros b1 rq' b2 [(b2' & -> & H1)|(-> & -> & [= <-] & _)]%makes_call_snoc.
      - right. destruct (Hc _ _ _ H1) as [?|(oc' & ? & ?)]; [done|].
        exists oc'. split; [by apply answered_app|by apply Hgood].
      - destruct Hnew as [->|(oc' & Ha & Hg)]; [left; by rewrite Hos|right]. exists oc'. split; [by apply Ha|done]. }
    eapply stack_ext; [done| |simpl in Hlen; lia|done]. intros rq' _. right. rewrite Hdep. simpl. lia.
  Qed.

  Lemma inv_begin os rq :
    tidy (os ++ [OBegin t rq]) -> inv os -> inv (os ++ [OBegin t rq]).
  Proof.
    intros Htd I. set (s := runs s0 os). set (s' := fst (step s (OBegin t rq))).
    assert (runs s0 (os ++ [OBegin t rq]) = s') as Hs' by apply runs_snoc.
    assert (forall x, x ∈ acts s -> rank (rq_fun rq) < rank (a_fun x)) as Hrank.
    { apply below_all; [done|]. intros fr frs Ht. by eapply (td_rank _ _ _ _ _ _ Htd os t rq [] fr frs). }
    pose proof (begin_cases veq md5 s t rq) as (Hsame & Hdisk & Hcase). fold s' in Hsame, Hdisk, Hcase.
    pose proof (step_callstack veq md5 s (OBegin t rq)) as Hcs. fold s' in Hcs. cbn match in Hcs.
    pose proof (step_efun veq md5 s (OBegin t rq)) as HE. fold s' in HE. cbn match in HE.
    pose proof (step_frames md5 BK s (OBegin t rq) t) as Hfr. fold s' in Hfr. unfold frames_step in Hfr.
    rewrite decide_True in Hfr by done.
    destruct (snd (step s (OBegin t rq))) as [r xs xd| | |x| |] eqn:Eo; try done.
    - (* answered from the database *)
      destruct Hfr as [[? _]|[_ Hfr]]; [done|]. assert (acts s' = acts s) as Ha by (unfold acts; by rewrite Hfr).
      destruct Hcase as (Hcl & ds & b' & Hds & Hin & Hv). pose proof Hsame as [Hf Hc _ _].
      destruct (i_mem _ I) as [Hrows Hcalls]. fold s in Hrows, Hcalls.
      destruct (Hcalls _ _ Hds) as [_ Hst]. destruct (Hst _ _ Hin) as [(x & Hx & Hxf & _)|(oc & Hoc & Hof & Hob & Hor & Hre)].
      { apply Hrank in Hx. rewrite Hxf in Hx. lia. }
      assert (seen (os ++ [OBegin t rq]) (rq_fun rq)) as Hseen by (left; by exists os, rq, [], r, xs, xd).
      constructor; rewrite Hs', ?HE, ?Hf, ?Ha, ?Hcs.
      + intros f [_ [H|[(rq' & r' & xs' & xd' & [= <-] & <- & H)|(oc' & Hoo & _)]]]%seen_snoc; [by apply (i_seen _ I)|done|done].
      + apply (i_clean _ I).
      + apply (i_none _ I).
      + apply (i_fid _ I).
      + apply (i_digest _ I).
      + apply (i_sorted _ I).
      + by apply (data_app os _ (doomed (acts s)) _ (mem s)), (i_mem _ I).
      + rewrite Hdisk. by apply (data_app os _ (fun _ => False) _ (disk s)), (i_disk _ I).
      + apply (stack_begin os rq (good os s)); [|by rewrite acts_depth|by rewrite Hs', acts_depth, <- !acts_depth, Ha|done| |apply (i_stack _ I)].
        { intros oc0. by apply good_app. }
        right. exists oc. split.
        * intros a rq0 b Hos. right. exists xs, xd. rewrite <- Hos, Hor. split; [done|]. split; [done|]. split; [done|].
          by rewrite Hob.
        * split; [by rewrite Hof|]. rewrite Hf, Ha. eapply rests_mono; [| | |exact Hre]; [by apply completed_app|by left|done].
    - (* runs *)
      destruct Hfr as [(_ & _)|[? _]]; [|done].
      destruct Hcase as (d & p & Hd & Hth & Hclean & Hdirty & Hnone & Hfid). pose proof Hsame as [Hf Hc _ _].
      set (x := (rq, d, p) : act).
      assert (acts s' = x :: acts s) as Ha by (unfold acts; by rewrite Hth).
      assert (forall f, doomed (acts s') f <-> doomed (acts s) f \/ (f = rq_fun rq /\ pr_fun_dirty p = true)) as Hdoom.
      { intros f. rewrite Ha. split.
        - intros (y & [->|Hy]%elem_of_cons & Hyf & Hyd); [right|left; by exists y]. done.
        - intros [(y & Hy & Hyf & Hyd)|[-> Hp]]; [exists y|exists x]; rewrite elem_of_cons; auto. }
      assert (forall oc, rests os (c_functions (mem s)) (doomed (acts s)) oc ->
        (pr_fun_dirty p = true -> oc_fun oc <> rq_fun rq) ->
        rests (os ++ [OBegin t rq]) (c_functions (mem s)) (doomed (acts s')) oc) as Hrests.
      { intros oc Hr Hne. eapply rests_mono; [by apply completed_app|by left|intros f H; exact H|].
        destruct (pr_fun_dirty p) eqn:Ep.
        2:{ eapply rests_mono; [| | |exact Hr]; [done|by left|]. intros f [?|[_ ?]]%Hdoom; done. }
        apply (rests_avoid os _ (doomed (acts s)) _ (rq_fun rq)); [| |done|by apply Hne].
        { intros f [?|[? _]]%Hdoom; auto. }
        intros oc1 Hc1 Hav Hfit Hcall.
        destruct (td_callers _ _ _ _ _ _ Htd os rq [] eq_refl Eo) as [Hs|Hrun].
        { apply (Hdirty eq_refl). by apply (i_seen _ I). }
        destruct (Hrun _ Hc1 Hcall) as (fr & Hfr & Hfn).
        assert (act_of fr ∈ acts s) as Hact by (by apply elem_of_list_fmap_1).
        assert (a_fun (act_of fr) = oc_fun oc1) as Hfn' by done.
        destruct (a_dirty (act_of fr)) eqn:Ed.
        - apply Hav. exists (act_of fr). done.
        - pose proof (i_clean _ I _ Hact Ed) as Hcl. rewrite Hfn' in Hcl.
          apply clean_inv in Hcl as (d1 & deps & _ & Hrow & Hdeps).
          destruct (Hfit _ _ Hrow) as [_ Hin]. apply (Hdirty eq_refl). apply Hdeps; [by apply Hin|].
          intros Heq. apply Hrank in Hact. rewrite Hfn', Heq in Hact. lia. }
      constructor; rewrite Hs', ?HE, ?Hf, ?Hcs.
      + intros f [_ [H|[(rq' & r' & xs' & xd' & [= <-] & <- & H)|(oc' & Hoo & _)]]]%seen_snoc; [by apply (i_seen _ I)| |done].
        change (snd (step s (OBegin t rq)) = RHit r' xs' xd') in H. rewrite Eo in H. done.
      + rewrite Ha. intros y [->|Hy]%elem_of_cons Hyd; [by apply Hclean|by apply (i_clean _ I)].
      + rewrite Ha. intros y [->|Hy]%elem_of_cons; [|by apply (i_none _ I)]. intros _. apply Hnone.
      + rewrite Ha. intros y z [->|Hy]%elem_of_cons; [apply Hfid|by apply (i_fid _ I)].
      + rewrite Ha. intros y [->|Hy]%elem_of_cons; [done|by apply (i_digest _ I)].
      + rewrite Ha. constructor; [apply (i_sorted _ I)|]. rewrite Forall_forall. apply Hrank.
      + destruct (i_mem _ I) as [Hrows Hcalls]. fold s in Hrows, Hcalls. unfold data_ok. rewrite Hf, Hc.
        split; [by apply rows_app|]. intros f ds Hds. destruct (Hcalls _ _ Hds) as [? Hst]. split; [done|].
        intros b r Hbr. destruct (Hst _ _ Hbr) as [?|(oc & Hoc & Hof & Hob & Hor & Hre)]; [left; apply Hdoom; by left|].
        destruct (pr_fun_dirty p) eqn:Ep; [destruct (decide (f = rq_fun rq)) as [->|Hne]|].
        * left. apply Hdoom. by right.
        * right. exists oc. split; [by apply completed_app|]. do 3 (split; [done|]). apply Hrests; [done|]. by rewrite Hof.
        * right. exists oc. split; [by apply completed_app|]. do 3 (split; [done|]). by apply Hrests.
      + rewrite Hdisk. by apply (data_app os _ (fun _ => False) _ (disk s)), (i_disk _ I).
      + rewrite Ha. simpl. exists os, []. split; [done|].
        assert (depth s' t = S (depth s t)) as Hdep by (unfold DbSpec.depth; by rewrite Hth).
        split.
        { split; [done|]. intros b1 b2 Hb. symmetry in Hb. apply app_nil in Hb as [-> _].
          change (depth s t < depth (runs s0 (os ++ [OBegin t rq])) t). rewrite Hs', Hdep. lia. }
        split; [by rewrite acts_depth|]. split; [done|]. split.
        { intros g. rewrite makes_calls. split; [by intros ?%elem_of_nil|]. intros (b1 & rq' & b2 & [H _] & _).
          by destruct b1. }
        split; [by intros g ?%elem_of_nil|]. split.
        { intros b1 rq' b2 [H _]. by destruct b1. }
        apply (stack_begin os rq (good os s)); [|by rewrite acts_depth| |done|by left|apply (i_stack _ I)].
        * intros oc0 [H1 H2]. split; [by apply seen_app|]. rewrite Hf. apply Hrests; [done|].
          intros Hp Heq. apply (Hdirty Hp). rewrite <- Heq. by apply (i_seen _ I).
        * rewrite Hs', acts_depth, Hdep. fold s. lia.
    - (* refused *)
      destruct Hfr as [[? _]|[_ Hfr]]; [done|].
      assert (thread s t = []) as Ht.
      { destruct (td_fails _ _ _ _ _ _ Htd os (OBegin t rq) [] eq_refl) as [_ ?]; [|done].
        unfold fails. fold s. by rewrite Eo. }
      assert (acts s' = acts s) as Ha by (unfold acts; by rewrite Hfr).
      assert (s_callstack s = []) as Hcs0.
      { pose proof (stack_length _ _ _ _ _ (i_stack _ I)) as Hl. fold s in Hl. rewrite acts_depth in Hl. unfold DbSpec.depth in Hl.
        rewrite Ht in Hl. by destruct (s_callstack s). }
      apply inv_quiet; fold s; fold s'; try done.
      + intros rq' _. split; [done|]. intros r xs xd. by rewrite Eo.
      + by rewrite Hdisk.
      + rewrite Hcs, Hcs0. done.
  Qed.

  Lemma stack_pop os (good : occ -> Prop) a xs cs :
    (forall a0 rq0 b0 b1 rq' b2, os = a0 ++ OBegin t rq0 :: b0 -> makes_call a0 rq0 b0 b1 rq' b2 ->
       a = a0 ++ OBegin t rq0 :: b1 -> exists oc', answered_by a0 rq0 b1 rq' b2 oc' /\ good oc') ->
    stack os good (Some a) xs cs -> stack os good None xs cs.
  Proof.
    intros Hans. destruct xs as [|x xs], cs as [|L cs]; simpl; try done.
    intros (a0 & b & Hos & Hs & Hd & He & HL & Hrk & Hc & Hst). exists a0, b. do 6 (split; [done|]). split; [|done].
    intros b1 rq' b2 Hm. right. destruct (Hc _ _ _ Hm) as [[= ->]|?]; [by eapply Hans|done].
  Qed.

  Lemma inv_end os r :
    tidy (os ++ [OEnd t r]) -> inv os -> inv (os ++ [OEnd t r]).
  Proof.
    intros Htd I. set (s := runs s0 os). set (s' := fst (step s (OEnd t r))).
    assert (runs s0 (os ++ [OEnd t r]) = s') as Hs' by apply runs_snoc.
    pose proof (step_callstack veq md5 s (OEnd t r)) as Hcs. fold s' in Hcs. cbn match in Hcs.
    pose proof (step_efun veq md5 s (OEnd t r)) as HE. fold s' in HE. cbn match in HE.
    pose proof (step_frames md5 BK s (OEnd t r) t) as Hfr. fold s' in Hfr. unfold frames_step in Hfr.
    rewrite decide_True in Hfr by done.
    destruct (thread s t) as [|fr frs] eqn:Ht.
    { assert (s' = s) as Hsame by (unfold s'; simpl; unfold end_call; by rewrite Ht).
      apply inv_quiet; fold s; fold s'; rewrite ?Hsame; try done. }
    simpl in Hfr. set (x := act_of fr). set (g := a_fun x).
    assert (acts s = x :: (act_of <$> frs)) as Ha by (unfold acts; by rewrite Ht).
    assert (acts s' = act_of <$> frs) as Ha' by (unfold acts; by rewrite Hfr).
    pose proof (i_stack _ I) as Hst. fold s in Hst. rewrite Ha in Hst.
    destruct (s_callstack s) as [|L cs] eqn:Ecs; [done|]. simpl in Hcs.
    pose proof (i_sorted _ I) as Hsort. fold s in Hsort. rewrite Ha in Hsort.
    apply StronglySorted_inv in Hsort as [Hsort Hbel]. rewrite Forall_forall in Hbel.
    assert (forall y, y ∈ acts s' -> a_fun y <> g) as Hneq.
    { intros y Hy Hyg. rewrite Ha' in Hy. apply Hbel in Hy. fold g in Hy. rewrite Hyg in Hy. lia. }
    destruct Hst as (a & b & Hos & Hs & Hd & He & HL & Hrk & Hc & Hst).
    change (a_req x) with (fr_req fr) in *. change (x.1.2) with (fr_digest fr) in He.
    destruct (i_mem _ I) as [Hrows Hcalls]. fold s in Hrows, Hcalls.
    assert (x ∈ acts s) as Hx by (rewrite Ha; by left).
    pose proof (end_cases veq md5 s t r fr frs L cs Ht Ecs) as Hend. fold s' in Hend.
    assert (rq_fun (fr_req fr) = g) as Hg by done. rewrite Hg in Hend.
    destruct Hend as (Hdisk & HT & Hother & Hown).
    { intros y Hy. by apply (i_fid _ I x y Hx). }
    { intros Hdy Hid. destruct (c_calls (mem s) !! g) as [ds|] eqn:Eds; [|done].
      destruct (Hcalls _ _ Eds) as [[row Hrow] _].
      pose proof (i_none _ I x Hx Hdy Hid) as Hn. fold s in Hn. fold g in Hn. congruence. }
    set (oc := Occ a (fr_req fr) b r).
    assert (runs_during md5 BK s0 t (fr_req fr) a b) as Hrd.
    { split; [done|]. rewrite <- Hos, Hd. change (depth s t = S (length (act_of <$> frs))).
      rewrite <- acts_depth, Ha. done. }
    assert (completed (os ++ [OEnd t r]) oc) as Hoc.
    { exists []. split; [|done]. simpl. rewrite Hos, <- app_assoc. done. }
    assert (oc_fun oc = g) as Hog by done.
    assert (seen (os ++ [OEnd t r]) g) as Hseen.
    { right. exists oc, []. split; [done|]. split; [done|]. split; [|done]. simpl. rewrite Hos, <- app_assoc. done. }
    set (T := c_functions (mem s)) in *. set (T' := c_functions (mem s')) in *.
    assert (forall f, clean (env_fun os) T f \/ f = g -> clean (env_fun os) T' f) as Hclean.
    { intros f Hf. rewrite HT. change (pr_fun_dirty (fr_prep fr)) with (a_dirty x). destruct (a_dirty x) eqn:Ed.
      - apply clean_insert; [by eapply rows_rank|by apply (i_digest _ I x)| |done].
        intros h Hh. split; [by apply Hrk|]. apply HL, makes_calls in Hh as (b1 & rq' & b2 & Hm & <-).
        destruct (Hc _ _ _ Hm) as [?|(oc' & Hans & Hse & _)]; [done|].
        rewrite <- (answered_fun _ _ _ _ _ _ Hans). by apply (i_seen _ I).
      - destruct Hf as [?| ->]; [done|]. by apply (i_clean _ I x). }
    assert (forall f, doomed (acts s') f -> doomed (acts s) f) as Hdoom.
    { intros f (y & Hy & ?). exists y. split; [|done]. rewrite Ha. rewrite Ha' in Hy. by right. }
    assert (forall f, ~ doomed (acts s) f -> T' !! f = T !! f \/ T' !! f = None) as HTs.
    { intros f Hf. left. rewrite HT. change (pr_fun_dirty (fr_prep fr)) with (a_dirty x).
      destruct (a_dirty x) eqn:Ed; [|done]. rewrite lookup_insert_ne; [done|]. intros <-. apply Hf. by exists x. }
    assert (forall oc, rests os T (doomed (acts s)) oc -> rests (os ++ [OEnd t r]) T' (doomed (acts s')) oc) as Hrests.
    { intros oc1 H. eapply rests_mono; [| | |exact H]; [by apply completed_app|done|done]. }
    assert (~ doomed (acts s') g) as Hng.
    { intros (y & Hy & Hyg & _). by apply (Hneq y). }
    assert (rests (os ++ [OEnd t r]) T' (doomed (acts s')) oc) as Hroc.
    { constructor; [done|done| |].
      - intros d deps Hrow. rewrite Hog, HT in Hrow. change (pr_fun_dirty (fr_prep fr)) with (a_dirty x) in Hrow.
        destruct (a_dirty x) eqn:Ed.
        + rewrite lookup_insert in Hrow. injection Hrow as <- <-. split; [done|]. intros h Hh. by apply HL.
        + pose proof (i_clean _ I x Hx Ed) as Hcl. apply clean_inv in Hcl as (d1 & deps1 & Hd1 & Hrow1 & _).
          assert (Some (d1, deps1) = Some (d, deps)) as [= -> ->] by (rewrite <- Hrow1, <- Hrow; done).
          pose proof (eq_trans (eq_sym Hd1) (i_digest _ I x Hx)) as [= Hdd].
          assert (oc_code oc = Some d) as Hcode by (rewrite Hdd; exact He).
          split; [done|]. intros h Hh. destruct (Hrows _ _ _ Hrow) as (_ & oc1 & Hoc1 & Hof1 & Hcode1 & Hin1).
          apply Hin1. apply (td_calls _ _ _ _ _ _ Htd oc oc1 h); [done|by apply completed_app|by rewrite Hof1|by rewrite Hcode1|done].
      - intros b1 rq' b2 Hm. destruct (Hc _ _ _ Hm) as [?|(oc' & Hans & _ & Hr')]; [done|]. exists oc'.
        split; [done|by apply Hrests]. }
    constructor; rewrite Hs', ?HE.
    - intros f [_ [H|[(rq' & r' & xs' & xd' & ? & _)|(oc' & Hoo & Hof & Hos' & Hr')]]]%seen_snoc; [|done|].
      + apply Hclean. left. by apply (i_seen _ I).
      + apply Hclean. right. apply top_of in Hr' as (fr' & frs' & Hth & Hq). rewrite <- Hos' in Hth.
        fold s in Hth. rewrite Ht in Hth. injection Hth as <- <-. rewrite <- Hof. unfold oc_fun. by rewrite <- Hq.
    - intros y Hy Hyd. apply Hclean. left. apply (i_clean _ I); [|done]. fold s. rewrite Ha. rewrite Ha' in Hy. by right.
    - intros y Hy Hyd Hyn. fold T'. rewrite HT.
      assert (T !! a_fun y = None) as HTn.
      { apply (i_none _ I); [|done|done]. fold s. rewrite Ha. rewrite Ha' in Hy. by right. }
      destruct (pr_fun_dirty _); [|done]. rewrite lookup_insert_ne; [done|]. intros Heq. by apply (Hneq y).
    - intros y z Hy. apply (i_fid _ I). fold s. rewrite Ha. rewrite Ha' in Hy. by right.
    - intros y Hy. apply (i_digest _ I). fold s. rewrite Ha. rewrite Ha' in Hy. by right.
    - by rewrite Ha'.
    - split.
      + intros f d deps Hrow. fold T' in Hrow. destruct (decide (f = g)) as [->|Hne].
        * rewrite HT in Hrow. destruct (pr_fun_dirty _); [|by apply (rows_app os (OEnd t r)) in Hrows; apply Hrows].
          rewrite lookup_insert in Hrow. injection Hrow as <- <-. split; [done|]. exists oc. split; [done|]. split; [done|].
          split; [done|]. exact HL.
        * assert (T !! f = Some (d, deps)) as HTf.
          { rewrite HT in Hrow. destruct (pr_fun_dirty _); [|done]. by rewrite lookup_insert_ne in Hrow. }
          by apply (rows_app os (OEnd t r)) in Hrows; apply Hrows.
      + intros f ds Hds. fold T'. split.
        * rewrite HT. destruct (decide (f = g)) as [->|Hne].
          { change (pr_fun_dirty (fr_prep fr)) with (a_dirty x). destruct (a_dirty x) eqn:Ed; [rewrite lookup_insert; eauto|].
            pose proof (i_clean _ I x Hx Ed) as Hcl. apply clean_inv in Hcl as (d1 & deps1 & _ & Hrow1 & _).
            exists (d1, deps1). exact Hrow1. }
          rewrite (Hother _ Hne) in Hds. destruct (Hcalls _ _ Hds) as [Hsm _]. fold T in Hsm.
          destruct (pr_fun_dirty _); [|done]. by rewrite lookup_insert_ne.
        * intros b1 r1 Hin.
          assert (forall ds0, c_calls (mem s) !! f = Some ds0 -> (b1, r1) ∈ ds0 ->
            (forall y, y = x -> a_fun y = f -> a_dirty y = true -> False) ->
            doomed (acts s') f \/ stored (os ++ [OEnd t r]) T' (doomed (acts s')) f b1 r1) as Hold.
          { intros ds0 Hds0 Hin0 Hnx. destruct (Hcalls _ _ Hds0) as [_ Hall].
            destruct (Hall _ _ Hin0) as [(y & Hy & Hyf & Hyd)|(oc1 & Hoc1 & ? & ? & ? & Hr1)].
            - left. exists y. split; [|done]. rewrite Ha in Hy. rewrite Ha'.
              apply elem_of_cons in Hy as [->|Hy]; [|done]. by edestruct Hnx.
            - right. exists oc1. split; [by apply completed_app|]. do 3 (split; [done|]). by apply Hrests. }
          destruct (decide (f = g)) as [->|Hne].
          { destruct (Hown _ _ Hds Hin) as [[= -> ->]|(Hnd & ds0 & Hds0 & Hin0)].
            - right. exists oc. done.
            - apply (Hold ds0); [done|done|]. intros y -> _. unfold a_dirty. simpl. congruence. }
          rewrite (Hother _ Hne) in Hds. apply (Hold ds); [done|done|]. intros y -> Hyf. by rewrite <- Hyf in Hne.
    - rewrite Hdisk. by apply (data_app os _ (fun _ => False) _ (disk s)), (i_disk _ I).
    - rewrite Hcs, Ha'.
      assert (forall oc1, good os s oc1 -> good (os ++ [OEnd t r]) s' oc1) as Hgood.
      { intros oc1 [H1 H2]. split; [by apply seen_app|]. by apply Hrests. }
      apply (stack_pop _ _ a).
      + intros a0 rq0 b0 b1 rq' b2 Hos0 [-> Hdd] Haa. exists oc.
        assert (a ++ OBegin t rq' :: b2 = a ++ OBegin t (fr_req fr) :: b ++ [OEnd t r]) as Heq.
        { transitivity (os ++ [OEnd t r]); [|by rewrite Hos, <- app_assoc]. rewrite Hos0, Haa, <- app_assoc. done. }
        apply app_inv_head in Heq. injection Heq as Hrq Hb2.
        split; [|done]. left. rewrite <- Haa, Hrq. split; [done|]. split; [done|]. split; [by exists []|done].
      + apply (stack_ext os _ (good os s)); [done|done| |done].
        rewrite Hs', <- acts_depth, Ha'. done.
  Qed.

  Lemma inv_step os o : tidy (os ++ [o]) -> inv os -> inv (os ++ [o]).
  Proof.
    intros Htd I.
    assert (on_thread t o) as Ho.
    { pose proof (td_thread _ _ _ _ _ _ Htd) as H. apply Forall_app in H as [_ H]. by inversion H. }
    set (s := runs s0 os). set (s' := fst (step s o)).
    assert (runs s0 (os ++ [o]) = s') as Hs' by apply runs_snoc.
    pose proof (step_callstack veq md5 s o) as Hcs. fold s' in Hcs.
    pose proof (step_efun veq md5 s o) as HE. fold s' in HE.
    pose proof (step_frames md5 BK s o t) as Hfr. fold s' in Hfr. unfold frames_step in Hfr.
    pose proof (td_saves _ _ _ _ _ _ Htd os o [] eq_refl) as Hidle. fold s in Hidle.
    assert (thread s t = [] -> s_callstack s = []) as Hcs0.
    { intros Ht. pose proof (stack_length _ _ _ _ _ (i_stack _ I)) as Hl. fold s in Hl. rewrite acts_depth in Hl.
      unfold DbSpec.depth in Hl. rewrite Ht in Hl. by destruct (s_callstack s). }
    assert (thread s t = [] -> forall f, ~ doomed (acts s) f) as Hnodoom.
    { intros Ht f (x & Hx & _). unfold acts in Hx. rewrite Ht in Hx. by apply elem_of_nil in Hx. }
    destruct o as [t' rq|t' xs xd g|t' r|t'|f ct m|f|dt| |funs|f|f]; simpl in Ho; try subst t'.
    - by apply inv_begin.
    - apply inv_quiet; fold s; fold s'; try done.
      unfold acts. rewrite decide_True in Hfr by done. destruct (thread s t) as [|fr frs]; rewrite Hfr; [done|].
      destruct g; [done|]. rewrite !fmap_cons, <- list_fmap_compose. done.
    - by apply inv_end.
    - destruct (td_fails _ _ _ _ _ _ Htd os (ORaise t) [] eq_refl) as [[? ?] _]; done.
    - apply inv_quiet; fold s; fold s'; try done.
    - apply inv_quiet; fold s; fold s'; try done.
    - apply inv_quiet; fold s; fold s'; try done.
    - (* save *)
      apply inv_idle; rewrite Hs'.
      + unfold acts. by rewrite Hfr, Hidle.
      + rewrite Hcs. by apply Hcs0.
      + intros f [_ [H|[(rq' & r' & xs' & xd' & ? & _)|(oc' & ? & _)]]]%seen_snoc; [|done|done].
        rewrite HE. by apply (i_seen _ I).
      + apply (data_app os _ (fun _ => False) _ (mem s)); [done|done|done|].
        eapply data_idle; [by apply Hnodoom|apply (i_mem _ I)].
      + apply (data_app os _ (fun _ => False) _ (mem s)); [done|done|done|].
        eapply data_idle; [by apply Hnodoom|apply (i_mem _ I)].
    - (* restart *)
      apply inv_idle; rewrite Hs'.
      + unfold acts. by rewrite Hfr.
      + by rewrite Hcs.
      + by intros f [? _]%seen_snoc.
      + by apply (data_app os _ (fun _ => False) _ (disk s)), (i_disk _ I).
      + by apply (data_app os _ (fun _ => False) _ (disk s)), (i_disk _ I).
    - (* delete a function *)
      apply inv_idle; rewrite Hs'.
      + unfold acts. by rewrite Hfr, Hidle.
      + rewrite Hcs. by apply Hcs0.
      + by intros f0 [? _]%seen_snoc.
      + pose proof (i_mem _ I) as Hm. fold s in Hm. apply data_idle in Hm as [Hrows Hcalls]; [|by apply Hnodoom].
        assert (c_functions (mem s') = delete f (c_functions (mem s))) as HT by done.
        assert (c_calls (mem s') = delete f (c_calls (mem s))) as HC by done.
        split.
        * rewrite HT. intros h d deps [_ Hrow]%lookup_delete_Some. by apply (rows_app os (ODelFun f)) in Hrows; apply Hrows.
        * rewrite HT, HC. intros h ds [Hne Hds]%lookup_delete_Some. destruct (Hcalls _ _ Hds) as [Hsm Hall].
          split; [by rewrite lookup_delete_ne|]. intros b r Hin.
          destruct (Hall _ _ Hin) as [?|(oc & Hoc & ? & ? & ? & Hr)]; [done|right]. exists oc.
          split; [by apply completed_app|]. do 3 (split; [done|]). eapply rests_mono; [| | |exact Hr]; [by apply completed_app| |done].
          intros h' _. destruct (decide (f = h')) as [->|]; [right; by rewrite lookup_delete|left; by rewrite lookup_delete_ne].
      + by apply (data_app os _ (fun _ => False) _ (disk s)), (i_disk _ I).
    - apply inv_quiet; fold s; fold s'; try done.
  Qed.

  Lemma tidy_prefix os os' : tidy (os ++ os') -> tidy os.
  Proof.
    intros [H1 H2 H3 H4 H5 H6]. constructor.
    - by apply Forall_app in H1 as [? _].
    - intros a t' rq b fr frs -> Ht. eapply (H2 a t' rq (b ++ os')); [|done]. by rewrite <- app_assoc.
    - intros a o c ->. apply (H3 a o (c ++ os')). by rewrite <- app_assoc.
    - intros a o c ->. apply (H4 a o (c ++ os')). by rewrite <- app_assoc.
    - intros oc oc' g Ha Hb. apply H5; by apply completed_app.
    - intros a rq c ->. apply (H6 a rq (c ++ os')). by rewrite <- app_assoc.
  Qed.

  Lemma inv_all os : fresh pdb_empty s0 -> tidy os -> inv os.
  Proof.
    intros (Hdb & Hcs & Hth & _). induction os as [|o os IH] using rev_ind; intros Htd.
    - apply inv_idle; simpl.
      + unfold acts, thread. rewrite Hth. done.
      + done.
      + intros f [(a & rq & c & r & xs & xd & H & _)|(oc & c & _ & _ & H & _)]; [by destruct a|by destruct (oc_before oc)].
      + rewrite Hdb. split; [intros f d deps; simpl; by rewrite lookup_empty|intros f ds; simpl; by rewrite lookup_empty].
      + rewrite Hdb. split; [intros f d deps; simpl; by rewrite lookup_empty|intros f ds; simpl; by rewrite lookup_empty].
    - apply inv_step; [done|]. apply IH. by eapply tidy_prefix.
  Qed.

  Theorem hit_up_to_date os rq r srcs dsts :
    fresh pdb_empty s0 -> tidy (os ++ [OBegin t rq]) ->
    snd (step (runs s0 os) (OBegin t rq)) = RHit r srcs dsts ->
    exists oc, completed os oc /\ oc_fun oc = rq_fun rq /\ veq (rq_bound rq) (rq_bound (oc_req oc)) = true /\
      oc_result oc = r /\ up_to_date veq md5 BK t s0 (s_env (runs s0 os)) oc.
  Proof.
    intros H0 Htd Hh. pose proof (inv_all os H0 (tidy_prefix _ _ Htd)) as I.
    pose proof (begin_cases veq md5 (runs s0 os) t rq) as (_ & _ & Hcase). rewrite Hh in Hcase.
    destruct Hcase as (Hcl & ds & b' & Hds & Hin & Hv). destruct (i_mem _ I) as [Hrows Hcalls].
    destruct (Hcalls _ _ Hds) as [_ Hall]. destruct (Hall _ _ Hin) as [(x & Hx & Hxf & _)|(oc & Hoc & Hof & Hob & Hor & Hre)].
    { apply (below_all os (rq_fun rq)) in Hx; [rewrite Hxf in Hx; lia|done|].
      intros fr frs Ht. by eapply (td_rank _ _ _ _ _ _ Htd os t rq [] fr frs). }
    exists oc. split; [done|]. split; [done|]. split; [by rewrite Hob|]. split; [done|].
    eapply rests_up_to_date; [by eapply rows_rank|done|]. by rewrite Hof.
  Qed.

  (** Functions that are called from one place only. *)
  Lemma one_caller_first os : s_threads s0 = ∅ -> one_caller md5 BK t s0 os -> callers_first md5 BK t s0 os.
  Proof.
    intros H0 [caller Hone] a rq c -> Hrun. right. intros oc (rest & -> & Hrd) Hcall.
    apply makes_calls in Hcall as (b1 & rq' & b2 & [Hb Hd] & Hq).
    assert (runs_during md5 BK s0 t (oc_req oc) (oc_before oc) b1) as Hrd1.
    { destruct Hrd as [[Hr Hsr] _]. split; [|done]. split; [done|]. intros c1 c2 ->. apply (Hsr c1 (c2 ++ OBegin t rq' :: b2)).
      by rewrite Hb, <- app_assoc. }
    apply top_of in Hrd1 as (fr & frs & Ht & Hfr).
    rewrite Hb in Hone |- *.
    pose proof (Hone (oc_before oc ++ OBegin t (oc_req oc) :: b1) rq'
      (b2 ++ OEnd t (oc_result oc) :: rest ++ OBegin t rq :: c)) as H1. rewrite Ht in H1.
    specialize (Hone _ rq c eq_refl). rewrite <- Hq, H1 in Hone.
    2:{ repeat (rewrite <- ?app_assoc; simpl). done. }
    destruct (thread _ t) as [|fr2 frs2] eqn:Et; [done|]. injection Hone as Hone.
    exists fr2. rewrite Et. split; [by left|]. unfold oc_fun. by rewrite <- Hfr.
  Qed.
End Inv.
