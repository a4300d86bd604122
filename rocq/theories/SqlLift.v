(** The generic functions instantiated at the SQLite backend act on the current tables of the
    connection only. *)
From stdpp Require Import base list strings gmap.
From Coq Require Import ZArith.
From Verif Require Import PyMonad DbModel SqlBackend.

Section Lift.
  Context {V R : Type} (veq : V -> V -> bool) (md5 : content -> digest).
  Notation core0 := (sql_core0 (R := R) veq).
  Notation core1 := (sql_core (R := R) veq).

  Definition lifts {A} (m : M (sq V R) A) (m' : M (conn V R) A) : Prop :=
    forall s, m' s = on_cur m s.

  Lemma lifts_on {A} (m : M (sq V R) A) : lifts m (on_cur m).
  Proof. intros s; reflexivity. Qed.

  Lemma lifts_ret {A} (a : A) : lifts (ret a) (ret a).
  Proof. intros [c d v]; reflexivity. Qed.

  Lemma lifts_raise {A} x : @lifts A (raise x) (raise x).
  Proof. intros [c d v]; reflexivity. Qed.

  Lemma lifts_bind {A B} (m : M _ A) m' (k : A -> M _ B) k' :
    lifts m m' -> (forall a, lifts (k a) (k' a)) -> lifts (bind m k) (bind m' k').
  Proof.
    intros Hm Hk s. unfold bind. rewrite Hm. unfold on_cur.
    destruct (m (k_cur s)) as [[x|a] c]; [reflexivity|].
    rewrite Hk. reflexivity.
  Qed.

  Lemma lifts_try {A} (m : M _ A) m' : lifts m m' -> lifts (try_os m) (try_os m').
  Proof.
    intros Hm s. unfold try_os. rewrite Hm. unfold on_cur.
    destruct (m (k_cur s)) as [[[]|a] c]; reflexivity.
  Qed.

  Ltac lift := repeat first
    [ apply lifts_ret | apply lifts_raise | apply lifts_on | apply lifts_try
    | apply lifts_bind; [|intros ?]
    | match goal with |- context [match ?x with _ => _ end] => destruct x end
    | assumption ].

  Lemma lifts_add_file e f : lifts (add_file md5 core0 e f) (add_file md5 core1 e f).
  Proof. unfold add_file. lift. Qed.

  Lemma lifts_check_call_file e c f :
    lifts (check_call_file md5 core0 e c f) (check_call_file md5 core1 e c f).
  Proof. unfold check_call_file. apply lifts_bind; [apply lifts_add_file|]. intros. lift. Qed.

  Lemma lifts_check_call_files e c fs :
    lifts (check_call_files md5 core0 e c fs) (check_call_files md5 core1 e c fs).
  Proof.
    induction fs as [|f fs IH]; simpl; [lift|].
    apply lifts_bind; [apply lifts_check_call_file|]. intros [[??]?].
    apply lifts_bind; [exact IH|]. intros; lift.
  Qed.

  Lemma lifts_external_loop e c fs :
    lifts (check_external_loop md5 core0 e c fs) (check_external_loop md5 core1 e c fs).
  Proof.
    induction fs as [|f fs IH]; simpl; [lift|].
    apply lifts_bind; [apply lifts_try, lifts_check_call_file|]. intros ?.
    apply lifts_bind; [exact IH|]. intros; lift.
  Qed.

  Lemma lifts_check_external_files e c :
    lifts (check_external_files md5 core0 e c) (check_external_files md5 core1 e c).
  Proof.
    unfold check_external_files. lift.
    apply lifts_external_loop.
  Qed.

  Lemma lifts_check_function n e fn :
    lifts (check_function core0 n e fn) (check_function core1 n e fn).
  Proof.
    revert fn. induction n as [|n IH]; intros fn; simpl; [lift|].
    destruct (e_fun e !! fn); [|lift].
    apply lifts_bind; [apply lifts_on|]. intros [[??] deps].
    destruct (match o0 with Some _ => _ | None => _ end); [lift|].
    apply lifts_bind; [|intros; lift].
    induction (filter _ deps) as [|dep ds IHd]; [lift|].
    apply lifts_bind; [apply IH|]. intros r. destruct (fst r); [lift|exact IHd].
  Qed.

  Lemma lifts_prepare e fn b srcs :
    lifts (prepare md5 core0 e fn b srcs) (prepare md5 core1 e fn b srcs).
  Proof.
    unfold prepare.
    apply lifts_bind; [apply lifts_check_function|]. intros [fd fid].
    apply lifts_bind; [lift|]. intros [[cd cid] old].
    apply lifts_bind; [apply lifts_check_call_files|]. intros files.
    apply lifts_bind; [|intros [[??]?]; lift].
    destruct cid; [apply lifts_check_external_files|lift].
  Qed.

  Lemma lifts_save_call_files c ds :
    lifts (save_call_files core0 c ds) (save_call_files core1 c ds).
  Proof.
    induction ds as [|[[??]?] ds IH]; simpl; [lift|].
    apply lifts_bind; [lift|]. intros _. exact IH.
  Qed.

  (** Backend.cache over the bare tables, without the transaction. *)
  Definition cache0 (e : env) (fun_dirty : bool) (fun_id : option nat) (fn : name)
      (fd : digest) (deps : list name) (call_id : option nat) (bound : V) (r : R)
      (files : list (nat * name * digest)) (xsrcs xdsts : list name) : M (sq V R) unit :=
    let* fid :=
      (if fun_dirty then
        let* _ := match fun_id with
                  | Some _ => delete_function core0 fn
                  | None => ret true
                  end in
        let* i := save_function core0 None fn fd deps in
        ret (Some i)
      else ret fun_id) in
    match fid with
    | None => raise KeyErr
    | Some i =>
        let* cid := save_call core0 call_id i bound r in
        let* _ := save_call_files core0 cid files in
        s_save_external veq md5 e cid xsrcs xdsts
    end.

  Lemma cache_transaction e a b c d dd f g h i j k (s : conn V R) :
    cache (sql_backend (R := R) veq md5) e a b c d dd f g h i j k s =
    match cache0 e a b c d dd f g h i j k (k_cur s) with
    | (inr u, q) => (inr u, Conn q q (k_version s))
    | (inl x, _) => (inl x, Conn (k_base s) (k_base s) (k_version s))
    end.
  Proof.
    unfold cache. simpl b_transaction. simpl b_core. unfold transaction.
    match goal with |- match ?m s with _ => _ end = _ =>
      assert (lifts (cache0 e a b c d dd f g h i j k) m) as -> end.
    - unfold cache0. apply lifts_bind.
      + destruct a; lift.
      + intros [fid|]; [|lift].
        apply lifts_bind; [lift|]. intros cid.
        apply lifts_bind; [apply lifts_save_call_files|]. intros _. apply lifts_on.
    - unfold on_cur. by destruct (cache0 _ _ _ _ _ _ _ _ _ _ _ _ (k_cur s)) as [[x|u] q].
  Qed.
End Lift.
