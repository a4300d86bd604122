(** A concrete build used to show that the hypotheses of the theorems about
    cached calls can be met. *)
From stdpp Require Import base list strings gmap.
From Coq Require Import ZArith Lia.
From Verif Require Import PyMonad DbModel DbSpec DbClaims CacheBackend DbRefute.
Local Open Scope string_scope.
Local Open Scope list_scope.

(** Contents of files by modification time. *)
Definition ex_F (f : name) (m : Z) : content :=
  if decide (f = "a.c") then (if decide (m = 10)%Z then "int a;" else "int b;")
  else if decide (f = "a.h") then "header" else "object".

(** f("a.c") compiles a.c to a.o; it reads a.h and writes a.log. *)
Definition ex_call : request string string :=
  Request "f" "a.c" ["a.c"] ["a.o"] (fun r => [r]).
Definition ex_body : list (op string string) :=
  [OTick 5; OWrite "a.o" "object" 25; OWrite "a.log" "object" 25;
   OAddExt 0 ["a.h"] ["a.log"] false].
Definition ex_before : list (op string string) :=
  [OWrite "a.c" "int a;" 10; OWrite "a.h" "header" 11; OTick 20].
Definition ex_after : list (op string string) :=
  [OTick 3000000; OSave; ORestart funs1; OWrite "a.c" "int b;" 40; OWrite "a.c" "int a;" 10].
Definition ex_build : list (op string string) :=
  ex_before ++ OBegin 0 ex_call :: ex_body ++ OEnd 0 "a.o" :: ex_after.
Definition ex_D (fn b : name) : list name := [b].

(** No file is in use when no thread is running. *)
Lemma not_in_use (s : ssys) f :
  forallb (fun tf : nat * list _ =>
     forallb (fun fr => negb (bool_decide (f ∈ rq_srcs (fr_req fr)))) tf.2) (map_to_list (s_threads s)) = true ->
  ~ in_use s f.
Proof.
  intros H (t & fr & Hin & Hf). unfold thread in Hin.
  destruct (s_threads s !! t) as [frs|] eqn:E; [|by apply elem_of_nil in Hin].
  rewrite forallb_forall in H. specialize (H (t, frs)).
  rewrite <- elem_of_list_In, elem_of_map_to_list in H. specialize (H E). simpl in H.
  rewrite forallb_forall in H. specialize (H fr). rewrite <- elem_of_list_In in H.
  specialize (H Hin). by rewrite bool_decide_true in H.
Qed.

Definition wb_check (F : name -> Z -> content) (s : ssys) (o : op string string) : bool :=
  match o with
  | OWrite f c m => bool_decide (c = F f m) &&
      forallb (fun tf : nat * list _ =>
        forallb (fun fr => negb (bool_decide (f ∈ rq_srcs (fr_req fr)))) tf.2) (map_to_list (s_threads s))
  | ORemove f =>
      forallb (fun tf : nat * list _ =>
        forallb (fun fr => negb (bool_decide (f ∈ rq_srcs (fr_req fr)))) tf.2) (map_to_list (s_threads s))
  | ODelFun _ => false
  | _ => true
  end.
Fixpoint ok_check (F : name -> Z -> content) (s : ssys) (os : list (op string string)) : bool :=
  match os with
  | [] => true
  | o :: os' => wb_check F s o && ok_check F (fst (step ident sbk s o)) os'
  end.

Lemma ok_check_sound F s os : ok_check F s os = true -> history_ok ident sbk F s os.
Proof.
  revert s. induction os as [|o os IH]; intros s; [done|].
  cbn [ok_check]. rewrite andb_true_iff. intros [H1 H2].
  cbn [history_ok]. split; [|split; [|by apply IH]].
  - destruct o; simpl in *; try done. apply andb_true_iff in H1 as [H1 _].
    by apply bool_decide_eq_true in H1.
  - destruct o; cbn [wb_check well_behaved] in *; try done.
    + apply andb_true_iff in H1 as [_ H1]. by apply not_in_use.
    + by apply not_in_use.
Qed.

Lemma ex_ok : history_ok ident sbk ex_F (start 100) ex_build.
Proof. apply ok_check_sound. by vm_compute. Qed.

Lemma ex_faithful : fs_faithful ex_F (s_env (start 100)).
Proof. intros f m c. simpl. by rewrite lookup_empty. Qed.

Lemma ex_declared : declared_by String.eqb ex_D (ex_build ++ [OBegin 1 ex_call]).
Proof.
  split.
  - intros t rq Hin. unfold ex_build, ex_before, ex_body, ex_after in Hin.
    simpl in Hin. rewrite ?elem_of_cons in Hin.
    repeat (destruct Hin as [Hin|Hin]; [first [discriminate Hin | injection Hin as -> ->; reflexivity]|]).
    by apply elem_of_nil in Hin.
  - intros fn b b' H. apply String.eqb_eq in H as ->. done.
Qed.

Lemma ex_hit :
  snd (step ident sbk (runs ident sbk (start 100) ex_build) (OBegin 1 ex_call)) =
  RHit "a.o" ["a.c"; "a.h"] ["a.o"; "a.log"; "a.o"].
Proof. by vm_compute. Qed.
