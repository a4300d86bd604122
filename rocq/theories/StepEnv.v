(** What operations do to files and functions, whatever the backend. *)
From stdpp Require Import base list strings gmap.
From Coq Require Import ZArith.
From Verif Require Import PyMonad DbModel DbSpec DbHistory.

Section Env.
  Context {V R : Type} (md5 : content -> digest).
  Context {S FunId CallId FileId : Type}.
  Context (BK : backend V R S FunId CallId FileId).
  Notation sys := (sys V R S FunId CallId FileId).
  Notation op := (op V R).
  Notation step := (step md5 BK).
  Notation runs := (runs md5 BK).

  (** The environment after an operation, whatever the backend. *)
  Lemma env_after (s : sys) (o : op) :
    s_env (fst (step s o)) =
    match o with
    | OWrite f c m => with_fs (s_env s) (<[f := (m, c)]> (e_fs (s_env s)))
    | ORemove f => with_fs (s_env s) (delete f (e_fs (s_env s)))
    | OTick dt => Env (e_fs (s_env s)) (e_now (s_env s) + dt) (e_fun (s_env s)) (e_limit (s_env s))
    | ORestart funs => Env (e_fs (s_env s)) (e_now (s_env s)) funs (e_limit (s_env s))
    | _ => s_env s
    end.
  Proof.
    destruct o as [t rq|t xs xd g|t r|t|f ct m|f|dt| |funs|f|f]; simpl; try done.
    - unfold begin_call. destruct (e_fun (s_env s) !! rq_fun rq) as [d|] eqn:Ed; [|done].
      destruct (prepare md5 _ _ _ _ _ _) as [res db] eqn:Ep.
      destruct res as [x|p]; [done|].
      destruct (pr_fun_dirty p), (pr_call_dirty p), (pr_files p), (pr_xfiles p), (pr_old_result p); try done.
      by destruct (forallb _ _).
    - unfold end_call. destruct (thread s t) as [|fr frs] eqn:Et; [done|].
      destruct (s_callstack s) as [|deps cs]; [done|].
      by destruct (cache _ _ _ _ _ _ _ _ _ _ _ _ _ (s_db s)) as [[x|u] c'].
    - unfold raise_call. by destruct (thread s t).
    - by destruct (delete_function _ _ _) as [[?|?] ?].
    - by destruct (delete_file _ _ _) as [[?|?] ?].
  Qed.
  (** A file nobody writes stays, if it is there. *)
  Lemma file_stays (s : sys) (c : list op) f :
    (forall ct m, OWrite f ct m ∉ c) -> is_Some (e_fs (s_env (runs s c)) !! f) ->
    e_fs (s_env (runs s c)) !! f = e_fs (s_env s) !! f.
  Proof.
    revert s. induction c as [|o c IH]; intros s Hw Hs; [done|]. simpl in *.
    assert (forall ct m, OWrite f ct m ∉ c) as Hw' by (intros ct m H; eapply Hw; by right).
    rewrite (IH _ Hw' Hs). rewrite (IH _ Hw' Hs), env_after in Hs. rewrite env_after.
    destruct o as [| | | |g ct m|g| | | | |]; try done; simpl in *.
    - destruct (decide (g = f)) as [->|]; [|by rewrite lookup_insert_ne]. destruct (Hw ct m). by left.
    - destruct (decide (g = f)) as [->|]; [|by rewrite lookup_delete_ne].
      rewrite lookup_delete in Hs. by destruct Hs as [? [=]].
  Qed.
End Env.
