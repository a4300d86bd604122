(** Properties of installing (context.py: install; install.py). *)
From Coq Require Import String Ascii.
From stdpp Require Import base list gmap.
From Coq Require Import NArith Lia.
From Verif Require Import FnModel PathModel PathSpec InstModel InstFacts.
Local Open Scope nat_scope.

Definition text (s : string) : str := map N_of_ascii (list_ascii_of_string s).

(** C48, the claim. *)
Definition installs_below : Prop :=
  forall destdir prefix subdir rename path,
    destdir <> [] -> below destdir (install_target destdir prefix subdir rename path).

(** Only one slash is removed from the subdirectory. *)
Theorem C48_below_refuted : ~ installs_below.
Proof.
  intros H. destruct (H (text "stage") (text "/usr") (text "//etc") None (text "a.conf") ltac:(discriminate)) as [Ha _].
  vm_compute in Ha. discriminate.
Qed.

(** The same for the prefix. *)
Theorem C48_below_refuted_prefix :
  ~ below (text "stage") (install_target (text "stage") (text "//usr") (text "bin") None (text "a")).
Proof. intros [Ha _]. vm_compute in Ha. discriminate. Qed.

(** An absolute new name replaces everything. *)
Theorem C48_below_refuted_rename :
  ~ below (text "/stage") (install_target (text "/stage") (text "/usr") (text "bin") (Some (text "/a")) (text "x")).
Proof. intros (_ & cs & Hc & _). vm_compute in Hc. discriminate. Qed.

(** "..", here in the name. *)
Theorem C48_below_refuted_dotdot :
  ~ below (text "/stage") (install_target (text "/stage") (text "/usr") (text "bin") (Some (text "../../../a")) (text "x")).
Proof.
  intros (_ & cs & Hc & Hs). vm_compute in Hc. injection Hc as <-. vm_compute in Hs. discriminate.
Qed.

(** If none of the parts is absolute, the target is below destdir exactly when
    following the parts never climbs out. *)
Theorem C48_below_partial destdir prefix subdir rename path :
  destdir <> [] ->
  Forall (fun p => isabs p = false) (parts prefix subdir rename path) ->
  below destdir (install_target destdir prefix subdir rename path) <->
  stays 0 (flat_map components (parts prefix subdir rename path)) = true.
Proof. exact (install_below destdir prefix subdir rename path). Qed.

Example C48_below_ex :
  Forall (fun p => isabs p = false) (parts (text "/usr") (text "lib/x/..") (Some (text "b.so")) (text "out/a.so")) /\
  install_target (text "/stage") (text "/usr") (text "lib/x/..") (Some (text "b.so")) (text "out/a.so") =
    text "/stage/usr/lib/x/../b.so" /\
  below (text "/stage") (text "/stage/usr/lib/x/../b.so").
Proof.
  assert (Forall (fun p => isabs p = false) (parts (text "/usr") (text "lib/x/..") (Some (text "b.so")) (text "out/a.so"))) as H
    by (repeat constructor).
  split; [exact H|]. split; [reflexivity|].
  apply (C48_below_partial (text "/stage") (text "/usr") (text "lib/x/..") (Some (text "b.so")) (text "out/a.so"));
    [discriminate|exact H|reflexivity].
Qed.

(** C49, the claim: the installed file gets the permissions, the source keeps its own. *)
Definition perms_on_target : Prop :=
  forall f src dst c m p f',
    f !! src = Some (File c m) -> plain (f !! dst) -> src <> dst ->
    local_install f src dst (Some p) = Some f' ->
    f' !! dst = Some (File c p).
Definition source_untouched : Prop :=
  forall f src dst c m p f',
    f !! src = Some (File c m) -> plain (f !! dst) -> src <> dst ->
    local_install f src dst (Some p) = Some f' ->
    f' !! src = Some (File c m).

Definition ex_fs : fs := {[ text "/src/a" := File 1%N 420%N ]}.
Definition ex_run : option fs := local_install ex_fs (text "/src/a") (text "/usr/bin/a") (Some 493%N).

Theorem C49_target_refuted : ~ perms_on_target.
Proof.
  intros H. destruct ex_run as [f'|] eqn:E; [|vm_compute in E; discriminate].
  assert (plain (ex_fs !! text "/usr/bin/a")) as Hp by (left; reflexivity).
  specialize (H ex_fs (text "/src/a") (text "/usr/bin/a") 1%N 420%N 493%N f' eq_refl Hp ltac:(discriminate) E).
  vm_compute in E. injection E as <-. vm_compute in H. discriminate.
Qed.

Theorem C49_source_refuted : ~ source_untouched.
Proof.
  intros H. destruct ex_run as [f'|] eqn:E; [|vm_compute in E; discriminate].
  assert (plain (ex_fs !! text "/usr/bin/a")) as Hp by (left; reflexivity).
  specialize (H ex_fs (text "/src/a") (text "/usr/bin/a") 1%N 420%N 493%N f' eq_refl Hp ltac:(discriminate) E).
  vm_compute in E. injection E as <-. vm_compute in H. discriminate.
Qed.

(** What is done: the permissions are given to the source. *)
Theorem C49_exact f src dst c m p :
  f !! src = Some (File c m) -> plain (f !! dst) -> src <> dst ->
  local_install f src dst (Some p) = Some (<[src := File c p]> (<[dst := File c m]> f)).
Proof. exact (install_plain f src dst c m (Some p)). Qed.

(** Without permissions the source is never changed, whatever it is and wherever it goes. *)
Theorem C49_source_partial f src dst f' :
  local_install f src dst None = Some f' -> f' !! src = f !! src.
Proof. exact (install_source f src dst f'). Qed.

(** [n] links lead from [p] to [q], which is none. *)
Inductive hops (f : fs) : nat -> str -> str -> Prop :=
  | hops_none p : (forall t, f !! p <> Some (Link t)) -> hops f 0 p p
  | hops_more n p t q : f !! p = Some (Link t) -> hops f n t q -> hops f (S n) p q.
(** Links are installed as links with the same text, instead of a file or a link that leads somewhere. *)
Lemma hops_follow f n p q k : hops f n p q -> n <= k -> follow k f p = Some q.
Proof.
  intros H. revert k. induction H as [p Hp|n p t q Hp H IH]; intros k Hk.
  - destruct k; cbn; destruct (f !! p) as [[]|] eqn:E; try done; by destruct (Hp p0).
  - destruct k as [|k]; [lia|]. cbn. rewrite Hp. apply IH. lia.
Qed.
Theorem C49_link f src dst t n q :
  f !! src = Some (Link t) -> hops f n dst q -> n <= 40 -> f !! dst <> Some Dir -> (n = 0 \/ is_Some (f !! q)) ->
  local_install f src dst None = Some (<[dst := Link t]> f).
Proof.
  intros Hs Hd Hn Hdir Hq. unfold local_install, exists_, target_of. rewrite Hs, (hops_follow f n dst q max_links Hd Hn). inversion Hd as [? Hl|m ? u ? Hu Hm]; subst.
  - destruct (f !! q) as [[c m|u|]|] eqn:E; cbn; try done.
    + unfold remove, symlink. rewrite E, lookup_delete, insert_delete_insert. done.
    + by destruct (Hl u).
    + unfold symlink. by rewrite E.
  - destruct Hq as [?|Hq]; [lia|]. rewrite bool_decide_true by done. unfold remove, symlink. rewrite Hu, lookup_delete, insert_delete_insert. done.
Qed.
(** Not instead of a link that leads nowhere: that is an error, though the target could be replaced. *)
Theorem C49_link_refuted f src dst t n q :
  f !! src = Some (Link t) -> hops f (S n) dst q -> S n <= 40 -> f !! q = None ->
  forall perms, local_install f src dst perms = None.
Proof.
  intros Hs Hd Hn Hq perms. unfold local_install, exists_, target_of. rewrite Hs, (hops_follow f _ dst q max_links Hd Hn), bool_decide_false by (rewrite Hq; apply is_Some_None).
  inversion Hd as [|? ? ? ? Hu]; subst. unfold symlink. rewrite Hu. done.
Qed.
(** The same for a link at the target from which more than 40 links follow each other, as in a circle. *)
Inductive chain (f : fs) : nat -> str -> Prop :=
  | chain_none p : chain f 0 p
  | chain_more n p t : f !! p = Some (Link t) -> chain f n t -> chain f (S n) p.
Lemma chain_follow f k : forall p, chain f (S k) p -> follow k f p = None.
Proof.
  induction k as [|k IH]; intros p H; inversion H as [|n ? t Hp Ht]; subst; cbn; rewrite Hp; [done|]. exact (IH t Ht).
Qed.
Theorem C49_link_circle_refuted f src dst t :
  f !! src = Some (Link t) -> chain f 41 dst -> forall perms, local_install f src dst perms = None.
Proof.
  intros Hs Hd perms. unfold local_install, exists_, target_of. rewrite Hs. unfold max_links. rewrite (chain_follow f 40 dst Hd).
  inversion Hd as [|? ? u Hu _]; subst. unfold symlink. rewrite Hu. done.
Qed.
(** Permissions then go to what the source leads to, and it is an error if that does not exist. *)
Theorem C49_link_perms f src dst t m f' n q :
  f !! src = Some (Link t) -> local_install f src dst None = Some f' -> hops f' n src q -> n <= 40 ->
  local_install f src dst (Some m) =
    match f' !! q with
    | Some (File c _) => Some (<[q := File c m]> f')
    | Some _ => Some f'
    | None => None
    end.
Proof.
  intros Hs Hi Hh Hn. unfold local_install in *. rewrite Hs in *. destruct (match (if exists_ f dst then remove f dst else Some f) with Some f => symlink f t dst | None => None end) as [g|]; [|done].
  injection Hi as ->. unfold chmod, target_of. rewrite (hops_follow f' n src q max_links Hh Hn).
  destruct (f' !! q) as [[c m'|u|]|] eqn:E; try done. exfalso. clear -Hh E. induction Hh as [p Hp|n p v q Hp H IH]; [by destruct (Hp u)|by apply IH].
Qed.
Definition link_fs : fs := <[text "/src/l" := Link (text "/src/a")]> (<[text "/usr/l" := Link (text "/usr/b")]> (<[text "/usr/b" := File 2%N 420%N]> ex_fs)).
Example C49_link_ex :
  link_fs !! text "/src/l" = Some (Link (text "/src/a")) /\ hops link_fs 1 (text "/usr/l") (text "/usr/b") /\
  (fun f' : fs => (f' !! text "/src/a", f' !! text "/usr/l", f' !! text "/usr/b")) <$>
    local_install link_fs (text "/src/l") (text "/usr/l") (Some 493%N) =
    Some (Some (File 1%N 493%N), Some (Link (text "/src/a")), Some (File 2%N 420%N)) /\
  local_install (delete (text "/usr/b") link_fs) (text "/src/l") (text "/usr/l") None = None.
Proof.
  split_and!; [done| |vm_compute; done|vm_compute; done]. eapply hops_more; [done|]. constructor. intros u. vm_compute. discriminate.
Qed.

(** A whole installation of files without permissions: exact copies, and nothing else. *)
Theorem C49_all_partial f items :
  (forall s d p, (s, d, p) ∈ items -> p = None) ->
  NoDup ((fun i => snd (fst i)) <$> items) ->
  (forall s d p, (s, d, p) ∈ items -> exists c m, f !! s = Some (File c m)) ->
  (forall s d p, (s, d, p) ∈ items -> plain (f !! d)) ->
  (forall s d p s' d' p', (s, d, p) ∈ items -> (s', d', p') ∈ items -> s <> d') ->
  exists f', install_all f items = Some f' /\
    (forall s d p, (s, d, p) ∈ items -> f' !! d = f !! s) /\
    (forall q, (forall s d p, (s, d, p) ∈ items -> q <> d) -> f' !! q = f !! q).
Proof. exact (install_all_plain f items). Qed.

(** Instances: the same file twice; the permissions asked for the first copy are found
    on the second. *)
Example C49_twice_ex :
  exists f', install_all ex_fs [(text "/src/a", text "/bin/a", Some 493%N); (text "/src/a", text "/bin/b", None)] = Some f' /\
    f' !! text "/bin/a" = Some (File 1%N 420%N) /\ f' !! text "/bin/b" = Some (File 1%N 493%N).
Proof.
  destruct (install_all ex_fs _) as [f'|] eqn:E; [|vm_compute in E; discriminate].
  exists f'. split; [reflexivity|]. vm_compute in E. injection E as <-. split; reflexivity.
Qed.

Example C49_all_ex :
  let items := [(text "/src/a", text "/bin/a", None); (text "/src/a", text "/bin/b", None)] : list (str * str * option mode) in
  (forall s d p, (s, d, p) ∈ items -> p = None) /\
  NoDup ((fun i => snd (fst i)) <$> items) /\
  (forall s d p, (s, d, p) ∈ items -> exists c m, ex_fs !! s = Some (File c m)) /\
  (forall s d p, (s, d, p) ∈ items -> plain (ex_fs !! d)) /\
  (forall s d p s' d' p', (s, d, p) ∈ items -> (s', d', p') ∈ items -> s <> d').
Proof.
  intros items.
  assert (forall s d p, (s, d, p) ∈ items -> s = text "/src/a" /\ (d = text "/bin/a" \/ d = text "/bin/b") /\ p = None) as H.
  { intros s d p [[= -> -> ->]|[[= -> -> ->]|Hn%elem_of_nil]%elem_of_cons]%elem_of_cons; [auto|auto|done]. }
  split_and!.
  - intros s d p Hi. apply (H s d p Hi).
  - apply (bool_decide_unpack _). vm_compute. exact I.
  - intros s d p Hi. destruct (H s d p Hi) as (-> & _). exists 1%N, 420%N. reflexivity.
  - intros s d p Hi. destruct (H s d p Hi) as (_ & [->| ->] & _); left; reflexivity.
  - intros s d p s' d' p' Hi Hi'. destruct (H s d p Hi) as (-> & _).
    destruct (H s' d' p' Hi') as (_ & [->| ->] & _); discriminate.
Qed.

Print Assumptions C49_link.
Print Assumptions C49_link_refuted.
Print Assumptions C49_link_circle_refuted.
Print Assumptions C49_link_perms.
Print Assumptions C48_below_refuted.
Print Assumptions C48_below_refuted_prefix.
Print Assumptions C48_below_refuted_rename.
Print Assumptions C48_below_refuted_dotdot.
Print Assumptions C48_below_partial.
Print Assumptions C49_target_refuted.
Print Assumptions C49_source_refuted.
Print Assumptions C49_exact.
Print Assumptions C49_source_partial.
Print Assumptions C49_all_partial.
