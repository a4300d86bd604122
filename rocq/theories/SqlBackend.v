(** Model of lib/fbuild/db/sqlite_backend.py (class SqliteBackend) as an instance of the
    generic backend of DbModel.v.
    The tables of lines 70-131 are finite maps and lists of rows.  SQLite checks FOREIGN KEY
    and UNIQUE constraints at the end of each statement (IntegrityError), deletes cascade
    (PRAGMA foreign_keys = ON), AUTOINCREMENT ids are not reused, except that a rollback also
    restores the counters, and [with self.conn] (135-137) commits, or rolls back everything
    since the last commit when an exception leaves it.
    Simplifications: pickling (223-270) is the identity and does not fail, rows of the
    indexed tables Function and File are found by their unique names. *)
From stdpp Require Import base list strings gmap.
From Coq Require Import ZArith Ascii.
From Verif Require Import PyMonad DbModel.

(** '\0'.join(fun_dependents), line 171 *)
Definition nul : ascii := Ascii.zero.
Fixpoint join0 (l : list string) : string :=
  match l with
  | [] => EmptyString
  | [x] => x
  | x :: l' => x +:+ String nul (join0 l')
  end.
(** s.split('\0') *)
Fixpoint split0 (s : string) : list string :=
  match s with
  | EmptyString => [EmptyString]
  | String c s' =>
      if Ascii.eqb c nul then EmptyString :: split0 s'
      else match split0 s' with
           | x :: l => String c x :: l
           | [] => [String c EmptyString]
           end
  end.
(** lines 157-160 *)
Definition decode (s : string) : list string :=
  match s with EmptyString => [] | _ => split0 s end.

Section SqlBackend.
  Context {V R : Type}.
  Context (veq : V -> V -> bool).     (* [bound == old_bound], line 289 *)
  Context (md5 : content -> digest).

  Record sq := Sq {
    q_funs : gmap name (nat * digest * string);      (* Function: by fun_name (UNIQUE); fun_id, digest, dependents *)
    q_calls : list (nat * nat * V * R);              (* Call: call_id, fun_id, bound, result, by ascending call_id *)
    q_files : gmap name (nat * Z * digest);          (* File: by file_name (UNIQUE); file_id, mtime, digest *)
    q_cf : gmap (nat * nat) digest;                  (* CallFile: (call_id, file_id) *)
    q_xs : gset (nat * nat);                         (* ExternalSrc *)
    q_xd : gset (nat * nat);                         (* ExternalDst *)
    q_nfun : nat; q_ncall : nat; q_nfile : nat       (* sqlite_sequence *)
  }.
  Definition sq_empty : sq := Sq ∅ [] ∅ ∅ ∅ ∅ 1 1 1.

  (** The open connection, the last committed content of the file, and whether that has a row
      in table Version. *)
  Record conn := Conn { k_cur : sq; k_base : sq; k_version : bool }.
  Definition conn_empty : conn := Conn sq_empty sq_empty false.

  Definition on_cur {A} (m : M sq A) : M conn A :=
    fun s => let '(r, q) := m (k_cur s) in (r, Conn q (k_base s) (k_version s)).

  Definition call_id (x : nat * nat * V * R) : nat := x.1.1.1.
  Definition call_fun (x : nat * nat * V * R) : nat := x.1.1.2.
  Definition has_fun (q : sq) (i : nat) : bool :=
    existsb (fun x : name * (nat * digest * string) => Nat.eqb x.2.1.1 i) (map_to_list (q_funs q)).
  Definition has_call (q : sq) (i : nat) : bool := existsb (fun x => Nat.eqb (call_id x) i) (q_calls q).
  Definition has_file (q : sq) (i : nat) : bool :=
    existsb (fun x : name * (nat * Z * digest) => Nat.eqb x.2.1.1 i) (map_to_list (q_files q)).

  (** 141-161 *)
  Definition s_find_function (fn : name) : M sq (option nat * option digest * list name) :=
    fun q => (inr match q_funs q !! fn with
                  | None => (None, None, [])
                  | Some (i, d, deps) => (Some i, Some d, decode deps)
                  end, q).

  (** 164-185; UPDATE (180-183) is never reached, since Backend.cache passes None. *)
  Definition s_save_function (_ : option nat) (fn : name) (d : digest) (deps : list name) : M sq nat :=
    fun q => match q_funs q !! fn with
             | Some _ => (inl IntegrityErr, q)                                  (* UNIQUE *)
             | None => (inr (q_nfun q),
                        Sq (<[fn := (q_nfun q, d, join0 deps)]> (q_funs q)) (q_calls q) (q_files q) (q_cf q)
                           (q_xs q) (q_xd q) (S (q_nfun q)) (q_ncall q) (q_nfile q))
             end.

  (** Rows about calls satisfying [dead] disappear (ON DELETE CASCADE). *)
  Definition drop_calls (dead : nat -> bool) (q : sq) : sq :=
    Sq (q_funs q) (filter (fun x => dead (call_id x) = false) (q_calls q)) (q_files q)
       (filter (fun x : nat * nat * digest => dead x.1.1 = false) (q_cf q))
       (filter (fun x : nat * nat => dead x.1 = false) (q_xs q))
       (filter (fun x : nat * nat => dead x.1 = false) (q_xd q))
       (q_nfun q) (q_ncall q) (q_nfile q).

  (** 188-219.  The loop 196-215 executes its deletions on the cursor it iterates over, which
      ends the iteration after the first call; the deletion of the function (217) cascades to
      all of them anyway.  Returns None. *)
  Definition s_delete_function (fn : name) : M sq bool :=
    fun q => (inr false,
              match q_funs q !! fn with
              | None => q
              | Some (i, _, _) =>
                  let q' := drop_calls (fun c => existsb (fun x => Nat.eqb (call_id x) c && Nat.eqb (call_fun x) i) (q_calls q)) q in
                  Sq (delete fn (q_funs q')) (q_calls q') (q_files q') (q_cf q') (q_xs q') (q_xd q')
                     (q_nfun q') (q_ncall q') (q_nfile q')
              end).

  (** 273-295 *)
  Fixpoint search_row (fid : nat) (bound : V) (l : list (nat * nat * V * R)) : option (nat * R) :=
    match l with
    | [] => None
    | (c, i, ob, r) :: l' => if (Nat.eqb i fid && veq bound ob)%bool then Some (c, r) else search_row fid bound l'
    end.
  Definition s_find_call (fid : nat) (bound : V) : M sq (bool * option nat * option R) :=
    fun q => (inr match search_row fid bound (q_calls q) with
                  | Some (c, r) => (false, Some c, Some r)
                  | None => (true, None, None)
                  end, q).

  (** 298-326 *)
  Definition s_save_call (cid : option nat) (fid : nat) (bound : V) (r : R) : M sq nat :=
    fun q => match cid with
             | None =>
                 if has_fun q fid then
                   (inr (q_ncall q),
                    Sq (q_funs q) (q_calls q ++ [(q_ncall q, fid, bound, r)]) (q_files q) (q_cf q)
                       (q_xs q) (q_xd q) (q_nfun q) (S (q_ncall q)) (q_nfile q))
                 else (inl IntegrityErr, q)                                       (* FOREIGN KEY *)
             | Some c =>
                 (inr c, Sq (q_funs q)
                            ((fun x => if Nat.eqb (call_id x) c then (x.1.1, x.1.2, r) else x) <$> q_calls q)
                            (q_files q) (q_cf q) (q_xs q) (q_xd q) (q_nfun q) (q_ncall q) (q_nfile q))
             end.

  (** 330-351 *)
  Definition s_find_call_file (c f : nat) : M sq (option digest) := fun q => (inr (q_cf q !! (c, f)), q).

  (** 354-365 *)
  Definition s_save_call_file (c f : nat) (d : digest) : M sq unit :=
    fun q => if (has_call q c && has_file q f)%bool then
               (inr tt, Sq (q_funs q) (q_calls q) (q_files q) (<[(c, f) := d]> (q_cf q))
                           (q_xs q) (q_xd q) (q_nfun q) (q_ncall q) (q_nfile q))
             else (inl IntegrityErr, q).                                          (* FOREIGN KEY *)

  (** 369-400 *)
  Definition names_of (q : sq) (x : gset (nat * nat)) (c : nat) : list name :=
    (filter (fun y : name * (nat * Z * digest) => (c, y.2.1.1) ∈ x) (map_to_list (q_files q))).*1.
  Definition s_find_xsrcs (c : nat) : M sq (list name) := fun q => (inr (names_of q (q_xs q) c), q).
  Definition s_find_xdsts (c : nat) : M sq (list name) := fun q => (inr (names_of q (q_xd q) c), q).

  (** 458-475 *)
  Definition s_find_file (f : name) : M sq (option nat * option Z * option digest) :=
    fun q => (inr match q_files q !! f with
                  | None => (None, None, None)
                  | Some (i, m, d) => (Some i, Some m, Some d)
                  end, q).

  (** 478-498.  With an id the row of that id is updated; add_file passes the id and the name
      of one row. *)
  Definition s_save_file (fid : option nat) (f : name) (m : Z) (d : digest) : M sq nat :=
    fun q => match fid with
             | None =>
                 match q_files q !! f with
                 | Some _ => (inl IntegrityErr, q)                                (* UNIQUE *)
                 | None => (inr (q_nfile q),
                            Sq (q_funs q) (q_calls q) (<[f := (q_nfile q, m, d)]> (q_files q)) (q_cf q)
                               (q_xs q) (q_xd q) (q_nfun q) (q_ncall q) (S (q_nfile q)))
                 end
             | Some i =>
                 (inr i, match q_files q !! f with
                         | Some (j, _, _) =>
                             if Nat.eqb i j then
                               Sq (q_funs q) (q_calls q) (<[f := (i, m, d)]> (q_files q)) (q_cf q)
                                  (q_xs q) (q_xd q) (q_nfun q) (q_ncall q) (q_nfile q)
                             else q
                         | None => q
                         end)
             end.

  (** 501-529: also the rows of other calls in ExternalSrc and ExternalDst.  Returns None. *)
  Definition s_delete_file (f : name) : M sq bool :=
    fun q => (inr false,
              match q_files q !! f with
              | None => q
              | Some (i, _, _) =>
                  Sq (q_funs q) (q_calls q) (delete f (q_files q))
                     (filter (fun x : nat * nat * digest => x.1.2 <> i) (q_cf q))
                     (filter (fun x : nat * nat => x.2 <> i) (q_xs q))
                     (filter (fun x : nat * nat => x.2 <> i) (q_xd q))
                     (q_nfun q) (q_ncall q) (q_nfile q)
              end).

  Definition sql_core0 : core V R sq nat nat nat :=
    Core s_find_function s_save_function s_delete_function s_find_call s_save_call
         s_find_call_file s_save_call_file s_find_xsrcs s_find_xdsts
         s_find_file s_save_file s_delete_file.

  (** [self.check_call_file(call_id, src) for src in srcs], lines 427-428 and 447-448 *)
  Fixpoint check_all (e : env) (c : nat) (fs : list name) : M sq (list (bool * nat * digest)) :=
    match fs with
    | [] => ret []
    | f :: fs' =>
        let* x := check_call_file md5 sql_core0 e (Some c) f in
        let* rest := check_all e c fs' in
        ret (x :: rest)
    end.

  (** INSERT INTO ExternalSrc / ExternalDst, 430-433 and 450-453 *)
  Fixpoint insert_ext (src : bool) (c : nat) (l : list nat) : M sq unit :=
    match l with
    | [] => ret tt
    | f :: l' =>
        let* _ := (fun q =>
          if (has_call q c && has_file q f)%bool then
            (inr tt, Sq (q_funs q) (q_calls q) (q_files q) (q_cf q)
                        (if src then {[(c, f)]} ∪ q_xs q else q_xs q)
                        (if src then q_xd q else {[(c, f)]} ∪ q_xd q)
                        (q_nfun q) (q_ncall q) (q_nfile q))
          else (inl IntegrityErr, q)) in
        insert_ext src c l'
    end.

  (** 436-440 *)
  Fixpoint insert_files (c : nat) (l : list (bool * nat * digest)) : M sq unit :=
    match l with
    | [] => ret tt
    | (b, f, d) :: l' =>
        let* _ := if b : bool then s_save_call_file c f d else ret tt in
        insert_files c l'
    end.

  (** 403-453; Python's sets have no duplicates. *)
  Definition s_save_external (e : env) (c : nat) (srcs dsts : list name) : M sq unit :=
    let* _ := modify (fun q =>
                Sq (q_funs q) (q_calls q) (q_files q) (q_cf q)
                   (filter (fun x : nat * nat => x.1 <> c) (q_xs q))
                   (filter (fun x : nat * nat => x.1 <> c) (q_xd q))
                   (q_nfun q) (q_ncall q) (q_nfile q)) in
    let* ss := check_all e c (remove_dups srcs) in
    let* _ := insert_ext true c (map (fun x : bool * nat * digest => x.1.2) ss) in
    let* _ := insert_files c ss in
    let* ds := check_all e c (remove_dups dsts) in
    insert_ext false c (map (fun x : bool * nat * digest => x.1.2) (filter (fun x : bool * nat * digest => x.1.1 = true) ds)).

  Definition sql_core : core V R conn nat nat nat :=
    Core (fun a => on_cur (s_find_function a))
         (fun a b c d => on_cur (s_save_function a b c d))
         (fun a => on_cur (s_delete_function a))
         (fun a b => on_cur (s_find_call a b))
         (fun a b c d => on_cur (s_save_call a b c d))
         (fun a b => on_cur (s_find_call_file a b))
         (fun a b c => on_cur (s_save_call_file a b c))
         (fun a => on_cur (s_find_xsrcs a))
         (fun a => on_cur (s_find_xdsts a))
         (fun a => on_cur (s_find_file a))
         (fun a b c d => on_cur (s_save_file a b c d))
         (fun a => on_cur (s_delete_file a)).

  (** 135-137: commit, or roll back to the last commit. *)
  Definition transaction (m : M conn unit) : M conn unit :=
    fun s => match m s with
             | (inr u, s') => (inr u, Conn (k_cur s') (k_cur s') (k_version s'))
             | (inl x, s') => (inl x, Conn (k_base s') (k_base s') (k_version s'))
             end.

  (** close (56-67) adds the version and commits.  A new process finds what was committed, and
      starts afresh when there is no version (40-54 and backend.py 27-34). *)
  Definition sql_backend : backend V R conn nat nat nat :=
    Backend sql_core
            (fun e c s d => on_cur (s_save_external e c s d))
            transaction
            (fun k => Conn (k_cur k) (k_cur k) true)
            (fun k => if k_version k then Conn (k_base k) (k_base k) true else conn_empty).
End SqlBackend.

Arguments sq V R : clear implicits.
Arguments conn V R : clear implicits.
