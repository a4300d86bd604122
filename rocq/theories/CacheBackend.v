(** Model of lib/fbuild/db/cache_backend.py (class CacheBackend) together with
    the persistence of lib/fbuild/db/pickle_backend.py seen at the level of whole
    databases ([p_disk] is the database a new process would load; the file
    protocol itself is modelled in PickleStore.v). *)
From stdpp Require Import base list strings gmap.
From Coq Require Import ZArith.
From Verif Require Import PyMonad DbModel.

Section CacheBackend.
  Context {V R : Type}.
  Context (veq : V -> V -> bool).     (* [bound == old_bound], cache_backend.py:152 *)
  Context (md5 : content -> digest).

  (** The six dictionaries, cache_backend.py:14-19. *)
  Record cdb := Cdb {
    c_functions : gmap name (digest * list name);
    c_calls : gmap name (list (V * R));
    c_files : gmap name (Z * digest);
    c_callfiles : gmap name (gmap name (gmap nat digest));
    c_xsrcs : gmap name (gmap nat (list name));
    c_xdsts : gmap name (gmap nat (list name))
  }.

  Definition cdb_empty : cdb := Cdb ∅ ∅ ∅ ∅ ∅ ∅.

  (** In-memory dictionaries and the last database written to disk. *)
  Record pdb := Pdb { p_mem : cdb; p_disk : cdb }.

  Definition pdb_empty : pdb := Pdb cdb_empty cdb_empty.

  Definition on_mem {A} (m : M cdb A) : M pdb A :=
    fun s => let '(r, c) := m (p_mem s) in (r, Pdb c (p_disk s)).

  (** cache_backend.py:33-50 *)
  Definition c_find_function (fn : name) : M cdb (option name * option digest * list name) :=
    fun c => (inr match c_functions c !! fn with
                  | None => (None, None, [])
                  | Some (d, deps) => (Some fn, Some d, deps)
                  end, c).

  (** cache_backend.py:53-67 *)
  Definition c_save_function (_ : option name) (fn : name) (d : digest) (deps : list name)
    : M cdb name :=
    fun c => (inr fn, Cdb (<[fn := (d, deps)]> (c_functions c)) (c_calls c) (c_files c)
                          (c_callfiles c) (c_xsrcs c) (c_xdsts c)).

  (** Removal of a function from _call_files, cache_backend.py:111-130: entries
      that become empty are removed. *)
  Definition purge_callfiles (fn : name) (cf : gmap name (gmap name (gmap nat digest)))
    : gmap name (gmap name (gmap nat digest)) :=
    omap (fun v => let v' := delete fn v in
                   if decide (v' = ∅) then None else Some v') cf.

  (** Whether the loop of lines 111-130 found something to delete. *)
  Definition in_callfiles (fn : name) (cf : gmap name (gmap name (gmap nat digest))) : bool :=
    existsb (fun kv : name * gmap name (gmap nat digest) =>
               match snd kv !! fn with
               | Some _ => true
               | None => bool_decide (snd kv = ∅)
               end) (map_to_list cf).

  Definition isS {A} (o : option A) : bool := match o with Some _ => true | None => false end.

  (** cache_backend.py:70-132 *)
  Definition c_delete_function (fn : name) : M cdb bool :=
    fun c => (inr (isS (c_functions c !! fn) || isS (c_calls c !! fn) ||
                   isS (c_xsrcs c !! fn) || isS (c_xdsts c !! fn) ||
                   in_callfiles fn (c_callfiles c))%bool,
              Cdb (delete fn (c_functions c)) (delete fn (c_calls c)) (c_files c)
                  (purge_callfiles fn (c_callfiles c))
                  (delete fn (c_xsrcs c)) (delete fn (c_xdsts c))).

  (** The search loop, cache_backend.py:151-154. *)
  Fixpoint search_call (bound : V) (i : nat) (ds : list (V * R)) : option (nat * R) :=
    match ds with
    | [] => None
    | (ob, r) :: ds' => if veq bound ob then Some (i, r) else search_call bound (S i) ds'
    end.

  (** cache_backend.py:136-157; a call id is (function name, index). *)
  Definition c_find_call (fid : name) (bound : V)
    : M cdb (bool * option (name * nat) * option R) :=
    fun c => (inr match c_calls c !! fid with
                  | None => (true, None, None)
                  | Some ds => match search_call bound 0 ds with
                               | Some (i, r) => (false, Some (fid, i), Some r)
                               | None => (true, None, None)
                               end
                  end, c).

  Definition set_calls (c : cdb) (x : gmap name (list (V * R))) : cdb :=
    Cdb (c_functions c) x (c_files c) (c_callfiles c) (c_xsrcs c) (c_xdsts c).

  (** cache_backend.py:160-194; the assignment to a list element outside its range (line 192) raises
      IndexError. *)
  Definition c_save_call (cid : option (name * nat)) (fid : name) (bound : V) (r : R)
    : M cdb (name * nat) :=
    fun c => match c_calls c !! fid with
             | None => (inr (fid, 0), set_calls c (<[fid := [(bound, r)]]> (c_calls c)))
             | Some ds =>
                 match cid with
                 | None => (inr (fid, length ds),
                            set_calls c (<[fid := ds ++ [(bound, r)]]> (c_calls c)))
                 | Some (_, i) =>
                     if decide (i < length ds)
                     then (inr (fid, i), set_calls c (<[fid := <[i := (bound, r)]> ds]> (c_calls c)))
                     else (inl IndexErr, c)
                 end
             end.

  (** cache_backend.py:198-220 *)
  Definition callfile (cf : gmap name (gmap name (gmap nat digest))) (f fn : name) (i : nat)
    : option digest :=
    match cf !! f with
    | None => None
    | Some m => match m !! fn with
                | None => None
                | Some mm => mm !! i
                end
    end.

  Definition c_find_call_file (cid : name * nat) (f : name) : M cdb (option digest) :=
    fun c => (inr (callfile (c_callfiles c) f (fst cid) (snd cid)), c).

  (** cache_backend.py:223-237 *)
  Definition put_callfile (cf : gmap name (gmap name (gmap nat digest))) (f fn : name) (i : nat)
      (d : digest) : gmap name (gmap name (gmap nat digest)) :=
    let m := default ∅ (cf !! f) in
    let mm := default ∅ (m !! fn) in
    <[f := <[fn := <[i := d]> mm]> m]> cf.

  Definition c_save_call_file (cid : name * nat) (f : name) (d : digest) : M cdb unit :=
    fun c => (inr tt, Cdb (c_functions c) (c_calls c) (c_files c)
                          (put_callfile (c_callfiles c) f (fst cid) (snd cid) d)
                          (c_xsrcs c) (c_xdsts c)).

  Definition xfind (x : gmap name (gmap nat (list name))) (cid : name * nat) : list name :=
    match x !! fst cid with
    | None => []
    | Some m => default [] (m !! snd cid)
    end.

  (** cache_backend.py:241-274 *)
  Definition c_find_xsrcs (cid : name * nat) : M cdb (list name) :=
    fun c => (inr (xfind (c_xsrcs c) cid), c).
  Definition c_find_xdsts (cid : name * nat) : M cdb (list name) :=
    fun c => (inr (xfind (c_xdsts c) cid), c).

  (** cache_backend.py:306-320; the file name is always returned as id. *)
  Definition c_find_file (f : name) : M cdb (option name * option Z * option digest) :=
    fun c => (inr match c_files c !! f with
                  | None => (Some f, None, None)
                  | Some (m, d) => (Some f, Some m, Some d)
                  end, c).

  (** cache_backend.py:323-337 *)
  Definition c_save_file (_ : option name) (f : name) (m : Z) (d : digest) : M cdb name :=
    fun c => (inr f, Cdb (c_functions c) (c_calls c) (<[f := (m, d)]> (c_files c))
                         (c_callfiles c) (c_xsrcs c) (c_xdsts c)).

  (** cache_backend.py:340-362 *)
  Definition c_delete_file (f : name) : M cdb bool :=
    fun c => (inr (isS (c_files c !! f) || isS (c_callfiles c !! f))%bool,
              Cdb (c_functions c) (c_calls c) (delete f (c_files c))
                  (delete f (c_callfiles c)) (c_xsrcs c) (c_xdsts c)).

  Definition cache_core0 : core V R cdb name (name * nat) name :=
    Core c_find_function c_save_function c_delete_function c_find_call c_save_call
         c_find_call_file c_save_call_file c_find_xsrcs c_find_xdsts
         c_find_file c_save_file c_delete_file.

  Definition xput (x : gmap name (gmap nat (list name))) (cid : name * nat) (l : list name)
    : gmap name (gmap nat (list name)) :=
    <[fst cid := <[snd cid := l]> (default ∅ (x !! fst cid))]> x.

  (** The loop of save_external_files, cache_backend.py:297-300. *)
  Fixpoint c_add_files (e : env) (fs : list name) : M cdb (list (name * name * digest)) :=
    match fs with
    | [] => ret []
    | f :: fs' =>
        let* (_, fid, d) := add_file md5 cache_core0 e f in
        let* rest := c_add_files e fs' in
        ret ((fid, f, d) :: rest)
    end.

  (** cache_backend.py:277-302 *)
  Definition c_save_external (e : env) (cid : name * nat) (srcs dsts : list name) : M cdb unit :=
    let* _ := modify (fun c =>
                Cdb (c_functions c) (c_calls c) (c_files c) (c_callfiles c)
                    (xput (c_xsrcs c) cid srcs) (xput (c_xdsts c) cid dsts)) in
    let* ds := c_add_files e srcs in
    save_call_files cache_core0 cid ds.

  Definition cache_core : core V R pdb name (name * nat) name :=
    Core (fun a => on_mem (c_find_function a))
         (fun a b c d => on_mem (c_save_function a b c d))
         (fun a => on_mem (c_delete_function a))
         (fun a b => on_mem (c_find_call a b))
         (fun a b c d => on_mem (c_save_call a b c d))
         (fun a b => on_mem (c_find_call_file a b))
         (fun a b c => on_mem (c_save_call_file a b c))
         (fun a => on_mem (c_find_xsrcs a))
         (fun a => on_mem (c_find_xdsts a))
         (fun a => on_mem (c_find_file a))
         (fun a b c d => on_mem (c_save_file a b c d))
         (fun a => on_mem (c_delete_file a)).

  (** The pickle engine: saving writes the whole database; a restart loads the
      last one saved. *)
  Definition cache_backend : backend V R pdb name (name * nat) name :=
    Backend cache_core
            (fun e cid s d => on_mem (c_save_external e cid s d))
            (fun m => m)
            (fun p => Pdb (p_mem p) (p_mem p))
            (fun p => Pdb (p_disk p) (p_disk p)).
End CacheBackend.

Arguments cdb V R : clear implicits.
Arguments pdb V R : clear implicits.
