(** Programs and libraries made of several sources: model of build_lib, build_exe and _build_link of
    lib/fbuild/builders/c/__init__.py (124-168), with build_objects of builders/__init__.py (140-165)
    and the compiler and the linkers of builders/c/gcc/__init__.py (GccModel), several of them at a
    time and again and again.

    Places of files are those of TryModel.  Commands read their input when they start and change
    their product when they end, other threads work in between; when one fails there is no product.
    What a command makes is decided by its arguments and by the contents of the files it is given;
    headers and libraries are the same all the time.  Calls of compile and of link_lib and link_exe
    may be answered from the database: if the contents of the source, or of the objects, are those
    recorded when the call last succeeded and the product exists (C76, C85).  That build_objects is
    itself a cached call adds nothing to this, as it is answered only if all its calls of compile
    could be (C76).  Killed processes are not modelled.  A platform option that is merged into the
    arguments (platform.auto_platform_options) is taken to be part of them. *)
From Coq Require Import List NArith Bool Arith.
From Verif Require Import FnModel PathModel LinkModel GccModel TryModel.
Import ListNotations.
Open Scope N_scope.

(** A call of build_lib or build_exe of a builder, 136-150.  [b_cflags], [b_osuffix]: of its Compiler;
    [b_static]: the product is made by Ar, not by a Linker; [b_lflags], [b_prefix], [b_lsuffix]: of
    the Ar or Linker.  The fields of [b_ckw] and [b_lkw] that
    are also passed on by name are not used: giving them twice is an error.  [b_cc]: the object made
    of a source by a command, if it succeeds; [b_ld]: the product made by a command from what was in its
    place and from the objects.  A missing file is None. *)
Record build := Build {
  b_gcc : gcc; b_cflags : list str; b_osuffix : str;
  b_static : bool; b_lflags : list str; b_prefix : str; b_lsuffix : str;
  b_dst : str; b_srcs : list str; b_objs : list str;
  b_includes : list str; b_macros : list str; b_warnings : list str; b_cf : list str; b_ckw : options; b_dirs : bool;
  b_libs : list lib; b_externals : list str; b_lf : list str; b_ldlibs : list str; b_lkw : options;
  b_cc : list str -> option str -> option str;
  b_ld : list str -> option str -> list (option str) -> option str }.

(** 152-155 and **ckwargs *)
Definition copts (b : build) : options :=
  let k := b_ckw b in
  Options (o_pre_flags k) (b_cf b) (b_includes b) (b_macros b) (b_warnings b) (o_libpaths k) (o_libs k) (o_ldlibs k)
    (o_externals k) (o_debug k) (o_profile k) (o_optimize k) (o_arch k) (o_machine k).
(** 162-166 and **lkwargs *)
Definition lopts (b : build) : options :=
  let k := b_lkw b in
  Options (o_pre_flags k) (b_lf b) (o_includes k) (o_macros k) (o_warnings k) (o_libpaths k) (b_libs b) (b_ldlibs b)
    (b_externals b) (o_debug k) (o_profile k) (o_optimize k) (o_arch k) (o_machine k).

Section Builds.
  Context (cwd root dep : str).
  Definition s_obj : str := [111; 98; 106].                      (* obj *)
  (** 157: self.ctx.buildroot / 'obj' / dst *)
  Definition obj_root (b : build) : str := pjoin (pjoin root s_obj) (b_dst b).
  (** One call of compile by build_objects, builders/__init__.py:154-156: the command and the object.
      [dep]: the file for the dependencies. *)
  Definition compiled (b : build) (src : str) : list str * str :=
    compile (b_gcc b) (b_cflags b) (b_osuffix b) (obj_root b) dep src None (copts b) (b_dirs b).
  (** 151 *)
  Definition objects (b : build) : list str := b_objs b ++ map (fun src => snd (compiled b src)) (b_srcs b).
  (** 161-166; include_source_dirs is not passed on to the linker, whose default is True.  Ar uses only
      the flags (gcc/__init__.py:69-75). *)
  Definition linked (b : build) : list str * str :=
    if b_static b then ar (b_lflags b) (b_lf b) (b_prefix b) (b_lsuffix b) root (b_dst b) (objects b)
    else linker (b_gcc b) (b_lflags b) (b_prefix b) (b_lsuffix b) root (b_dst b) (objects b) (lopts b) true.

  (** The places of the sources, their objects, everything linked, and the product. *)
  Definition src_at (b : build) (i : nat) : str := nth i (b_srcs b) [].
  Definition srcp (b : build) (i : nat) : loc := place cwd (src_at b i).
  Definition objp (b : build) (i : nat) : loc := place cwd (snd (compiled b (src_at b i))).
  Definition prodp (b : build) : loc := place cwd (snd (linked b)).
  Definition made (b : build) (i : nat) (c : option str) : option str := b_cc b (fst (compiled b (src_at b i))) c.
  Definition bound (b : build) (old : option str) (ins : list (option str)) : option str := b_ld b (fst (linked b)) old ins.

  Definition files := loc -> option str.
  Definition parts (b : build) (f : files) : list (option str) := map (fun o => f (place cwd o)) (objects b).

  (** What one compilation is doing: [CRun c]: the command runs, having read [c].  And the linking. *)
  Inductive cstat := CWait | CRun (c : option str) | CDone | CFail.
  Inductive lstat := LWait | LRun (old : option str) (ins : list (option str)) | LDone | LFail.
  (** A call: whether it is running, its compilations and linking, and what the database knows. *)
  Record bst := Bst { on : bool; cs : nat -> cstat; ls : lstat;
    crec : nat -> option (option str); lrec : option (list (option str)) }.
  Record ostate := OState { fs : files; sts : nat -> bst }.
  Inductive olabel :=
  | OBuild (n : nat) | OCompile (n i : nat) | OCompiled (n i : nat) | OAnswer (n i : nat)
  | OLink (n : nat) | OLinked (n : nat) | OLinkAnswer (n : nat) | OReturn (n : nat)
  | OOther (l : loc) (c : option str).

  Definition upd {A} (f : nat -> A) (n : nat) (x : A) : nat -> A := fun m => if Nat.eqb m n then x else f m.
  Definition contents_eqb (a b : option str) : bool :=
    match a, b with Some x, Some y => str_eqb x y | None, None => true | _, _ => false end.
  Fixpoint all_eqb (a b : list (option str)) : bool :=
    match a, b with
    | [], [] => true
    | x :: a', y :: b' => contents_eqb x y && all_eqb a' b'
    | _, _ => false
    end.
  Definition is_done (c : cstat) : bool := match c with CDone => true | _ => false end.
  Definition is_run (c : cstat) : bool := match c with CRun _ => true | _ => false end.
  Definition is_fail (c : cstat) : bool := match c with CFail => true | _ => false end.
  Definition each (b : build) : list nat := seq 0 (length (b_srcs b)).

  Definition set_c (t : bst) (i : nat) (c : cstat) : bst := Bst (on t) (upd (cs t) i c) (ls t) (crec t) (lrec t).
  Definition set_l (t : bst) (l : lstat) : bst := Bst (on t) (cs t) l (crec t) (lrec t).
  Definition rec_c (t : bst) (i : nat) (c : option str) : bst := Bst (on t) (cs t) (ls t) (upd (crec t) i (Some c)) (lrec t).
  Definition rec_l (t : bst) (ins : list (option str)) : bst := Bst (on t) (cs t) (ls t) (crec t) (Some ins).

  (** One step of a call.  Linking begins after all sources are compiled (154-160); a call that failed
      ends with an exception when its threads are done. *)
  Definition advance_b (b : build) (f : files) (t : bst) (a : olabel) : option (files * bst) :=
    match a with
    | OBuild _ => if on t then None else Some (f, Bst true (fun _ => CWait) LWait (crec t) (lrec t))
    | OCompile _ i =>
        match cs t i with
        | CWait => if on t && Nat.ltb i (length (b_srcs b)) then Some (f, set_c t i (CRun (f (srcp b i)))) else None
        | _ => None
        end
    | OCompiled _ i =>
        match cs t i with
        | CRun c =>
            if on t && Nat.ltb i (length (b_srcs b)) then
              let r := made b i c in
              Some (put f (objp b i) r, match r with Some _ => rec_c (set_c t i CDone) i c | None => set_c t i CFail end)
            else None
        | _ => None
        end
    | OAnswer _ i =>
        match cs t i, crec t i, f (objp b i) with
        | CWait, Some c, Some _ =>
            if on t && Nat.ltb i (length (b_srcs b)) && contents_eqb c (f (srcp b i)) then Some (f, set_c t i CDone) else None
        | _, _, _ => None
        end
    | OLink _ =>
        match ls t with
        | LWait => if on t && forallb (fun i => is_done (cs t i)) (each b)
                   then Some (f, set_l t (LRun (f (prodp b)) (parts b f))) else None
        | _ => None
        end
    | OLinked _ =>
        match ls t with
        | LRun old ins =>
            if on t then
              let r := bound b old ins in
              Some (put f (prodp b) r, match r with Some _ => rec_l (set_l t LDone) ins | None => set_l t LFail end)
            else None
        | _ => None
        end
    | OLinkAnswer _ =>
        match ls t, lrec t, f (prodp b) with
        | LWait, Some ins, Some _ =>
            if on t && forallb (fun i => is_done (cs t i)) (each b) && all_eqb ins (parts b f)
            then Some (f, set_l t LDone) else None
        | _, _, _ => None
        end
    | OReturn _ =>
        if on t && (match ls t with LDone | LFail => true | LRun _ _ => false
                    | LWait => existsb (fun i => is_fail (cs t i)) (each b) && negb (existsb (fun i => is_run (cs t i)) (each b)) end)
        then Some (f, Bst false (cs t) (ls t) (crec t) (lrec t)) else None
    | OOther _ _ => None
    end.

  Context (bs : list build).
  Definition inputs (b : build) : list loc := map (place cwd) (b_srcs b) ++ map (place cwd) (b_objs b).
  (** Others may change the sources and given objects of calls that are not running, may remove products
      and anything below the directory for objects while no call is running, and may do anything to
      other files. *)
  Definition others_may (s : ostate) (l : loc) (c : option str) : bool :=
    let ns := seq 0 (length bs) in
    forallb (fun nb => negb (on (sts s (fst nb)) && existsb (loc_eqb l) (inputs (snd nb)))) (combine ns bs) &&
    (if starts l (place cwd root ++ [s_obj]) || existsb (fun b => loc_eqb l (prodp b)) bs
     then match c with None => true | Some _ => false end && forallb (fun n => negb (on (sts s n))) ns
     else true).
  Definition who (a : olabel) : nat :=
    match a with
    | OBuild n | OCompile n _ | OCompiled n _ | OAnswer n _ | OLink n | OLinked n | OLinkAnswer n | OReturn n => n
    | OOther _ _ => 0%nat
    end.
  Definition ostep (s : ostate) (a : olabel) : option ostate :=
    match a with
    | OOther l c => if others_may s l c then Some (OState (put (fs s) l c) (sts s)) else None
    | _ =>
        match nth_error bs (who a) with
        | Some b =>
            match advance_b b (fs s) (sts s (who a)) a with
            | Some (f, t) => Some (OState f (upd (sts s) (who a) t))
            | None => None
            end
        | None => None
        end
    end.
  Fixpoint osteps (s : ostate) (l : list olabel) : option ostate :=
    match l with
    | [] => Some s
    | a :: l' => match ostep s a with Some s' => osteps s' l' | None => None end
    end.
  Definition oinit (f : files) : ostate := OState f (fun _ => Bst false (fun _ => CWait) LWait (fun _ => None) None).
End Builds.
