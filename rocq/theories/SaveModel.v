(** Model of how the pickle database is loaded and saved: lib/fbuild/db/pickle_backend.py
    and Backend.connect (lib/fbuild/db/backend.py 27-34), one file-system operation at a
    time, so that the process may die between any two of them.
    Simplifications: an operation is done or not done when the process dies (the machine
    itself does not crash, nothing is lost by the operating system), operations do not fail,
    and only this process uses the files.  *)
From Coq Require Import List Bool Arith.
Import ListNotations.

Notation bytes := (list nat) (only parsing).
Notation version := nat (only parsing).

(** The files named path, path.tmp and path.old (60-62). *)
Record files := Files { f_path : option bytes; f_tmp : option bytes; f_old : option bytes }.

Inductive fop :=
  | Open             (* 64: created or truncated *)
  | Write (b : nat)  (* 65: the data reach the file byte by byte *)
  | MoveOld          (* 67-68; replaces path.old *)
  | MoveNew          (* 70 *)
  | DropOld          (* 72-73 *)
  | Remove.          (* backend.py 33 *)
Definition do_op (f : files) (o : fop) : files :=
  match o with
  | Open => Files (f_path f) (Some []) (f_old f)
  | Write b => Files (f_path f) (match f_tmp f with Some l => Some (l ++ [b]) | None => None end) (f_old f)
  | MoveOld => match f_path f with Some l => Files None (f_tmp f) (Some l) | None => f end
  | MoveNew => Files (f_tmp f) None (f_old f)
  | DropOld => Files (f_path f) (f_tmp f) None
  | Remove => Files None (f_tmp f) (f_old f)
  end.
Definition do_ops (f : files) (l : list fop) : files := fold_left do_op l f.
(** 64-73 *)
Definition save_ops (s : bytes) : list fop := Open :: map Write s ++ [MoveOld; MoveNew; DropOld].

Section Save.
  Context {T : Type}.                                  (* the six tables *)
  Context (empty : T).                                 (* cache_backend.py 13-19 *)
  Context (pickle : version -> T -> bytes).            (* 42-54 *)
  (** 19-34, by a program of a given version: the version and the tables found, or that of the
      AttributeError (22), or another exception. *)
  Inductive unpickled := Loaded (v : version) (t : T) | Moved | Fails.
  Context (unpickle : version -> bytes -> unpickled).

  (** _connect, 12-36, by a program of version [v] *)
  Definition load (v : version) (f : files) : unpickled :=
    match f_path f with
    | None => Loaded v empty
    | Some s => match unpickle v s with Moved => Loaded v empty | r => r end
    end.
  (** What connect does to the files: backend.py 30-33.  [close] stamps the old tables with
      the version of the program (46). *)
  Definition connect_ops (v : version) (f : files) : list fop :=
    match load v f with
    | Loaded v' t => if Nat.eqb v' v then [] else save_ops (pickle v t) ++ [Remove]
    | _ => []
    end.
  (** connect, backend.py 27-34: the files and the tables in memory afterwards. *)
  Definition connect (v : version) (f : files) : files * option T :=
    let f' := do_ops f (connect_ops v f) in
    (f', match load v f with
         | Loaded v' t => if Nat.eqb v' v then Some t
                          else match load v f' with Loaded _ t' => Some t' | _ => None end
         | _ => None
         end).

  (** What happens to the files over time.  [Run v t c]: a program of version [v] connects and
      saves the tables [t]; it dies after [k] operations of saving if [c = Some k].
      [Die v]: it dies without saving.  [DieConnecting v k]: it dies after [k] operations
      of connecting. *)
  Inductive event := Run (v : version) (t : T) (c : option nat) | Die (v : version) | DieConnecting (v : version) (k : nat).
  Definition happen (f : files) (e : event) : files :=
    match e with
    | Run v t c =>
        match connect v f with
        | (f', Some _) => do_ops f' (match c with Some k => firstn k (save_ops (pickle v t)) | None => save_ops (pickle v t) end)
        | (f', None) => f'
        end
    | Die v => fst (connect v f)
    | DieConnecting v k => do_ops f (firstn k (connect_ops v f))
    end.
  Definition history (l : list event) : files := fold_left happen l (Files None None None).
End Save.
Arguments unpickled T : clear implicits.
Arguments event T : clear implicits.
