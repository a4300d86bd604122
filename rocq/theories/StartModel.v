(** Model of what a build does with files before it runs: Context.__init__ (context.py:32-61, the places of the
    files), create_buildroot (67-79), load_configuration (81-88) and clear_temp_dir (101-102), and of the cleaning in
    main.py:180-185; shutil.rmtree and os.remove on the trees of [CopyModel].  There are no links and permissions;
    what is left behind by an operation that fails is not modelled (None), nor the removal of the current directory. *)
From stdpp Require Import base list gmap.
From Coq Require Import NArith.
From Verif Require Import FnModel PathModel PathSpec CopyModel.

(** *** The places of files *)
Inductive engine := Pickle | CacheEngine | Sqlite.
Record options := Options {
  o_buildroot : str;
  o_state : option str;      (* --state-file *)
  o_engine : engine;         (* --database-engine *)
  o_log : str;               (* --log-file *)
  o_rebuild : bool;          (* --rebuild *)
  o_configure : bool         (* --configure *)
}.
(** "fbuild-state.db", "fbuild-state.sqldb" and ".tmp" *)
Definition t_db : str := [102; 98; 117; 105; 108; 100; 45; 115; 116; 97; 116; 101; 46; 100; 98]%N.
Definition t_sqldb : str := [102; 98; 117; 105; 108; 100; 45; 115; 116; 97; 116; 101; 46; 115; 113; 108; 100; 98]%N.
Definition t_tmp : str := [46; 116; 109; 112]%N.
(** context.py:21-25 *)
Definition state_default (e : engine) : str := match e with Pickle | CacheEngine => t_db | Sqlite => t_sqldb end.
(** context.py:34-40, 60 *)
Definition buildroot (o : options) : str := path_new [o_buildroot o].
Definition state_file (o : options) : str :=
  path_new [buildroot o; match o_state o with None => state_default (o_engine o) | Some s => s end].
Definition log_file (o : options) : str := path_new [buildroot o; o_log o].
Definition tmpdir (o : options) : str := path_new [buildroot o; t_tmp].

(** *** Removing *)
Fixpoint is_prefix (a b : loc) : bool :=
  match a, b with
  | [], _ => true
  | x :: a', y :: b' => str_eqb x y && is_prefix a' b'
  | _ :: _, [] => false
  end.
(** shutil.rmtree of a directory that does not hold the current one; the root cannot be removed, nor something
    that is called . or .. *)
Definition rmtree (f : fs) (p : str) : option fs :=
  match resolve f p with
  | Some l =>
      match tree f !! l with
      | Some FDir =>
          if is_prefix l (fs_cwd f) then None
          else if special (List.last (names (match rstrip p with [] => p | q => q end)) []) then None
          else Some (Fs (filter (fun x => is_prefix l (fst x) = false) (tree f)) (fs_cwd f))
      | _ => None
      end
  | None => None
  end.
(** os.remove *)
Definition remove (f : fs) (p : str) : option fs :=
  match resolve f p with
  | Some l => match tree f !! l with Some (FFile _) => Some (Fs (delete l (tree f)) (fs_cwd f)) | _ => None end
  | None => None
  end.

(** *** Before the build *)
(** context.py:101-102: what is not a directory is left as it is *)
Definition clear_temp_dir (f : fs) (o : options) : option fs :=
  if isdir f (tmpdir o) then rmtree f (tmpdir o) else Some f.
(** context.py:67-79; an empty file has the content 0 *)
Definition create_buildroot (f : fs) (o : options) : option fs :=
  match makedirs f (buildroot o) with
  | Some f =>
      match write f (log_file o) 0 with
      | Some f =>
          match makedirs f (dirname (state_file o)) with
          | Some f =>
              match clear_temp_dir f o with
              | Some f => match mkdir f (tmpdir o) with MOk f => Some f | _ => None end
              | None => None
              end
          | None => None
          end
      | None => None
      end
  | None => None
  end.
(** context.py:81-88; the tree and the file the database is connected to *)
Definition load_configuration (f : fs) (o : options) : option (fs * str) :=
  if (o_rebuild o || o_configure o) && exists_ f (state_file o)
  then option_map (fun f => (f, state_file o)) (remove f (state_file o))
  else Some (f, state_file o).
(** main.py:180-185 *)
Definition clean (f : fs) (o : options) : option fs :=
  if exists_ f (buildroot o) then rmtree f (buildroot o) else Some f.
