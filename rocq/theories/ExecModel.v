(** Running commands: Context.execute, context.py 104-262; and the frame of a build,
    main.py 135-212. *)
From stdpp Require Import base list strings gmap.
From Coq Require Import ZArith Ascii.
From Verif Require Import PyMonad.
Local Open Scope string_scope.
Local Open Scope list_scope.

(** *** The environment of the command, context.py 134-156 *)
(** [os.pathsep.join(paths)] *)
Definition path_join (paths : list string) : string := String.concat ":" paths.

Definition exec_env (os_env : gmap name string) (env : option (gmap name string))
    (var : name) (libpaths : list string) : gmap name string :=
  let base := match env with None => os_env | Some e => e ∪ os_env end in
  match libpaths with
  | [] => base
  | _ => <[var := match base !! var with
                  | Some old => old +:+ ":" +:+ path_join libpaths
                  | None => path_join libpaths
                  end]> base
  end.

(** *** The command as it is shown, context.py 120-130 (a list of arguments) *)
Definition has_char (a : ascii) (s : string) : bool := existsb (Ascii.eqb a) (list_ascii_of_string s).
(** [c.replace("'", "\\'")] *)
Fixpoint escape_quotes (s : string) : string :=
  match s with
  | EmptyString => ""
  | String a s' => if Ascii.eqb a "'"%char then "\'" +:+ escape_quotes s' else String a (escape_quotes s')
  end.
Definition show_arg (c : string) : string :=
  if has_char " "%char c then "'" +:+ escape_quotes c +:+ "'" else c.
Definition cmd_string (cmd : list string) : string := String.concat " " (show_arg <$> cmd).

(** *** The outcome, context.py 176-262 *)
(** What happens outside: starting the process fails with OSError or another exception; waiting
    for it is interrupted, fails, or gives its output and return code; and whether the timer
    has run [timeout_function] by the time its flag is looked at. *)
Inductive waited := WInterrupt | WOSError | WOther | WExit (out err : string) (code : Z).
Inductive started := SOSError | SOther | SStarted (w : waited).
Record world := World { w_process : started; w_fired : bool }.

(** What is done: the process killed by SIGINT, the timer started and cancelled, messages. *)
Inductive effect := FStartTimer | FCancelTimer | FKill | FFailed | FCommand (loud : bool) | FStdout (s : string) | FStderr (s : string) | FExit (code : Z).
Inductive outcome :=
  | Returned (out err : string)
  | ROSError | ROther | RInterrupt
  | RTimedOut (out err : string) (code : Z)
  | RError (out err : string) (code : Z).

Definition sigint : Z := 2.
Definition log_output (f : string -> effect) (s : string) : list effect := if String.eqb s "" then [] else [f s].

Definition execute (timeout ignore_error : bool) (w : world) : list effect * outcome :=
  let cancel := if timeout then [FCancelTimer] else [] in
  match w_process w with
  | SOSError => ([FFailed], ROSError)
  | SOther => ([], ROther)
  | SStarted q =>
      let start := if timeout then [FStartTimer] else [] in
      match q with
      | WInterrupt => (start ++ [FKill] ++ cancel, RInterrupt)
      | WOSError => (start ++ [FFailed] ++ cancel, ROSError)
      | WOther => (start ++ cancel, ROther)
      | WExit out err code =>
          if (code =? - sigint)%Z then (start ++ cancel, RInterrupt)
          else
            let log := [FCommand (negb (code =? 0)%Z)] ++ log_output FStdout out ++ log_output FStderr err ++ [FExit code] in
            (start ++ cancel ++ log,
             if timeout && w_fired w then RTimedOut out err code
             else if negb (code =? 0)%Z && negb ignore_error then RError out err code
             else Returned out err)
      end
  end.

(** *** main(), main.py 162-212 *)
(** Exceptions: fbuild.Error, KeyboardInterrupt, SystemExit, others. *)
Inductive xn := XError | XInterrupt | XExit (n : Z) | XOther.
(** What main does after the options are parsed. *)
Inductive act := ARemoveRoot | ACreate | ALoad | ABuild | ALogError | AClearTemp | ASave | AStopDb | AStopScheduler.
Inductive root := RootOk | RootMissing | RootBroken.
Record options := Options { o_root : root; o_clean : bool; o_exists : bool; o_nosave : bool }.

(** Code with effects that may raise: the actions so far, then their continuation and the
    outcome.  [w] tells which actions raise what. *)
Definition P (A : Type) := list act -> list act * (xn + A).
Definition ret {A} (a : A) : P A := fun tr => (tr, inr a).
Definition raise {A} (e : xn) : P A := fun tr => (tr, inl e).
Definition bind {A B} (m : P A) (f : A -> P B) : P B := fun tr =>
  match m tr with (tr', inr a) => f a tr' | (tr', inl e) => (tr', inl e) end.
Definition act_of (w : list act -> act -> option xn) (a : act) : P unit := fun tr =>
  (tr ++ [a], match w tr a with Some e => inl e | None => inr tt end).
(** [try: m finally: f] *)
Definition finally {A} (m : P A) (f : P unit) : P A := fun tr =>
  let '(tr1, r) := m tr in
  match f tr1 with (tr2, inl e) => (tr2, inl e) | (tr2, inr _) => (tr2, r) end.
(** [try: m except ... else: k] *)
Definition try {A B} (m : P A) (h : xn -> P B) (k : A -> P B) : P B := fun tr =>
  match m tr with (tr', inl e) => h e tr' | (tr', inr a) => k a tr' end.

(** The result: Some 0 is what build returned, None is a plain [return]. *)
Definition main (w : list act -> act -> option xn) (o : options) : P (option Z) :=
  let do := act_of w in
  finally
    (bind (match o_root o with RootOk => ret tt | RootMissing => raise XError | RootBroken => raise XOther end) (fun _ =>
     if o_clean o then
       bind (if o_exists o then do ARemoveRoot else ret tt) (fun _ => ret None)
     else
       bind (do ACreate) (fun _ =>
       bind (do ALoad) (fun _ =>
       finally
         (try (do ABuild)
            (fun e => match e with
                      | XError => bind (do ALogError) (fun _ => raise (XExit 1))
                      | _ => raise e
                      end)
            (fun _ => bind (do AClearTemp) (fun _ => ret (Some 0%Z))))
         (bind (if o_nosave o then ret tt else do ASave) (fun _ => do AStopDb))))))
    (do AStopScheduler).

(** The exit status of fbuild-light: 0 if main returns, the code of SystemExit, 1 for a traceback. *)
Definition status (r : xn + option Z) : Z :=
  match r with inr _ => 0 | inl (XExit n) => n | inl _ => 1 end.
