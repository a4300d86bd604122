(** Model of lib/fbuild/console.py: what is written to the file and the terminal (68-94, 106-117, 142-192), POSIX, by one thread
    (threadcount is 1; the buffers of threads are C51).  Errors of the files are not modelled. *)
From Coq Require Import List NArith ZArith Bool Arith.
From Verif Require Import FnModel HelpModel.
Import ListNotations.
Open Scope nat_scope.

Definition w_black : str := [98; 108; 97; 99; 107]%N.
Definition w_red : str := [114; 101; 100]%N.
Definition w_green : str := [103; 114; 101; 101; 110]%N.
Definition w_yellow : str := [121; 101; 108; 108; 111; 119]%N.
Definition w_blue : str := [98; 108; 117; 101]%N.
Definition w_magenta : str := [109; 97; 103; 101; 110; 116; 97]%N.
Definition w_cyan : str := [99; 121; 97; 110]%N.
Definition w_white : str := [119; 104; 105; 116; 101]%N.
Definition w_compile : str := [99; 111; 109; 112; 105; 108; 101]%N.
Definition w_link : str := [108; 105; 110; 107]%N.
Definition w_ok : str := [111; 107]%N.
Definition w_failed : str := [102; 97; 105; 108; 101; 100]%N.
(** _colorcodes, 69-78 and 93-94 *)
Definition color_codes : list (str * N) :=
  [(w_black, 30%N); (w_red, 31%N); (w_green, 32%N); (w_yellow, 33%N); (w_blue, 34%N); (w_magenta, 35%N); (w_cyan, 36%N); (w_white, 37%N);
   (w_compile, 32%N); (w_link, 36%N)].
Fixpoint code_of (t : list (str * N)) (name : str) : option N :=
  match t with [] => None | (k, n) :: t' => if str_eqb k name then Some n else code_of t' name end.
(** %.2d of a number below 100. *)
Definition two_digits (n : N) : str := [48 + n / 10; 48 + n mod 10]%N.
(** _write_colored_str, 80-90 *)
Definition colored (s : str) (color : option str) : str :=
  match color with
  | None => s
  | Some name =>
      match code_of color_codes name with
      | None => s
      | Some n => [27; 91; 48; 49; 59]%N ++ two_digits n ++ [109]%N ++ s ++ [27; 91; 48; 109]%N
      end
  end.

(** Log: its settings; what has been written; maxlen. *)
Record settings := Settings { verbose : Z; nocolor : bool; show_threads : bool; has_file : bool }.
Record log := Log { l_file : str; l_term : str; l_maxlen : nat }.
(** 106-117 *)
Definition new_log : log := Log [] [] 25.
Record message := Message { m_text : str; m_color : option str; m_verbose : Z }.
(** _write, 142-152 *)
Definition write (c : settings) (l : log) (m : message) : log :=
  let file := if has_file c then l_file l ++ m_text m else l_file l in
  let term :=
    if (m_verbose m <=? verbose c)%Z then l_term l ++ colored (m_text m) (if nocolor c then None else m_color m)
    else l_term l in
  Log file term (l_maxlen l).

(** What is called: log; check in a thread of a name; passed and failed, with the texts and colors they are given or not. *)
Inductive call :=
  | CLog (msg : str) (color : option str) (v : Z)
  | CCheck (thread msg : str) (result : option str) (color : option str) (v : Z)
  | CPassed (msg : option str) | CFailed (msg : option str).
Definition nl : str := [10]%N.
(** 165-168 *)
Definition do_log (c : settings) (l : log) (msg : str) (color : option str) (v : Z) : log :=
  write c (write c l (Message msg color v)) (Message nl None v).
(** 170-192 *)
Definition do_call (c : settings) (l : log) (k : call) : log :=
  match k with
  | CLog msg color v => do_log c l msg color v
  | CCheck thread msg result color v =>
      let msg := if show_threads c then ljust thread 10 ++ [58; 32]%N ++ msg else msg in
      let d := length msg in
      let maxlen := if l_maxlen l <=? d then Nat.min (d + 1) 40 else l_maxlen l in
      let l := Log (l_file l) (l_term l) maxlen in
      let msg := ljust msg maxlen ++ [58; 32]%N in
      match result with
      | None => write c (write c l (Message msg color v)) (Message nl None (v + 1))
      | Some r => write c (write c (write c l (Message msg None v)) (Message r color v)) (Message nl None v)
      end
  | CPassed msg => do_log c l (match msg with Some m => m | None => w_ok end) (Some w_green) 0
  | CFailed msg => do_log c l (match msg with Some m => m | None => w_failed end) (Some w_yellow) 0
  end.
Definition do_calls (c : settings) (l : log) (ks : list call) : log := fold_left (do_call c) ks l.
