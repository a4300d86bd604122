(** What is expected of building Java libraries. *)
From Coq Require Import List NArith Bool Arith.
From Verif Require Import FnModel.
Import ListNotations.
Open Scope N_scope.

(** *** What the compiler reports with -verbose *)
Definition t_wrote : str := [91; 119; 114; 111; 116; 101; 32].                                                    (* "[wrote " *)
Definition t_regular : str := [82; 101; 103; 117; 108; 97; 114; 70; 105; 108; 101; 79; 98; 106; 101; 99; 116; 91]. (* RegularFileObject[ *)
Definition t_to : str := [39; 32; 116; 111; 32].                                                                  (* "' to " *)
Definition begins (p w : str) : Prop := exists r, p = w ++ r.
(** A name without brackets that close; [rest] is what follows on the line. *)
Definition plain_name (p : str) : Prop := p <> [] /\ ~ In 93 p /\ ~ In 10 p.
(** [wrote P], [wrote RegularFileObject[P]] and [wrote 'C' to P] *)
Inductive reports : str -> str -> Prop :=
| Reports_plain p rest : plain_name p -> ~ begins p t_regular -> ~ begins p [39] -> ~ In 10 rest -> reports (t_wrote ++ p ++ 93 :: rest) p
| Reports_regular p rest : plain_name p -> ~ begins p [39] -> ~ In 10 rest -> reports (t_wrote ++ t_regular ++ p ++ 93 :: rest) p
| Reports_class c p rest : c <> [] -> ~ In 39 c -> ~ In 10 c -> plain_name p -> ~ In 10 rest ->
    reports (t_wrote ++ 39 :: c ++ t_to ++ p ++ 93 :: rest) p.
(** The lines of an output and the files they report; other lines do not begin with "[wrote ". *)
Inductive log : list str -> list str -> Prop :=
| Log_end : log [] []
| Log_report l p ls ps : reports l p -> log ls ps -> log (l :: ls) (p :: ps)
| Log_other l ls ps : ~ begins l t_wrote -> ~ In 10 l -> log ls ps -> log (l :: ls) ps.
Definition output (ls : list str) : str := concat (map (fun l => l ++ [10]) ls).
(** Each source with the files reported for it, in order. *)
Inductive logs (err : str -> option str) : list str -> list str -> Prop :=
| Logs_end : logs err [] []
| Logs_next s ls ps ss qs : err s = Some (output ls) -> log ls ps -> logs err ss qs -> logs err (s :: ss) (ps ++ qs).
