(* What POSIX says about the search of execlp and execvp and about the permission to
   execute, and the usual meaning of #!. *)
From Coq Require Import ZArith List Bool.
From Verif Require Import Base.
Import ListNotations.
Open Scope Z_scope.

(* the value of PATH with these directory prefixes *)
Fixpoint joined (ds : list (list Z)) : list Z :=
  match ds with
  | [] => []
  | [d] => d
  | d :: r => d ++ 58 :: joined r
  end.

(* the pathname a prefix stands for: an empty one is the current directory *)
Definition candidate (d file : list Z) : list Z :=
  match d with [] => [46; 47] ++ file | _ => d ++ 47 :: file end.

(* searching ds from the left, where execv p = None if p can be executed: Some p, or None
   if there is nothing *)
Inductive finds (execv : list Z -> option Z) (file : list Z) : list (list Z) -> option (list Z) -> Prop :=
| F_none : finds execv file [] None
| F_here : forall d r, execv (candidate d file) = None -> finds execv file (d :: r) (Some (candidate d file))
| F_next : forall d r e o, execv (candidate d file) = Some e -> finds execv file r o -> finds execv file (d :: r) o.

Definition blank (c : Z) : Prop := c = 32 \/ c = 9.
(* no NUL and no white space *)
Definition plain (c : Z) : Prop := c <> 0 /\ ~ In c [32; 9; 10; 12; 13].

(* contents is a script whose first line is #!, blanks, interp, the blanks sep and text *)
Inductive script : list Z -> list Z -> list Z -> list Z -> list Z -> Prop :=
| Script : forall b interp sep text rest,
    Forall blank b -> interp <> [] -> Forall plain interp -> Forall blank sep ->
    (text <> [] -> sep <> []) -> (forall c r, text = c :: r -> ~ blank c) ->
    Forall (fun c => c <> 0 /\ c <> 10) text ->
    script ([35; 33] ++ b ++ interp ++ sep ++ text ++ 10 :: rest) b interp sep text.

(* the arguments the interpreter gets *)
Definition script_args (interp text path : list Z) (argv : list (list Z)) : list (list Z) :=
  match text with
  | [] => interp :: path :: tl argv
  | _ => interp :: text :: path :: tl argv
  end.

(* XBD 4.7: may a process with these effective ids and supplementary groups execute a file
   with this mode and owner? *)
Definition permitted (mode owner group uid gid : Z) (groups : list Z) : Prop :=
  (uid = owner /\ Z.testbit mode 6 = true) \/
  (uid <> owner /\ (gid = group \/ In group groups) /\ Z.testbit mode 3 = true) \/
  (uid <> owner /\ gid <> group /\ ~ In group groups /\ Z.testbit mode 0 = true).
