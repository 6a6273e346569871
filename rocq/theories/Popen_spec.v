(* What a user of popen, pclose and system relies on (POSIX.1-2024). *)
From Verif Require Import Base Popen_model.

(* the lowest descriptor not in use *)
Definition lowest (t : tab) (n : Z) : Prop := 0 <= n /\ t n = None /\ forall k, 0 <= k < n -> t k <> None.
(* r and w, of the files fr and fw, are what pipe gives *)
Definition new_pipe (t : tab) (r w fr fw : Z) : Prop :=
  lowest t r /\ lowest (put t r (Some (fr, false))) w /\ fr <> fw /\ forall k f c, t k = Some (f, c) -> f <> fr /\ f <> fw.
(* modes: "r" or "w", and "e" *)
Definition good_mode (l : list Z) (write cloexec : bool) : Prop :=
  exists a b, l = repeat 101 a ++ [if write then 119 else 114] ++ repeat 101 b /\ cloexec = negb (Nat.eqb (a + b) 0).
(* the caller's table afterwards: as before, with its end of the pipe *)
Definition callers (t : tab) (fd f : Z) (cloexec : bool) (t' : tab) : Prop :=
  t' fd = Some (f, cloexec) /\ forall k, k <> fd -> t' k = t k.
(* the command's: as the caller's was, with the other end as standard input or output and nowhere else *)
Definition commands (t : tab) (std f : Z) (t' : tab) : Prop :=
  t' std = Some (f, false) /\ forall k, k <> std -> t' k = match t k with Some (g, false) => Some (g, false) | _ => None end.
