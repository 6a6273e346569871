(* Specification for C161: the numbers that rand gives one after the other. *)
From Verif Require Import Base Randc_model.

Fixpoint numbers (n : nat) (s : state) : list Z := match n with O => [] | S n => let '(s, v) := rand s in v :: numbers n s end.
Fixpoint numbers_r (n : nat) (seed : Z) : list Z :=
  match n with O => [] | S n => match rand_r (Some seed) with (Some seed, v) => v :: numbers_r n seed | _ => [] end end.
Inductive call := Srand (seed : Z) | Rand.
Fixpoint run (s : state) (l : list call) : state := match l with [] => s | Srand x :: l => run (srand s x) l | Rand :: l => run (fst (rand s)) l end.
Definition RAND_MAX : Z := 2147483647.
