(* Specification for C164: the interrupted program finds its registers. *)
From Verif Require Import Base Sigentry_model.

Definition same_registers (r : gp -> Prop) (c d : cpu) : Prop := forall x, r x -> g d x = g c x.
Definition resumed (c d : cpu) : Prop := (forall x, g d x = g c x) /\ rip d = rip c /\ flags d = flags c /\ (forall i, 0 <= i < 16 -> lo d i = lo c i /\ hi d i = hi c i).
