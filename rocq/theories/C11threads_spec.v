(* What threads.h promises (C17 7.26). *)
From Coq Require Import ZArith List.
From Verif Require Import Base.
Import ListNotations.
Open Scope Z_scope.

(* Why a call did not succeed. *)
Inductive reason := Resource_in_use | Time_reached | No_memory | Other.
(* thrd_busy, thrd_timedout, thrd_nomem, thrd_error *)
Definition result_for (w : reason) : Z :=
  match w with Resource_in_use => 1 | Time_reached => 4 | No_memory => 3 | Other => 2 end.

(* An int at an address, little-endian two's complement; nothing else changes. *)
Definition int_at (m : mem) (a v : Z) : Prop :=
  exists b0 b1 b2 b3, m a = Some b0 /\ m (a + 1) = Some b1 /\ m (a + 2) = Some b2 /\ m (a + 3) = Some b3 /\
    (b0 + 256 * b1 + 65536 * b2 + 16777216 * b3 - v) mod 2 ^ 32 = 0.
Definition only_changes (m m' : mem) (a n : Z) : Prop := forall x, ~ a <= x < a + n -> m' x = m x.
