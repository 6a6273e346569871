(* What POSIX says about readv and writev. *)
From Coq Require Import ZArith List Bool.
From Verif Require Import Base.
Import ListNotations.
Open Scope Z_scope.

(* the addresses of the areas, in order: each area is completed before the next *)
Definition area (a n : Z) : list Z := map (fun i => a + Z.of_nat i) (seq 0 (Z.to_nat n)).
Definition places (iov : nat -> Z * Z) (cnt : Z) : list Z := flat_map (fun i => area (fst (iov i)) (snd (iov i))) (seq 0 (Z.to_nat cnt)).
(* the bytes at these addresses *)
Definition holds (m : mem) (ps bs : list Z) : Prop := Forall2 (fun a b => m a = Some b) ps bs.
(* the data is put in the first places, and nothing else changes *)
Definition spread (m m' : mem) (ps data : list Z) : Prop :=
  holds m' (firstn (length data) ps) data /\ forall x, ~ In x (firstn (length data) ps) -> m' x = m x.
