(* An allocator that has memory: it gives addresses that are not in use. *)
From Verif Require Import Base Cvec_model.
Definition good_allocator (place : heap -> Z -> option Z) (move : heap -> Z -> Z -> option Z) : Prop :=
  (forall h n, exists p, place h n = Some p /\ p <> 0 /\ get h p = None) /\
  (forall h p n b, get h p = Some b -> exists q, move h p n = Some q /\ q <> 0 /\ (q = p \/ get h q = None)).
