(* A file is its bytes. *)
From Verif Require Import Base.

Definition resized (l : list Z) (n : Z) : list Z := firstn (Z.to_nat n) l ++ repeat 0 (Z.to_nat (n - len l)).
(* nothing of l is lost and every byte below n is there *)
Definition grown (l k : list Z) (n : Z) : Prop := (exists z, k = l ++ z /\ Forall (eq 0) z) /\ len k = Z.max (len l) n.
