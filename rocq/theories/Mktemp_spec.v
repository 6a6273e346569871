(* The names that mkstemp and its kin may choose, and the attempts to use them. *)
From Verif Require Import Base.

Definition alnum (c : Z) : Prop := 48 <= c <= 57 \/ 65 <= c <= 90 \/ 97 <= c <= 122.
Definition six (w : list Z) : Prop := length w = 6%nat /\ Forall alnum w.
(* the six characters that the caller must have put *)
Definition XXXXXX : list Z := [88; 88; 88; 88; 88; 88].
(* a call that failed for each of the names, in this order *)
Inductive failed {S T} (call : S -> list Z -> S * T) (bad : T -> Prop) : S -> list (list Z) -> S -> Prop :=
| FNil : forall s, failed call bad s [] s
| FCons : forall s n s1 x l s2, call s n = (s1, x) -> bad x -> failed call bad s1 l s2 -> failed call bad s (n :: l) s2.
