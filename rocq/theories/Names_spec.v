(* Specification for C94: m' differs from m only in the buffer of n bytes at p. *)
From Coq Require Import ZArith List.
From Verif Require Import Base.
Import ListNotations.
Open Scope Z_scope.
Definition only_in (m m' : mem) (p n : Z) : Prop := forall x, ~ (p <= x < p + n) -> m' x = m x.
(* the name as a string in the buffer *)
Definition delivered (m m' : mem) (p n : Z) (name : list Z) : Prop := cstr m' p name /\ only_in m m' p n.
