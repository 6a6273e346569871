(* Specification for C90, over texts.  A suboption t answers to key k if it is k, without
   value, or k=v. *)
From Coq Require Import ZArith List.
From Verif Require Import Base.
Import ListNotations.
Open Scope Z_scope.

Inductive answers (t k : list Z) : option (list Z) -> Prop :=
| a_bare : t = k -> answers t k None
| a_value v : t = k ++ 61 :: v -> answers t k (Some v).
(* the first key of the list that t answers to *)
Inductive picks (t : list Z) : list (list Z) -> option (nat * option (list Z)) -> Prop :=
| p_none : picks t [] None
| p_here k r v : answers t k v -> picks t (k :: r) (Some (0%nat, v))
| p_skip k r i v : (forall w, ~ answers t k w) -> picks t r (Some (i, v)) -> picks t (k :: r) (Some (S i, v))
| p_fail k r : (forall w, ~ answers t k w) -> picks t r None -> picks t (k :: r) None.
(* the first suboption of s and what follows it *)
Inductive first : list Z -> list Z -> option (list Z) -> Prop :=
| f_last t : ~ In 44 t -> first t t None
| f_more t s : ~ In 44 t -> first (t ++ 44 :: s) t (Some s).
(* The return value and *valuep; keys are numbered from i0. *)
Definition found_at (m : mem) (start : Z) (i0 : Z) (r : option (nat * option (list Z))) (ret v : Z) : Prop :=
  match r with
  | None => ret = -1 /\ v = start
  | Some (i, None) => ret = i0 + Z.of_nat i /\ v = NULL
  | Some (i, Some w) => ret = i0 + Z.of_nat i /\ start < v /\ cstr m v w
  end.
(* Memory and *optionp afterwards: at most the comma has changed. *)
Definition after (m m' : mem) (start : Z) (t : list Z) (rest : option (list Z)) (next : Z) : Prop :=
  (forall x, x <> start + len t -> m' x = m x) /\ cstr m' start t /\
  match rest with
  | None => next = start + len t /\ cstr m' next []
  | Some s => next = start + len t + 1 /\ cstr m' next s
  end.
