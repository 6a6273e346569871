(* What crypt promises, without the model's scanning. *)
From Coq Require Import String.
From Verif Require Import Base Numeral Ctype_spec.
Open Scope string_scope.
Open Scope list_scope.
Open Scope Z_scope.

Definition ascii (s : list Z) : Prop := Forall (fun b => 0 < b < 128) s.
(* the salt at the front of a text: up to a $, the end, or n bytes *)
Definition salt_of (n : Z) (s salt : list Z) : Prop :=
  exists rest, s = salt ++ rest /\ ~ In 36 salt /\ len salt <= n /\ (len salt = n \/ rest = [] \/ exists r, rest = 36 :: r).
Definition begins (p s : list Z) : Prop := exists r, s = p ++ r.
(* a decimal number as written *)
Definition written (s : list Z) (n : Z) : Prop := s <> [] /\ Forall (fun c => 48 <= c <= 57) s /\ dvalue 10 (map (fun c => c - 48) s) = n.
