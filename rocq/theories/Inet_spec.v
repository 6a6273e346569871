(* Specification for C47 and C48. *)
From Verif Require Import Base Numeral Scanf_spec.

(* The n bytes of x, most significant first and least significant first. *)
Definition big_endian (n : nat) (x : Z) : list Z :=
  map (fun i => x / 256 ^ (Z.of_nat n - 1 - Z.of_nat i) mod 256) (seq 0 n).
Definition little_endian (n : nat) (x : Z) : list Z :=
  map (fun i => x / 256 ^ Z.of_nat i mod 256) (seq 0 n).

(* Parts joined by dots. *)
Fixpoint dotted (parts : list (list Z)) : list Z :=
  match parts with [] => [] | [p] => p | p :: ps => p ++ 46 :: dotted ps end.

(* An octet: one to three decimal digits, at most 255. *)
Definition octet (t : list Z) (v : Z) : Prop := digits_of 10 t v /\ len t <= 3 /\ v <= 255.
(* s is a dotted quad of the four octets l. *)
Definition quad (s l : list Z) : Prop :=
  exists parts, s = dotted parts /\ length parts = 4%nat /\ Forall2 octet parts l.
(* The canonical form: no leading zeros. *)
Definition canonical (s l : list Z) : Prop :=
  exists ds, s = dotted (map (map (fun d => 48 + d)) ds) /\ length ds = 4%nat /\ Forall2 (numeral 10) ds l.

(* inet_aton: one to four C integer constants (decimal, octal with 0, hexadecimal with 0x);
   the last fills the remaining bytes. *)
Inductive address : list Z -> Z -> Prop :=
| a1 a : a < 2 ^ 32 -> address [a] a
| a2 a b : a < 256 -> b < 2 ^ 24 -> address [a; b] (a * 2 ^ 24 + b)
| a3 a b c : a < 256 -> b < 256 -> c < 2 ^ 16 -> address [a; b; c] (a * 2 ^ 24 + b * 2 ^ 16 + c)
| a4 a b c d : a < 256 -> b < 256 -> c < 256 -> d < 256 -> address [a; b; c; d] (a * 2 ^ 24 + b * 2 ^ 16 + c * 2 ^ 8 + d).
Definition denotes (s : list Z) (a : Z) : Prop :=
  exists parts vs, s = dotted parts /\ Forall2 (constant 105) parts vs /\ address vs a.
