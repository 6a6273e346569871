(* Specification for C89: the classes of RFC 791.  class a n c h: the address a, a number,
   has network number n and local part h of c bits. *)
From Coq Require Import ZArith.
Open Scope Z_scope.
Inductive class : Z -> Z -> Z -> Z -> Prop :=
| cA a n h : 0 <= n < 128 -> 0 <= h < 2 ^ 24 -> a = n * 2 ^ 24 + h -> class a n 24 h
| cB a n h : 128 * 256 <= n < 192 * 256 -> 0 <= h < 2 ^ 16 -> a = n * 2 ^ 16 + h -> class a n 16 h
| cC a n h : 192 * 65536 <= n < 224 * 65536 -> 0 <= h < 2 ^ 8 -> a = n * 2 ^ 8 + h -> class a n 8 h.
