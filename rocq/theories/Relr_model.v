(* Model of apply_relr, ld_so/dso.rs 1445-1475, on a 64-bit machine.  Memory: the word at
   each address, a number below 2^64; words at the addresses used do not overlap (the
   offsets of RELR are multiples of 8).  Release build: += wraps. *)
From Coq Require Import ZArith List Bool.
From Verif Require Import Base.
Import ListNotations.
Open Scope Z_scope.

Definition W64 := 2 ^ 64.
Definition words := Z -> Z.

(* *p += base *)
Definition bump (base : Z) (m : words) (p : Z) : words := fun a => if a =? p then (m a + base) mod W64 else m a.

(* 1459-1470: the while loop over the bits of an odd entry *)
Fixpoint bitmap (fuel : nat) (base : Z) (m : words) (addr e i : Z) : res words :=
  match fuel with
  | O => OutOfFuel
  | S f =>
      if e =? 0 then Ok m
      else
        let m := if Z.odd e then bump base m ((addr + 8 * i) mod W64) else m in
        bitmap f base m addr (e / 2) (i + 1)
  end.

(* 1448-1474; CHAR_BITS * size_of::<Relr>() - 1 = 63.  addr = null before the first even
   entry: an odd one with a bit set writes near the null pointer. *)
Fixpoint relr (base : Z) (m : words) (addr : option Z) (l : list Z) : res words :=
  match l with
  | [] => Ok m
  | e :: l =>
      if Z.odd e then
        match addr with
        | None => Fault
        | Some a => m <- bitmap 65 base m a (e / 2) 0 ;; relr base m (Some ((a + 8 * 63) mod W64)) l
        end
      else
        let p := (base + e) mod W64 in
        relr base (bump base m p) (Some ((p + 8) mod W64)) l
  end.
Definition apply_relr (base : Z) (m : words) (l : list Z) : res words := relr base m None l.
