(* swab: /repo/src/header/unistd/mod.rs 1200-1213.  copy_to of one byte is a load and a store. *)
From Verif Require Import Base.

Fixpoint swaps (n : nat) (m : mem) (src dest offset : Z) : res mem :=
  match n with
  | O => Ok m
  | S n =>
      b <- ld m (src + offset) ;;
      m <- st m (dest + (offset + 1)) b ;;
      b <- ld m (src + (offset + 1)) ;;
      m <- st m (dest + offset) b ;;
      swaps n m src dest (offset + 2)
  end.
Definition swab (m : mem) (src dest nbytes : Z) : res mem :=
  if nbytes <=? 0 then Ok m else swaps (Z.to_nat (nbytes / 2)) m src dest 0.
