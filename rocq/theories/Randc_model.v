(* stdlib.h: rand, srand, rand_r.  The crates rand and rand_xorshift are modelled as published (XorShiftRng, and Uniform over 0 to 2^31-1, which keeps the
   upper 31 bits of each number).  RNG is not protected against other threads; one thread calls at a time. *)
From Verif Require Import Base.

Definition u32 (v : Z) : Z := v mod 4294967296.
(* rand_xorshift: XorShiftRng *)
Record rng := Rng { rx : Z; ry : Z; rz : Z; rw : Z }.
Definition le32 (l : list Z) : Z := match l with [a; b; c; d] => a + 256 * b + 65536 * c + 16777216 * d | _ => 0 end.
(* from_seed: sixteen bytes, four little-endian numbers; all zeros are replaced *)
Definition from_seed (l : list Z) : rng :=
  let x := le32 (firstn 4 l) in let y := le32 (firstn 4 (skipn 4 l)) in let z := le32 (firstn 4 (skipn 8 l)) in let w := le32 (firstn 4 (skipn 12 l)) in
  if (x =? 0) && (y =? 0) && (z =? 0) && (w =? 0) then Rng 195911405 195911405 195911405 195911405 else Rng x y z w.
Definition next_u32 (r : rng) : rng * Z :=
  let t := Z.lxor (rx r) (u32 (Z.shiftl (rx r) 11)) in
  let w := Z.lxor (Z.lxor (rw r) (Z.shiftr (rw r) 19)) (Z.lxor t (Z.shiftr t 8)) in
  (Rng (ry r) (rz r) (rw r) w, w).
Definition sample (r : rng) : rng * Z := let '(r, w) := next_u32 r in (r, Z.shiftr w 1).
Definition EINVAL : Z := 22.
Definition to_bytes (v : Z) : list Z := [v mod 256; v / 256 mod 256; v / 65536 mod 256; v / 16777216 mod 256].

(* stdlib/mod.rs 65: RNG *)
Definition state := option rng.
(* stdlib/mod.rs 1371-1373 *)
Definition srand (s : state) (seed : Z) : state := Some (from_seed (repeat (seed mod 256) 16)).
(* stdlib/mod.rs 1115-1127 *)
Definition rand (s : state) : state * Z :=
  let r := match s with Some r => r | None => from_seed (repeat 1 16) end in
  let '(r, v) := sample r in (Some r, v).
(* stdlib/mod.rs 1136-1150; the cell, None for a null pointer: its new value and the result *)
Definition rand_r (seed : option Z) : option Z * Z :=
  match seed with
  | None => (None, EINVAL)
  | Some v => let '(_, ret) := sample (from_seed (to_bytes v ++ to_bytes v ++ to_bytes v ++ to_bytes v)) in (Some ret, ret)
  end.
