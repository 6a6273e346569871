(* What a user of socket addresses relies on. *)
From Verif Require Import Base Numeral Inet_spec.

(* The representation of the IPv4 address with octets l and a port: family 2, the port and the
   address most significant byte first, zeros. *)
Definition sin (l : list Z) (port : Z) : list Z :=
  [2; 0; port / 256; port mod 256] ++ l ++ [0; 0; 0; 0; 0; 0; 0; 0].
Definition octets (l : list Z) : Prop := length l = 4%nat /\ Forall (fun b => 0 <= b < 256) l.
(* a.b.c.d:port *)
Definition shown (t l : list Z) (port : Z) : Prop :=
  exists s ds, canonical s l /\ numeral 10 ds port /\ t = s ++ [58] ++ map (fun d => 48 + d) ds.
(* family 1 and the path, with a NUL when there is room *)
Definition sun (path : list Z) : list Z :=
  if len path <? 108 then [1; 0] ++ path ++ [0] else [1; 0] ++ firstn 108 path.
(* a 32-bit length *)
Definition u32_at (m : mem) (a v : Z) : Prop :=
  m a = Some (v mod 256) /\ m (a + 1) = Some (v / 256 mod 256) /\ m (a + 2) = Some (v / 65536 mod 256) /\ m (a + 3) = Some (v / 16777216 mod 256).
(* Of the n bytes at a the first are those of l, as many as fit; the length at b is v; nothing
   else changes. *)
Definition delivered (m m' : mem) (a n b v : Z) (l : list Z) : Prop :=
  bytes_at m' a (firstn (Z.to_nat n) l) /\ u32_at m' b v /\
  forall x, ~ a <= x < a + Z.min n (len l) -> ~ b <= x < b + 4 -> m' x = m x.
