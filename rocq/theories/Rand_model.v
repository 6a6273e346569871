(** Model of the drand48 family (stdlib/rand48.rs, stdlib/mod.rs) and of random()
    (stdlib/random.rs, stdlib/mod.rs).  The locks around the global state are not
    modelled (single-threaded histories). *)
From Verif Require Import Base Strto_model Word_mem.

(** ** rand48 *)
Definition M48 : Z := 281474976710656.   (* 2^48 = 0x1_0000_0000_0000 *)
Definition M64 : Z := 18446744073709551616.
(** rand48.rs:16-22 *)
Definition of_arr (a : Z * Z * Z) : Z :=
  let '(x0, x1, x2) := a in Z.lor (Z.lor x0 (Z.shiftl x1 16)) (Z.shiftl x2 32).
(** rand48.rs:48-56; [as u16] truncates *)
Definition to_arr (v : Z) : Z * Z * Z :=
  (v mod 65536, Z.shiftr v 16 mod 65536, Z.shiftr v 32 mod 65536).
(** rand48.rs:30-40 try_from followed by unwrap *)
Definition u48_unwrap (v : Z) : res Z := if v <? M48 then Ok v else Panic.
(** rand48.rs:69-71 *)
Definition get_u31 (v : Z) : Z := Z.shiftr v 17.
(** rand48.rs:74-84 *)
Definition get_i32 (v : Z) : Z := to_i32 (Z.shiftr v 16).
(** rand48.rs:61-66: the bit pattern handed to f64::from_bits before subtracting 1.0 *)
Definition f64_bits (v : Z) : Z := Z.lor 4607182418800017408 (Z.shiftl v 4 mod M64).   (* 0x3ff0_0000_0000_0000 *)
(** rand48.rs:112-123 *)
Definition lcg48 (a c x : Z) : res Z :=
  u48_unwrap (Z.land (((a * x) mod M64 + c) mod M64) 281474976710655).

(** Global state: X, a, c (rand48.rs:126, 142-147; 94-99). *)
Record r48 := { gx : Z; ga : Z; gc : Z }.
Definition A0 : Z := 25214903917.   (* 0x5deece66d *)
Definition C0 : Z := 11.

Inductive op48 :=
| Drand | Lrand | Mrand
| Erand (x : Z * Z * Z) | Nrand (x : Z * Z * Z) | Jrand (x : Z * Z * Z)
| Srand (seed : Z) | Seed (x : Z * Z * Z) | Lcong (x a : Z * Z * Z) (c : Z).
(** Results: a double (given by the 48-bit integer it is made from), an integer, the
    caller's array written back (or returned by seed48). *)
Inductive out48 :=
| OutF (bits : Z) | OutI (v : Z) | OutFA (bits : Z) (x : Z * Z * Z) | OutIA (v : Z) (x : Z * Z * Z)
| OutA (x : Z * Z * Z) | OutU.

Definition run48 (g : r48) (o : op48) : res (r48 * out48) :=
  match o with
  | Drand => (* mod.rs:315-320 *)
      x <- lcg48 (ga g) (gc g) (gx g) ;; Ok ({| gx := x; ga := ga g; gc := gc g |}, OutF (f64_bits x))
  | Lrand => (* mod.rs:694-699 *)
      x <- lcg48 (ga g) (gc g) (gx g) ;; Ok ({| gx := x; ga := ga g; gc := gc g |}, OutI (get_u31 x))
  | Mrand => (* mod.rs:890-895 *)
      x <- lcg48 (ga g) (gc g) (gx g) ;; Ok ({| gx := x; ga := ga g; gc := gc g |}, OutI (get_i32 x))
  | Erand a => (* mod.rs:349-356 *)
      x <- lcg48 (ga g) (gc g) (of_arr a) ;; Ok (g, OutFA (f64_bits x) (to_arr x))
  | Nrand a => (* mod.rs:907-915 *)
      x <- lcg48 (ga g) (gc g) (of_arr a) ;; Ok (g, OutIA (get_u31 x) (to_arr x))
  | Jrand a => (* mod.rs:567-575 *)
      x <- lcg48 (ga g) (gc g) (of_arr a) ;; Ok (g, OutIA (get_i32 x) (to_arr x))
  | Srand s => (* mod.rs:1381-1392 *)
      x <- u48_unwrap (Z.lor (Z.shiftl (s mod 2 ^ 32) 16) 13070) ;;
      Ok ({| gx := x; ga := A0; gc := C0 |}, OutU)
  | Seed a => (* mod.rs:1269-1288 *)
      Ok ({| gx := of_arr a; ga := A0; gc := C0 |}, OutA (to_arr (gx g)))
  | Lcong x a c => (* mod.rs:636-648 *)
      Ok ({| gx := of_arr x; ga := of_arr a; gc := c |}, OutU)
  end.
Fixpoint run48s (g : r48) (l : list op48) : res (r48 * list out48) :=
  match l with
  | [] => Ok (g, [])
  | o :: l' => '(g1, r) <- run48 g o ;; '(g2, rs) <- run48s g1 l' ;; Ok (g2, r :: rs)
  end.

(** ** random *)
(** random.rs:23-28; [dflt] below is the address of DEFAULT_X. *)
Record rstate := { x_ptr : Z; rn : Z; ri : Z; rj : Z }.
(** random.rs:35-40 *)
Definition ensure (dflt : Z) (s : rstate) : rstate :=
  if x_ptr s =? NULL then {| x_ptr := dflt + 4; rn := rn s; ri := ri s; rj := rj s |} else s.
(** random.rs:42-49 *)
Definition stash (s : rstate) : Z := Z.lor (Z.lor (Z.shiftl (rn s) 16) (Z.shiftl (ri s) 8)) (rj s).
Definition save (dflt : Z) (s0 : rstate) (m : mem) : res (rstate * mem * Z) :=
  let s := ensure dflt s0 in
  m' <- st32 m (x_ptr s - 4) (stash s) ;; Ok (s, m', x_ptr s - 4).
(** random.rs:51-63 *)
Definition load (p : Z) (m : mem) : res rstate :=
  v <- ld32 m p ;;
  Ok {| x_ptr := p + 4; rn := Z.land (Z.shiftr v 16) 255; ri := Z.land (Z.shiftr v 8) 255; rj := Z.land v 255 |}.
(** random.rs:112-118 *)
Definition lcg31_step (x : Z) : Z := Z.land (((1103515245 * x) mod 2 ^ 32 + 12345) mod 2 ^ 32) 2147483647.
Definition lcg64_step (x : Z) : Z := ((6364136223846793005 * x) mod M64 + 1) mod M64.
(** random.rs:79-84; [k] iterations remain *)
Fixpoint seed_loop (k : nat) (m : mem) (p s : Z) : res mem :=
  match k with
  | O => Ok m
  | S k' => let s' := lcg64_step s in
            m1 <- st32 m p (Z.shiftr s' 32) ;; seed_loop k' m1 (p + 4) s'
  end.
(** random.rs:65-88 *)
Definition seed (dflt : Z) (s0 : rstate) (m : mem) (sd : Z) : res (rstate * mem) :=
  let s := ensure dflt s0 in
  if rn s =? 0 then
    m' <- st32 m (x_ptr s) (sd mod 2 ^ 32) ;; Ok (s, m')
  else
    let s1 := {| x_ptr := x_ptr s; rn := rn s; ri := if (rn s =? 31) || (rn s =? 7) then 3 else 1; rj := 0 |} in
    m1 <- seed_loop (Z.to_nat (rn s)) m (x_ptr s) sd ;;
    x0 <- ld32 m1 (x_ptr s) ;;
    m2 <- st32 m1 (x_ptr s) (Z.lor x0 1) ;;
    Ok (s1, m2).

(** mod.rs:1155-1195 *)
Definition random (dflt : Z) (s0 : rstate) (m : mem) : res (rstate * mem * Z) :=
  let s := ensure dflt s0 in
  if rn s =? 0 then
    x_old <- ld32 m (x_ptr s) ;;
    let x_new := lcg31_step x_old in
    m' <- st32 m (x_ptr s) x_new ;; Ok (s, m', x_new)
  else
    xi <- ld32 m (x_ptr s + 4 * ri s) ;;
    xj <- ld32 m (x_ptr s + 4 * rj s) ;;
    let x_new := (xi + xj) mod 2 ^ 32 in
    m' <- st32 m (x_ptr s + 4 * ri s) x_new ;;
    let i' := ri s + 1 in let j' := rj s + 1 in
    Ok ({| x_ptr := x_ptr s; rn := rn s; ri := if i' =? rn s then 0 else i'; rj := if j' =? rn s then 0 else j' |},
        m', Z.shiftr x_new 1).
(** mod.rs:1397-1401 *)
Definition srandom := seed.
(** mod.rs:540-547 *)
Definition n_of_size (size : Z) : Z :=
  if size <=? 31 then 0 else if size <=? 63 then 7 else if size <=? 127 then 15 else if size <=? 255 then 31 else 63.
(** mod.rs:534-555 *)
Definition initstate (dflt : Z) (s0 : rstate) (m : mem) (sd st size : Z) : res (rstate * mem * Z) :=
  if size <? 8 then Ok (s0, m, NULL)
  else
    '(s, m1, old) <- save dflt s0 m ;;
    let s1 := {| x_ptr := st + 4; rn := n_of_size size; ri := ri s; rj := rj s |} in
    '(s2, m2) <- seed dflt s1 m1 sd ;;
    '(s3, m3, _) <- save dflt s2 m2 ;;
    Ok (s3, m3, old).
(** mod.rs:1360-1367 *)
Definition setstate (dflt : Z) (s0 : rstate) (m : mem) (st : Z) : res (rstate * mem * Z) :=
  '(s, m1, old) <- save dflt s0 m ;;
  s' <- load st m1 ;; Ok (s', m1, old).
