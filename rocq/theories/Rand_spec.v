(** Specification for C20 (drand48 family) and C21 (random). *)
From Verif Require Import Base Word_mem Rand_model.

(** ** C20, in plain modular arithmetic as in POSIX *)
Definition val3 (a : Z * Z * Z) : Z := let '(x0, x1, x2) := a in x0 + 2 ^ 16 * x1 + 2 ^ 32 * x2.
Definition arr3 (v : Z) : Z * Z * Z := (v mod 2 ^ 16, v / 2 ^ 16 mod 2 ^ 16, v / 2 ^ 32 mod 2 ^ 16).
Definition u16 (v : Z) : Prop := 0 <= v < 2 ^ 16.
Definition arr_ok (a : Z * Z * Z) : Prop := let '(x0, x1, x2) := a in u16 x0 /\ u16 x1 /\ u16 x2.
(** arguments in the range of their C types *)
Definition arg_ok (o : op48) : Prop :=
  match o with
  | Drand | Lrand | Mrand | Srand _ => True
  | Erand x | Nrand x | Jrand x | Seed x => arr_ok x
  | Lcong x a c => arr_ok x /\ arr_ok a /\ u16 c
  end.
Definition state_ok (g : r48) : Prop := 0 <= gx g < 2 ^ 48 /\ 0 <= ga g < 2 ^ 48 /\ 0 <= gc g < 2 ^ 16.

Definition next48 (g : r48) (x : Z) : Z := (ga g * x + gc g) mod 2 ^ 48.
Definition with_x (g : r48) (x : Z) : r48 := {| gx := x; ga := ga g; gc := gc g |}.
Definition top31 (x : Z) : Z := x / 2 ^ 17.
Definition top32s (x : Z) : Z := let h := x / 2 ^ 16 in if h <? 2 ^ 31 then h else h - 2 ^ 32.
Definition defaults (x : Z) : r48 := {| gx := x; ga := 25214903917; gc := 11 |}.
(** A double is returned as from_bits(b) - 1.0 with this b; that its value is x / 2^48
    is theorem C20_double_value. *)
Definition dbl (x : Z) : Z := 1023 * 2 ^ 52 + 16 * x.
Definition spec48 (g : r48) (o : op48) : r48 * out48 :=
  match o with
  | Drand => let x := next48 g (gx g) in (with_x g x, OutF (dbl x))
  | Lrand => let x := next48 g (gx g) in (with_x g x, OutI (top31 x))
  | Mrand => let x := next48 g (gx g) in (with_x g x, OutI (top32s x))
  | Erand a => let x := next48 g (val3 a) in (g, OutFA (dbl x) (arr3 x))
  | Nrand a => let x := next48 g (val3 a) in (g, OutIA (top31 x) (arr3 x))
  | Jrand a => let x := next48 g (val3 a) in (g, OutIA (top32s x) (arr3 x))
  | Srand s => (defaults (2 ^ 16 * (s mod 2 ^ 32) + 13070), OutU)   (* 0x330E *)
  | Seed a => (defaults (val3 a), OutA (arr3 (gx g)))
  | Lcong x a c => ({| gx := val3 x; ga := val3 a; gc := c |}, OutU)
  end.
Fixpoint spec48s (g : r48) (l : list op48) : r48 * list out48 :=
  match l with
  | [] => (g, [])
  | o :: l' => let '(g1, r) := spec48 g o in let '(g2, rs) := spec48s g1 l' in (g2, r :: rs)
  end.

(** ** C21 *)
(** A generator: either the 31-bit LCG (8-byte states) or an additive lagged
    Fibonacci generator with lag table [xs]. *)
Inductive gen := Lcg (x : Z) | Lag (i j : Z) (xs : list Z).
Definition nthZ (l : list Z) (i : Z) : Z := nth (Z.to_nat i) l 0.
Definition setZ (l : list Z) (i v : Z) : list Z := firstn (Z.to_nat i) l ++ v :: skipn (S (Z.to_nat i)) l.
Definition gen_next (g : gen) : gen * Z :=
  match g with
  | Lcg x => let y := (1103515245 * x + 12345) mod 2 ^ 31 in (Lcg y, y)
  | Lag i j xs =>
      let y := (nthZ xs i + nthZ xs j) mod 2 ^ 32 in
      (Lag ((i + 1) mod len xs) ((j + 1) mod len xs) (setZ xs i y), y / 2)
  end.
Fixpoint lcg64_words (n : nat) (s : Z) : list Z :=
  match n with
  | O => []
  | S n' => let s' := (6364136223846793005 * s + 1) mod 2 ^ 64 in s' / 2 ^ 32 :: lcg64_words n' s'
  end.
Definition make_odd (l : list Z) : list Z :=
  match l with [] => [] | x :: l' => (if Z.even x then x + 1 else x) :: l' end.
(** The generator with [n] words (n = 0: the LCG) after seeding. *)
Definition seeded (n s : Z) : gen :=
  if n =? 0 then Lcg s
  else Lag (if (n =? 31) || (n =? 7) then 3 else 1) 0 (make_odd (lcg64_words (Z.to_nat n) s)).
Definition gen_n (g : gen) : Z := match g with Lcg _ => 0 | Lag _ _ xs => len xs end.

(** What the client sees: which buffer is current and which generator each
    initialised buffer holds. *)
Record world := { cur : Z; tbl : Z -> option gen }.
Definition put (t : Z -> option gen) (p : Z) (g : gen) : Z -> option gen :=
  fun q => if q =? p then Some g else t q.
Inductive rop := Random | Srandom (s : Z) | Initstate (s p size : Z) | Setstate (p : Z).
(** abstract semantics: new world and returned value (0 for srandom) *)
Definition world_step (w : world) (o : rop) : option (world * Z) :=
  match tbl w (cur w) with
  | None => None
  | Some g =>
      match o with
      | Random => let '(g', r) := gen_next g in Some ({| cur := cur w; tbl := put (tbl w) (cur w) g' |}, r)
      | Srandom s => Some ({| cur := cur w; tbl := put (tbl w) (cur w) (seeded (gen_n g) s) |}, 0)
      | Initstate s p size =>
          if size <? 8 then Some (w, 0)
          else Some ({| cur := p; tbl := put (tbl w) p (seeded (n_of_size size) s) |}, cur w)
      | Setstate p =>
          match tbl w p with Some _ => Some ({| cur := p; tbl := tbl w |}, cur w) | None => None end
      end
  end.
Fixpoint world_run (w : world) (l : list rop) : option (world * list Z) :=
  match l with
  | [] => Some (w, [])
  | o :: l' => match world_step w o with
               | None => None
               | Some (w1, r) => match world_run w1 l' with
                                 | None => None
                                 | Some (w2, rs) => Some (w2, r :: rs)
                                 end
               end
  end.

(** Buffers the client owns (address, size), the default table included. *)
Record buffers_ok (dflt : Z) (bufs : list (Z * Z)) (m : mem) : Prop := {
  b_pos : forall p n, In (p, n) bufs -> 0 < p /\ 8 <= n;
  b_map : forall p n, In (p, n) bufs -> mapped m p n;
  b_disj : forall p n q k, In (p, n) bufs -> In (q, k) bufs -> p <> q -> disjoint p n q k;
  b_uniq : forall p n k, In (p, n) bufs -> In (p, k) bufs -> n = k;
  b_dflt : In (dflt, 128) bufs }.
(** arguments the C interface allows *)
Definition rop_ok (bufs : list (Z * Z)) (o : rop) : Prop :=
  match o with
  | Random | Setstate _ => True
  | Srandom s => 0 <= s < 2 ^ 32
  | Initstate s p size => 0 <= s < 2 ^ 32 /\ exists n, In (p, n) bufs /\ size <= n
  end.

(** ** the client-visible run of the model *)
Definition rstep (dflt : Z) (s : rstate) (m : mem) (o : rop) : res (rstate * mem * Z) :=
  match o with
  | Random => random dflt s m
  | Srandom sd => '(s', m') <- srandom dflt s m sd ;; Ok (s', m', 0)
  | Initstate sd p size => initstate dflt s m sd p size
  | Setstate p => setstate dflt s m p
  end.
Fixpoint rrun (dflt : Z) (s : rstate) (m : mem) (l : list rop) : res (rstate * mem * list Z) :=
  match l with
  | [] => Ok (s, m, [])
  | o :: l' => '(s1, m1, r) <- rstep dflt s m o ;; '(s2, m2, rs) <- rrun dflt s1 m1 l' ;; Ok (s2, m2, r :: rs)
  end.

(** State of random() at process start (random.rs:91-107) *)
Definition rstart : rstate := {| x_ptr := NULL; rn := 31; ri := 3; rj := 0 |}.
(** random.rs:12-21 without its first word *)
Definition DEFAULT_X : list Z := [
                0x5851f42d; 0xc0b18ccf; 0xcbb5f646;
    0xc7033129; 0x30705b04; 0x20fd5db4; 0x9a8b7f78;
    0x502959d8; 0xab894868; 0x6c0356a7; 0x88cdb7ff;
    0xb477d43f; 0x70a3a52b; 0xa8e4baf1; 0xfd8341fc;
    0x8ae16fd9; 0x742d2f7a; 0x0d1f0796; 0x76035e09;
    0x40f7702c; 0x6fa72ca5; 0xaaa84157; 0x58a0df74;
    0xc74a0364; 0xae533cc4; 0x04185faf; 0x6de3b115;
    0x0cab8628; 0xf043bfa4; 0x398150e9; 0x37521657].
(** Memory at process start: the client's buffers are in place and the default table
    holds its initial contents. *)
Definition at_start (dflt : Z) (bufs : list (Z * Z)) (m : mem) : Prop :=
  buffers_ok dflt bufs m /\ words_at m (dflt + 4) DEFAULT_X.
(** At start only the default state exists, seeded as by srandom(1) (POSIX). *)
Definition world0 (dflt : Z) : world := {| cur := dflt; tbl := put (fun _ => None) dflt (seeded 31 1) |}.
(** A call that does not name the buffer [p]. *)
Definition avoids (p : Z) (o : rop) : Prop :=
  match o with Random | Srandom _ => True | Initstate _ q _ => q <> p | Setstate q => q <> p end.
