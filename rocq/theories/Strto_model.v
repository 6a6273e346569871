(** Model of the integer conversions: src/macros.rs strto_impl!, the helpers of
    src/header/stdlib/mod.rs, src/header/inttypes/mod.rs, atoi and friends, a64l/l64a.
    64-bit c_long / c_ulong. *)
From Verif Require Import Base Ctype_model.

Definition EINVAL : Z := 22.
Definition ERANGE : Z := 34.
Definition ULONG_MAX : Z := 18446744073709551615.
Definition LONG_MAX : Z := 9223372036854775807.
Definition LONG_MIN : Z := -9223372036854775808.
(** [as i64], [as u64], [as i32] *)
Definition to_i64 (v : Z) : Z := (v + 2 ^ 63) mod 2 ^ 64 - 2 ^ 63.
Definition to_u64 (v : Z) : Z := v mod 2 ^ 64.
Definition to_i32 (v : Z) : Z := (v + 2 ^ 31) mod 2 ^ 32 - 2 ^ 31.

(** stdlib/mod.rs:1403-1410 *)
Definition is_positive (ch : Z) : option (bool * Z) :=
  if ch =? 0 then None
  else if ch =? 43 then Some (true, 1)
  else if ch =? 45 then Some (false, 1)
  else Some (true, 0).

(** stdlib/mod.rs:1412-1430 *)
Definition detect_base (m : mem) (s : Z) : res (option (Z * Z)) :=
  first <- ld m s ;;
  if first =? 0 then Ok None
  else if first =? 48 then
    second <- ld m (s + 1) ;;
    Ok (Some (if (second =? 88) || (second =? 120) then (16, 2)
              else if (48 <=? second) && (second <=? 55) then (8, 1)
              else (8, 0)))
  else Ok (Some (10, 0)).

(** stdlib/mod.rs:1466-1483, the 256-entry LOOKUP_TABLE: -1 except '0'..'9' (48..57),
    'A'..'Z' (65..90) and 'a'..'z' (97..122). *)
Definition lookup (b : Z) : Z :=
  if (48 <=? b) && (b <=? 57) then b - 48
  else if (65 <=? b) && (b <=? 90) then b - 55
  else if (97 <=? b) && (b <=? 122) then b - 87
  else -1.

(** stdlib/mod.rs:1485-1511: the digit loop.  State: num, idx, overflowed.  errno is
    set to ERANGE whenever [overflowed] becomes true; the caller sets it again. *)
Fixpoint convert_loop (fuel : nat) (m : mem) (s base num idx : Z) (ov : bool) : res (Z * Z * bool) :=
  match fuel with
  | O => OutOfFuel
  | S f =>
      b <- ld m (s + idx) ;;
      let val := lookup b in
      if (val =? -1) || (val >=? base) then Ok (num, idx, ov)
      else if num * base + val <=? ULONG_MAX
           then convert_loop f m s base (num * base + val) (idx + 1) ov
           else convert_loop f m s base ULONG_MAX (idx + 1) true
  end.
(** stdlib/mod.rs:1463-1518.  (checked_mul then checked_add fail iff the exact
    num*base+val exceeds ULONG_MAX, since val >= 0.) *)
Definition convert_integer (fuel : nat) (m : mem) (s base : Z) : res (option (Z * Z * bool)) :=
  '(num, idx, ov) <- convert_loop fuel m s base 0 0 false ;;
  Ok (if idx >? 0 then Some (num, idx, ov) else None).

(** stdlib/mod.rs:1433-1444 *)
Definition convert_octal (fuel : nat) (m : mem) (s : Z) : res (option (Z * Z * bool)) :=
  c <- ld m s ;;
  if negb (c =? 0) && (c =? 48) then
    r <- convert_integer fuel m (s + 1) 8 ;;
    Ok (match r with
        | Some (val, idx, ov) => Some (val, idx + 1, ov)
        | None => Some (0, 1, false)
        end)
  else Ok None.

(** stdlib/mod.rs:1446-1461 (&& short-circuits: s[1] is read only after s[0] = '0') *)
Definition convert_hex (fuel : nat) (m : mem) (s : Z) : res (option (Z * Z * bool)) :=
  c <- ld m s ;;
  pfx <- (if c =? 48 then d <- ld m (s + 1) ;; Ok ((d =? 120) || (d =? 88)) else Ok false) ;;
  if (pfx : bool) then
    r <- convert_integer fuel m (s + 2) 16 ;;
    Ok (match r with
        | Some (val, idx, ov) => Some (val, idx + 2, ov)
        | None => None
        end)
  else convert_integer fuel m s 16.

(** macros.rs:252-255: skip white space from index [idx]; result is the new idx. *)
Fixpoint skip_space (fuel : nat) (m : mem) (s idx : Z) : res Z :=
  match fuel with
  | O => OutOfFuel
  | S f => b <- ld m (s + idx) ;;
           if negb (isspace (sx8 b) =? 0) then skip_space f m s (idx + 1) else Ok idx
  end.

(** What a strto* call delivers: return value, the address stored in *endptr when
    endptr is not NULL, and the value stored in errno, if any.  The store through
    endptr itself (macros.rs:228-238) is not modelled. *)
Record strto_out := { value : Z; endp : Z; err : option Z }.

(** macros.rs:218-316 strto_impl!.  [cast] is [as $rettype] followed by
    [overflowing_neg] for a negative sign: [cast v] maps an integer to the result type
    modulo 2^64. *)
Definition strto_impl (cast : Z -> Z) (check_sign : bool) (max_val min_val : Z)
    (fuel : nat) (m : mem) (s base : Z) : res strto_out :=
  let invalid := Ok {| value := 0; endp := s; err := Some EINVAL |} in
  if negb (base =? 0) && negb ((2 <=? base) && (base <=? 36)) then invalid
  else
    idx0 <- skip_space fuel m s 0 ;;
    ch <- ld m (s + idx0) ;;
    match is_positive ch with
    | None => invalid
    | Some (positive, i0) =>
        let idx1 := idx0 + i0 in
        let num_str := s + idx1 in
        r <- (if base =? 0 then
                d <- detect_base m num_str ;;
                match d with
                | None => Ok None
                | Some (b, i) =>
                    c <- convert_integer fuel m (num_str + i) b ;;
                    Ok (match c with Some (num, k, ov) => Some (num, i + k, ov) | None => None end)
                end
              else if base =? 8 then convert_octal fuel m num_str
              else if base =? 16 then convert_hex fuel m num_str
              else convert_integer fuel m num_str base) ;;
        match r with
        | None => invalid
        | Some (num, i, ov) =>
            let idx := idx1 + i in
            let overflow := if check_sign then ov || (to_i64 num <? 0) else ov in
            if overflow then
              Ok {| value := if check_sign then (if positive then max_val else min_val) else max_val;
                    endp := s + idx; err := Some ERANGE |}
            else
              Ok {| value := if positive then cast num else cast (- cast num);
                    endp := s + idx; err := None |}
        end
    end.

(** stdlib/mod.rs:1532-1540 strtol, 1550-1565 strtoll *)
Definition strtol := strto_impl to_i64 true LONG_MAX LONG_MIN.
Definition strtoll := strto_impl to_i64 true LONG_MAX LONG_MIN.
(** stdlib/mod.rs:1574-1590 strtoul, 1598-1614 strtoull; inttypes/mod.rs:82-97 strtoumax *)
Definition strtoul := strto_impl to_u64 false ULONG_MAX 0.
Definition strtoull := strto_impl to_u64 false ULONG_MAX 0.
Definition strtoumax := strto_impl to_u64 false ULONG_MAX 0.
(** inttypes/mod.rs:58-73: signed result type but CHECK_SIGN = false *)
Definition strtoimax := strto_impl to_i64 false LONG_MAX LONG_MIN.

(** ** atoi, atol, atoll: stdlib/mod.rs:192-223 dec_num_from_ascii!.
    Overflow of the accumulator panics in debug builds and wraps in release builds;
    modelled as Panic, i.e. the theorems show that it does not happen. [lo], [hi]: the
    range of the type. *)
Definition in_range (lo hi v : Z) : bool := (lo <=? v) && (v <=? hi).
Definition checked (lo hi v : Z) : res Z := if in_range lo hi v then Ok v else Panic.
Fixpoint dec_loop (fuel : nat) (m : mem) (lo hi s n : Z) : res Z :=
  match fuel with
  | O => OutOfFuel
  | S f => b <- ld m s ;;
           if negb (isdigit (sx8 b) =? 0) then
             t <- checked lo hi (10 * n) ;;
             n' <- checked lo hi (t - (sx8 b - 48)) ;;
             dec_loop f m lo hi (s + 1) n'
           else Ok n
  end.
Definition dec_num (lo hi : Z) (fuel : nat) (m : mem) (s : Z) : res Z :=
  k <- skip_space fuel m s 0 ;;
  c <- ld m (s + k) ;;
  let neg := c =? 45 in
  let s1 := if (c =? 45) || (c =? 43) then s + k + 1 else s + k in
  n <- dec_loop fuel m lo hi s1 0 ;;
  if neg then Ok n else checked lo hi (- n).
Definition INT_MAX : Z := 2147483647.
Definition INT_MIN : Z := -2147483648.
(** stdlib/mod.rs:227-241 *)
Definition atoi := dec_num INT_MIN INT_MAX.
Definition atol := dec_num LONG_MIN LONG_MAX.
Definition atoll := dec_num LONG_MIN LONG_MAX.

(** ** a64l / l64a *)
(** stdlib/mod.rs:95-110: value of one character, None = "return 0" *)
Definition a64_digit (c : Z) : option Z :=
  if (46 <=? c) && (c <=? 57) then Some (c - 46)
  else if (65 <=? c) && (c <=? 90) then Some (c - 53)
  else if (97 <=? c) && (c <=? 122) then Some (c - 59)
  else None.
(** stdlib/mod.rs:91-113; [k] iterations remain, [i] done.  The shift is an i32
    shift: bits beyond 31 are lost. *)
Fixpoint a64l_loop (k : nat) (m : mem) (s i l : Z) : res Z :=
  match k with
  | O => Ok l
  | S k' => c <- ld m (s + i) ;;
            if c =? 0 then Ok l
            else match a64_digit (sx8 c) with
                 | None => Ok 0
                 | Some d => a64l_loop k' m s (i + 1) (Z.lor l (to_i32 (Z.shiftl d (6 * i))))
                 end
  end.
(** stdlib/mod.rs:82-116 *)
Definition a64l (m : mem) (s : Z) : res Z := if s =? NULL then Ok 0 else a64l_loop 6 m s 0 0.

(** i32::leading_zeros *)
Definition leading_zeros32 (v : Z) : Z :=
  if v <? 0 then 0 else if v =? 0 then 32 else 31 - Z.log2 v.
(** stdlib/mod.rs:600-614 *)
Definition l64_char (d : Z) : Z :=
  if d <=? 11 then 46 + d else if d <=? 37 then 53 + d else 59 + d.
(** stdlib/mod.rs:579-618: the characters put in the (zeroed, 7 byte) static buffer *)
Definition l64a (value : Z) : list Z :=
  let v := to_i32 value in
  let n := 6 - (leading_zeros32 v + 4) / 6 in
  map (fun i => l64_char (Z.land (Z.shiftr v (6 * Z.of_nat i)) 63)) (seq 0 (Z.to_nat n)).
