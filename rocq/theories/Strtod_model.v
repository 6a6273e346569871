(* Model of strtod, strtof (src/macros.rs:320-443 strto_float_impl!, stdlib/mod.rs:1515-1524),
   atof (stdlib/mod.rs:186-189) and wcstod (wchar/mod.rs:779-817).  The arithmetic of f64 and
   f32 is Flocq's IEEE 754 (BinarySingleNaN, round to nearest even).  Integer arithmetic
   wraps, as in a release build.  The store through endptr is not modelled: the result is the
   value and the address stored when endptr is not NULL. *)
From Coq Require Import ZArith.
From Flocq Require Import Core IEEE754.BinarySingleNaN.
From Verif Require Import Base Ctype_model Strto_model Inet_model Wcsto_model.

Section Float.
  Variables prec emax : Z.
  Variable Hp : Prec_gt_0 prec.
  Variable He : Prec_lt_emax prec emax.
  Definition fl := binary_float prec emax.
  (* an integer [as $type] (also the literals of integral value) *)
  Definition of_int (z : Z) : fl := binary_normalize prec emax Hp He mode_NE z 0 false.
  Definition fadd (x y : fl) : fl := Bplus mode_NE x y.
  Definition fsub (x y : fl) : fl := Bminus mode_NE x y.
  Definition fmul (x y : fl) : fl := Bmult mode_NE x y.
  Definition fdiv (x y : fl) : fl := Bdiv mode_NE x y.

  (* to_digit(radix) of a byte as a char, macros.rs:364, 374, 403; radix is 10 or 16 *)
  Definition digit_of (c radix : Z) : option Z :=
    let v := lookup c in if (v =? -1) || (v >=? radix) then None else Some v.

  (* macros.rs:364-368 *)
  Fixpoint int_loop (fuel : nat) (m : mem) (radix s : Z) (result : fl) : res (fl * Z) :=
    match fuel with
    | O => OutOfFuel
    | S f => c <- ld m s ;;
             match digit_of c radix with
             | None => Ok (result, s)
             | Some digit => int_loop f m radix (s + 1) (fadd (fmul result (of_int radix)) (of_int digit))
             end
    end.
  (* macros.rs:373-378 *)
  Fixpoint frac_loop (fuel : nat) (m : mem) (radix s : Z) (i result : fl) : res (fl * Z) :=
    match fuel with
    | O => OutOfFuel
    | S f => c <- ld m s ;;
             match digit_of c radix with
             | None => Ok (result, s)
             | Some digit =>
                 let i := fmul i (of_int radix) in
                 frac_loop f m radix (s + 1) i (fadd result (fdiv (of_int digit) i))
             end
    end.
  (* macros.rs:401-407; exponent_value is a u32 *)
  Fixpoint exp_loop (fuel : nat) (m : mem) (s value : Z) : res (Z * Z) :=
    match fuel with
    | O => OutOfFuel
    | S f => c <- ld m s ;;
             match digit_of c 10 with
             | None => Ok (value, s)
             | Some digit => exp_loop f m (s + 1) (((value * 10) mod 2 ^ 32 + digit) mod 2 ^ 32)
             end
    end.
  (* u128::pow *)
  Definition pow128 (b e : Z) : Z := b ^ e mod 2 ^ 128.

  (* macros.rs:381-427 *)
  Definition exponent (fuel : nat) (m : mem) (radix s : Z) : res (option fl * Z) :=
    c <- ld m s ;;
    if ((c =? 101) || (c =? 69)) && (radix =? 10) || ((c =? 112) || (c =? 80)) && (radix =? 16) then
      let s1 := s + 1 in
      g <- ld m s1 ;;
      let '(positive, s2) := if g =? 45 then (false, s1 + 1) else if g =? 43 then (true, s1 + 1) else (true, s1) in
      d <- ld m s2 ;;
      match digit_of d 10 with
      | None => Ok (None, s)
      | Some _ =>
          '(value, s3) <- exp_loop fuel m s2 0 ;;
          let p := of_int (pow128 (if radix =? 10 then 10 else 2) value) in
          Ok (Some (if positive then p else fdiv (of_int 1) p), s3)
      end
    else Ok (None, s).

  (* rust_s.to_lowercase().starts_with(w) for a three-letter w of "inf", "nan": no character
     outside ASCII has a lower case beginning with one of these letters alone, so this is a
     comparison of three bytes without regard to case. *)
  Definition starts_ci (l w : list Z) : bool :=
    match l, w with
    | a :: b :: c :: _, [x; y; z] => (tolower a =? x) && (tolower b =? y) && (tolower c =? z)
    | _, _ => false
    end.

  (* macros.rs:320-443 *)
  Definition strto_float (fuel : nat) (m : mem) (s0 : Z) : res (fl * Z) :=
    i <- skip_space fuel m s0 0 ;;
    let s := s0 + i in
    g <- ld m s ;;
    let '(sign, s) := if g =? 45 then (of_int (-1), s + 1) else if g =? 43 then (of_int 1, s + 1) else (of_int 1, s) in
    rust_s <- read_str fuel m s ;;
    if starts_ci rust_s [105; 110; 102] then Ok (fmul sign (B754_infinity false), s + 3)
    else if starts_ci rust_s [110; 97; 110] then Ok (fmul sign B754_nan, s + 3)
    else
      z <- ld m s ;;
      hex <- (if z =? 48 then x <- ld m (s + 1) ;; Ok (x =? 120) else Ok false) ;;
      let '(radix, s) := if (hex : bool) then (16, s + 2) else (10, s) in
      '(result, s) <- int_loop fuel m radix s (of_int 0) ;;
      c <- ld m s ;;
      '(result, s) <- (if c =? 46 then frac_loop fuel m radix (s + 1) (of_int 1) result else Ok (result, s)) ;;
      '(e, s) <- exponent fuel m radix s ;;
      Ok (match e with
          | Some e => fmul (fmul sign result) e
          | None => fmul sign result
          end, s).

  (* wchar/mod.rs:789-799, 802-814: the two digit loops of wcstod, over wide characters *)
  Fixpoint wint_loop (fuel : nat) (m : mem) (negative : bool) (p : Z) (result : fl) : res (fl * Z) :=
    match fuel with
    | O => OutOfFuel
    | S f => c <- ld m p ;;
             d <- to_digit c 10 ;;
             match d with
             | None => Ok (result, p)
             | Some digit =>
                 let r := fmul result (of_int 10) in
                 wint_loop f m negative (p + 1) (if negative then fsub r (of_int digit) else fadd r (of_int digit))
             end
    end.
  Fixpoint wfrac_loop (fuel : nat) (m : mem) (negative : bool) (p : Z) (scale result : fl) : res (fl * Z) :=
    match fuel with
    | O => OutOfFuel
    | S f => c <- ld m p ;;
             d <- to_digit c 10 ;;
             match d with
             | None => Ok (result, p)
             | Some digit =>
                 let scale := fdiv scale (of_int 10) in
                 let t := fmul (of_int digit) scale in
                 wfrac_loop f m negative (p + 1) scale (if negative then fsub result t else fadd result t)
             end
    end.
  (* wchar/mod.rs:779-819 *)
  Definition wcsto_float (fuel : nat) (m : mem) (p : Z) : res (fl * Z) :=
    p <- skipws fuel m p ;;
    c <- ld m p ;;
    let negative := c =? 45 in
    let p := if negative then p + 1 else p in
    '(result, p) <- wint_loop fuel m negative p (of_int 0) ;;
    c <- ld m p ;;
    if c =? 46 then wfrac_loop fuel m negative (p + 1) (of_int 1) result else Ok (result, p).
End Float.

(* stdlib/mod.rs:1515-1518, 1521-1524, 186-189; wchar/mod.rs:779 *)
Definition prec64 : Prec_gt_0 53 := eq_refl.
Definition lt64 : Prec_lt_emax 53 1024 := eq_refl.
Definition prec32 : Prec_gt_0 24 := eq_refl.
Definition lt32 : Prec_lt_emax 24 128 := eq_refl.
Definition strtod : nat -> mem -> Z -> res (fl 53 1024 * Z) := strto_float 53 1024 prec64 lt64.
Definition strtof : nat -> mem -> Z -> res (fl 24 128 * Z) := strto_float 24 128 prec32 lt32.
Definition atof (fuel : nat) (m : mem) (s : Z) : res (fl 53 1024) := '(v, _) <- strtod fuel m s ;; Ok v.
Definition wcstod : nat -> mem -> Z -> res (fl 53 1024 * Z) := wcsto_float 53 1024 prec64 lt64.
