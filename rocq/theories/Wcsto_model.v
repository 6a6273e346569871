(* Model of wcstol, wcstoll, wcstoul, wcstoull: src/macros.rs skipws! and wcsto_impl!,
   src/header/wchar/mod.rs:864-939.  64-bit c_long / c_ulong; the memory holds one wchar_t
   per cell as in Wcs_model.v, so [p + 1] is the next wide character.  Release build: the
   unchecked arithmetic wraps. *)
From Verif Require Import Base Ctype_model Strto_model.

(* The result of a call: value, what is stored through endptr when endptr is not NULL
   ([None]: nothing is stored), errno if it is set. *)
Record wcsto_out := { wvalue : Z; wend : option Z; werr : option Z }.

(* macros.rs:133-139 skipws! ([isspace] is given the wchar_t itself) *)
Fixpoint skipws (fuel : nat) (m : mem) (p : Z) : res Z :=
  match fuel with
  | O => OutOfFuel
  | S f => c <- ld m p ;; if negb (isspace c =? 0) then skipws f m (p + 1) else Ok p
  end.

(* char::from_u32(c as u32).and_then(|c| c.to_digit(radix)), macros.rs:172-174.  to_digit
   panics for a radix outside 2..=36, but only if it is called. *)
Definition scalar_value (c : Z) : bool :=
  ((0 <=? c) && (c <? 55296)) || ((57344 <=? c) && (c <=? 1114111)).
Definition to_digit (c radix : Z) : res (option Z) :=
  if negb (scalar_value c) then Ok None
  else if negb ((2 <=? radix) && (radix <=? 36)) then Panic
  else Ok (let v := lookup c in if (v =? -1) || (v >=? radix) then None else Some v).

(* checked_mul, then checked_sub or checked_add, in a type with range [lo, hi];
   macros.rs:175-199 (the branches not for x86) *)
Definition checked (lo hi v : Z) : option Z := if (lo <=? v) && (v <=? hi) then Some v else None.
Definition digit_step (lo hi : Z) (minus : bool) (base result digit : Z) : option Z :=
  match checked lo hi (result * base) with
  | None => None
  | Some r => checked lo hi (if minus && negb (lo =? 0) then r - digit else r + digit)
  end.

(* macros.rs:171-209: the digit loop.  [None]: overflow, the function has returned. *)
Fixpoint wcsto_loop (fuel : nat) (m : mem) (lo hi : Z) (minus : bool) (base p result : Z) : res (option (Z * Z)) :=
  match fuel with
  | O => OutOfFuel
  | S f =>
      c <- ld m p ;;
      d <- to_digit c base ;;
      match d with
      | None => Ok (Some (result, p))
      | Some digit =>
          match digit_step lo hi minus base result digit with
          | None => Ok None
          | Some new => wcsto_loop f m lo hi minus base (p + 1) new
          end
      end
  end.

(* macros.rs:154-169: the prefix and the base (&& short-circuits: p[1] is read only if
   p[0] is '0') *)
Definition wcsto_base (m : mem) (p base : Z) : res (Z * Z) :=
  c <- ld m p ;;
  pfx <- (if ((base =? 16) || (base =? 0)) && (c =? 48) then
            x <- ld m (p + 1) ;; Ok ((x =? 120) || (x =? 88))
          else Ok false) ;;
  if (pfx : bool) then Ok (p + 2, 16)
  else Ok (p, if base =? 0 then (if c =? 48 then 8 else 10) else base).

(* macros.rs:141-215 wcsto_impl! after skipws!, and the store through endptr in the
   callers.  The early return on overflow leaves the whole function, so nothing is stored
   through endptr; it returns !0. *)
Definition wcsto_impl (lo hi : Z) (fuel : nat) (m : mem) (nptr base : Z) : res wcsto_out :=
  p <- skipws fuel m nptr ;;
  c <- ld m p ;;
  let has_minus := c =? 45 in
  let has_plus := c =? 43 in
  let p := if has_minus || has_plus then p + 1 else p in
  '(p, base) <- wcsto_base m p base ;;
  r <- wcsto_loop fuel m lo hi has_minus base p 0 ;;
  Ok (match r with
      | None => {| wvalue := if lo =? 0 then hi else -1; wend := None; werr := Some ERANGE |}
      | Some (result, p) =>
          {| wvalue := if has_minus && (lo =? 0) then (hi - result + 1) mod (hi + 1) else result;
             wend := Some p; werr := None |}
      end).

(* wchar/mod.rs:864-875, 886-897, 907-918, 928-939 *)
Definition wcstol := wcsto_impl LONG_MIN LONG_MAX.
Definition wcstoll := wcsto_impl LONG_MIN LONG_MAX.
Definition wcstoul := wcsto_impl 0 ULONG_MAX.
Definition wcstoull := wcsto_impl 0 ULONG_MAX.
