(* Model of the wide-string functions of src/header/wchar/mod.rs.  The memory holds one
   wchar_t (an i32) per cell, so an address here is a pointer divided by 4; a wide string
   and the narrow memory of the other models are never mixed in these functions.  [fuel]
   bounds the loops that end at a terminator. *)
From Verif Require Import Base String_model.

Definition to_i32 (x : Z) : Z := (x + 2147483648) mod 4294967296 - 2147483648.

(* wchar/mod.rs:584-586; NulTerminated::new(NULL).unwrap() panics *)
Definition wcslen (fuel : nat) (m : mem) (ws : Z) : res Z :=
  if ws =? NULL then Panic else count_nul fuel m ws 0.
(* wchar/mod.rs:650-663 *)
Fixpoint wcsnlen_loop (fuel : nat) (m : mem) (s maxlen l : Z) : res Z :=
  match fuel with
  | O => OutOfFuel
  | S f =>
      if l <? maxlen then
        c <- ld m s ;; if c =? 0 then Ok l else wcsnlen_loop f m (s + 1) maxlen (l + 1)
      else Ok l
  end.
Definition wcsnlen (fuel : nat) (m : mem) (s maxlen : Z) : res Z := wcsnlen_loop fuel m s maxlen 0.

(* wchar/mod.rs:514-526; iter.rs:103-125 *)
Fixpoint wcschr_loop (fuel : nat) (m : mem) (p wc : Z) : res Z :=
  match fuel with
  | O => OutOfFuel
  | S f => c <- ld m p ;; if c =? wc then Ok p else if c =? 0 then Ok NULL else wcschr_loop f m (p + 1) wc
  end.
Definition wcschr (fuel : nat) (m : mem) (ws wc : Z) : res Z :=
  if ws =? NULL then Ok NULL else wcschr_loop fuel m ws wc.
(* wchar/mod.rs:729-741 *)
Fixpoint wcsrchr_loop (fuel : nat) (m : mem) (ws wc i last : Z) : res Z :=
  match fuel with
  | O => OutOfFuel
  | S f =>
      c <- ld m (ws + i) ;;
      if c =? 0 then Ok last
      else wcsrchr_loop f m ws wc (i + 1) (if c =? wc then ws + i else last)
  end.
Definition wcsrchr (fuel : nat) (m : mem) (ws wc : Z) : res Z := wcsrchr_loop fuel m ws wc 0 NULL.

(* wchar/mod.rs:542-552 *)
Fixpoint wcscpy_loop (fuel : nat) (m : mem) (d s i : Z) : res mem :=
  match fuel with
  | O => OutOfFuel
  | S f => c <- ld m (s + i) ;; m <- st m (d + i) c ;; if c =? 0 then Ok m else wcscpy_loop f m d s (i + 1)
  end.
Definition wcscpy (fuel : nat) (m : mem) (d s : Z) : res (mem * Z) :=
  m <- wcscpy_loop fuel m d s 0 ;; Ok (m, d).
(* wchar/mod.rs:446-448 *)
Definition wcpcpy (fuel : nat) (m : mem) (d s : Z) : res (mem * Z) :=
  '(m, d) <- wcscpy fuel m d s ;; n <- wcslen fuel m s ;; Ok (m, d + n).

(* wchar/mod.rs:627-646: the copying loop, then the padding *)
Fixpoint wcsncpy_loop (fuel : nat) (m : mem) (d s n i : Z) : res (mem * Z) :=
  match fuel with
  | O => OutOfFuel
  | S f =>
      if i <? n then
        c <- ld m (s + i) ;; m <- st m (d + i) c ;;
        if c =? 0 then Ok (m, i + 1) else wcsncpy_loop f m d s n (i + 1)
      else Ok (m, i)
  end.
Definition wcsncpy (fuel : nat) (m : mem) (d s n : Z) : res (mem * Z) :=
  '(m, i) <- wcsncpy_loop fuel m d s n 0 ;;
  m <- fill (Z.to_nat (n - i)) m (d + i) 0 ;;
  Ok (m, d).
(* wchar/mod.rs:452-454 *)
Definition wcpncpy (fuel : nat) (m : mem) (d s n : Z) : res (mem * Z) :=
  '(m, d) <- wcsncpy fuel m d s n ;; k <- wcsnlen fuel m s n ;; Ok (m, d + k).

(* wchar/mod.rs:590-608 *)
Fixpoint wcsncat_loop (fuel : nat) (m : mem) (d s n i : Z) : res (mem * Z) :=
  match fuel with
  | O => OutOfFuel
  | S f =>
      if i <? n then
        c <- ld m (s + i) ;;
        if c =? 0 then Ok (m, i) else m <- st m (d + i) c ;; wcsncat_loop f m d s n (i + 1)
      else Ok (m, i)
  end.
Definition wcsncat (fuel : nat) (m : mem) (d s n : Z) : res (mem * Z) :=
  l <- wcslen fuel m d ;;
  '(m, i) <- wcsncat_loop fuel m (d + l) s n 0 ;;
  m <- st m (d + l + i) 0 ;;
  Ok (m, d).
(* wchar/mod.rs:503-505 *)
Definition wcscat (fuel : nat) (m : mem) (d s : Z) : res (mem * Z) := wcsncat fuel m d s USIZE_MAX.

(* wchar/mod.rs:612-623 *)
Fixpoint wcsncmp_loop (fuel : nat) (m : mem) (a b n i : Z) : res Z :=
  match fuel with
  | O => OutOfFuel
  | S f =>
      if i <? n then
        c <- ld m (a + i) ;; d <- ld m (b + i) ;;
        if negb (c =? d) then Ok (to_i32 (c - d)) else if c =? 0 then Ok 0 else wcsncmp_loop f m a b n (i + 1)
      else Ok 0
  end.
Definition wcsncmp (fuel : nat) (m : mem) (a b n : Z) : res Z := wcsncmp_loop fuel m a b n 0.
(* wchar/mod.rs:529-538: wcscmp and wcscoll *)
Definition wcscmp (fuel : nat) (m : mem) (a b : Z) : res Z := wcsncmp fuel m a b USIZE_MAX.
Definition wcscoll (fuel : nat) (m : mem) (a b : Z) : res Z := wcscmp fuel m a b.

(* wchar/mod.rs:554-561, 565-567, 745-747 *)
Fixpoint inner_wcsspn (fuel ifuel : nat) (m : mem) (wcs set : Z) (reject : bool) (count : Z) : res Z :=
  match fuel with
  | O => OutOfFuel
  | S f =>
      c <- ld m wcs ;;
      if c =? 0 then Ok count
      else
        p <- wcschr ifuel m set c ;;
        if eqb (p =? NULL) reject then inner_wcsspn f ifuel m (wcs + 1) set reject (count + 1) else Ok count
  end.
Definition wcscspn (fuel : nat) (m : mem) (wcs set : Z) : res Z := inner_wcsspn fuel fuel m wcs set true 0.
Definition wcsspn (fuel : nat) (m : mem) (wcs set : Z) : res Z := inner_wcsspn fuel fuel m wcs set false 0.
(* wchar/mod.rs:716-725 *)
Definition wcspbrk (fuel : nat) (m : mem) (wcs set : Z) : res Z :=
  n <- wcscspn fuel m wcs set ;; c <- ld m (wcs + n) ;; Ok (if c =? 0 then NULL else wcs + n).
(* wchar/mod.rs:751-776 *)
Definition wcsstr (fuel : nat) (m : mem) (ws1 ws2 : Z) : res Z :=
  n2 <- wcslen fuel m ws2 ;;
  if n2 =? 0 then Ok ws1
  else
    n1 <- wcslen fuel m ws1 ;;
    l1 <- ld_bytes (Z.to_nat n1) m ws1 ;; l2 <- ld_bytes (Z.to_nat n2) m ws2 ;;
    Ok (match find_window (Z.to_nat n2) l2 l1 with Some i => ws1 + i | None => NULL end).
(* wchar/mod.rs:822-854; the result: memory, new *state, token *)
Definition wcstok (fuel : nat) (m : mem) (wcs delim state : Z) : res (mem * Z * Z) :=
  if (wcs =? NULL) && (state =? NULL) then Ok (m, state, NULL)
  else
    let wcs := if wcs =? NULL then state else wcs in
    n <- wcsspn fuel m wcs delim ;;
    let wcs := wcs + n in
    c <- ld m wcs ;;
    if c =? 0 then Ok (m, NULL, NULL)
    else
      e <- wcspbrk fuel m wcs delim ;;
      if e =? NULL then Ok (m, NULL, wcs) else m <- st m e 0 ;; Ok (m, e + 1, wcs).

(* wchar/mod.rs:995-1003 *)
Fixpoint wmemchr_loop (k : nat) (m : mem) (p wc : Z) : res Z :=
  match k with
  | O => Ok NULL
  | S k => c <- ld m p ;; if c =? wc then Ok p else wmemchr_loop k m (p + 1) wc
  end.
Definition wmemchr (m : mem) (ws wc n : Z) : res Z := wmemchr_loop (Z.to_nat n) m ws wc.
(* wchar/mod.rs:1006-1015 *)
Fixpoint wmemcmp_loop (k : nat) (m : mem) (a b : Z) : res Z :=
  match k with
  | O => Ok 0
  | S k => c <- ld m a ;; d <- ld m b ;; if negb (c =? d) then Ok (to_i32 (c - d)) else wmemcmp_loop k m (a + 1) (b + 1)
  end.
Definition wmemcmp (m : mem) (a b n : Z) : res Z := wmemcmp_loop (Z.to_nat n) m a b.
(* wchar/mod.rs:1019-1050: memcpy and memmove of n * 4 bytes; the product wraps *)
Definition cells (n : Z) : Z := (n * 4) mod 2 ^ 64 / 4.
Definition wmemcpy (m : mem) (d s n : Z) : res (mem * Z) := memcpy m d s (cells n).
Definition wmemmove (m : mem) (d s n : Z) : res (mem * Z) := memmove m d s (cells n).
(* wchar/mod.rs:1053-1058 *)
Definition wmemset (m : mem) (ws wc n : Z) : res (mem * Z) := m <- fill (Z.to_nat n) m ws wc ;; Ok (m, ws).
