(** Model of src/header/ctype/mod.rs and the case-insensitive comparisons of
    src/header/strings/mod.rs.  [c] ranges over all integers; c_int::from(bool) is
    [b2i].  The _l variants ignore their locale and are the same functions. *)
From Verif Require Import Base.

Definition b2i (b : bool) : Z := if b then 1 else 0.

(** ctype/mod.rs:146 *)
Definition isdigit (c : Z) : Z := b2i ((48 <=? c) && (c <=? 57)).
(** ctype/mod.rs:204 *)
Definition islower (c : Z) : Z := b2i ((97 <=? c) && (c <=? 122)).
(** ctype/mod.rs:332 *)
Definition isupper (c : Z) : Z := b2i ((65 <=? c) && (c <=? 90)).
(** ctype/mod.rs:45 *)
Definition isalpha (c : Z) : Z := b2i (negb (islower c =? 0) || negb (isupper c =? 0)).
(** ctype/mod.rs:17 *)
Definition isalnum (c : Z) : Z := b2i (negb (isdigit c =? 0) || negb (isalpha c =? 0)).
(** ctype/mod.rs:77 *)
Definition isascii (c : Z) : Z := b2i (Z.land c (Z.lnot 127) =? 0).
(** ctype/mod.rs:90 *)
Definition isblank (c : Z) : Z := b2i ((c =? 32) || (c =? 9)).
(** ctype/mod.rs:118 *)
Definition iscntrl (c : Z) : Z := b2i (((0 <=? c) && (c <=? 31)) || (c =? 127)).
(** ctype/mod.rs:175 *)
Definition isgraph (c : Z) : Z := b2i ((33 <=? c) && (c <=? 126)).
(** ctype/mod.rs:233 *)
Definition isprint (c : Z) : Z := b2i ((32 <=? c) && (c <? 127)).
(** ctype/mod.rs:262-269 *)
Definition ispunct (c : Z) : Z :=
  b2i (((33 <=? c) && (c <=? 47)) || ((58 <=? c) && (c <=? 64)) ||
       ((91 <=? c) && (c <=? 96)) || ((123 <=? c) && (c <=? 126))).
(** ctype/mod.rs:296-305 *)
Definition isspace (c : Z) : Z :=
  b2i ((c =? 32) || (c =? 9) || (c =? 10) || (c =? 13) || (c =? 11) || (c =? 12)).
(** ctype/mod.rs:361 *)
Definition isxdigit (c : Z) : Z :=
  b2i (negb (isdigit c =? 0) || ((97 <=? Z.lor c 32) && (Z.lor c 32 <=? 102))).
(** ctype/mod.rs:391 *)
Definition toascii (c : Z) : Z := Z.land c 127.
(** ctype/mod.rs:403 *)
Definition tolower (c : Z) : Z := if negb (isupper c =? 0) then Z.lor c 32 else c.
(** ctype/mod.rs:428 *)
Definition toupper (c : Z) : Z := if negb (islower c =? 0) then Z.land c (Z.lnot 32) else c.

(** A byte read through [*const c_char] (c_char = i8 on x86_64) and widened to int. *)
Definition sx8 (b : Z) : Z := if b <? 128 then b else b - 256.

(** strings/mod.rs:117-125 strcasecmp, 136-144 strncasecmp, 154-158 inner_casecmp:
    the zip of the two strings (terminators included), cut to [n] pairs; result is the
    first non-zero difference, else 0.  strcasecmp has no [take]; modelled by
    [n = USIZE_MAX + 1].  Once either string yielded its NUL the zip ends.
    NULL arguments panic ([unwrap]). *)
Fixpoint casecmp_loop (fuel : nat) (m : mem) (a b n : Z) : res Z :=
  match fuel with
  | O => OutOfFuel
  | S f =>
      if n =? 0 then Ok 0
      else x <- ld m a ;; y <- ld m b ;;
           let d := tolower (sx8 x) - tolower (sx8 y) in
           if negb (d =? 0) then Ok d
           else if (x =? 0) || (y =? 0) then Ok 0
           else casecmp_loop f m (a + 1) (b + 1) (n - 1)
  end.
Definition strncasecmp (fuel : nat) (m : mem) (a b n : Z) : res Z :=
  if (a =? NULL) || (b =? NULL) then Panic else casecmp_loop fuel m a b n.
Definition strcasecmp (fuel : nat) (m : mem) (a b : Z) : res Z :=
  strncasecmp fuel m a b (USIZE_MAX + 1).
(** strings/mod.rs:68-91 ffs/ffsl/ffsll: 1 + trailing_zeros, 0 for 0.  [w] is the
    width of the type; [trailing_zeros] of the two's complement representation. *)
Fixpoint ctz (k : nat) (i : Z) : Z :=
  match k with
  | O => 0
  | S k' => if Z.testbit i 0 then 0 else 1 + ctz k' (Z.shiftr i 1)
  end.
Definition ffs (w : nat) (i : Z) : Z := if i =? 0 then 0 else 1 + ctz w i.
