(** Specification for C15-C17, following the text of the C standard for strtol. *)
From Verif Require Import Base Ctype_spec.
From Coq Require Import String.
Open Scope string_scope.
Open Scope list_scope.
Open Scope Z_scope.

(** Value of a digit character: 0-9, then the letters a-z / A-Z for 10..35. *)
Definition digit_value (c v : Z) : Prop :=
  nth_error (codes "0123456789abcdefghijklmnopqrstuvwxyz") (Z.to_nat v) = Some c /\ 0 <= v \/
  nth_error (codes "0123456789ABCDEFGHIJKLMNOPQRSTUVWXYZ") (Z.to_nat v) = Some c /\ 0 <= v.
Definition is_digit (base c : Z) : Prop := exists v, digit_value c v /\ v < base.

(** [numeral base ds n]: the digit string [ds] denotes [n] in [base]. *)
Inductive numeral (base : Z) : list Z -> Z -> Prop :=
| num_nil : numeral base [] 0
| num_snoc ds n c v : numeral base ds n -> digit_value c v -> v < base ->
    numeral base (ds ++ [c]) (n * base + v).

(** [rest] does not begin with a character satisfying P. *)
Definition ends (P : Z -> Prop) (rest : list Z) : Prop :=
  match rest with [] => True | c :: _ => ~ P c end.

(** Optional sign: consumed text and whether it is negative. *)
Inductive sign : list Z -> bool -> Prop :=
| sign_none : sign [] false
| sign_plus : sign [43] false
| sign_minus : sign [45] true.

(** 0x or 0X followed by a hexadecimal digit *)
Definition hex_prefixed (body : list Z) : Prop :=
  exists x h t, body = 48 :: x :: h :: t /\ (x = 120 \/ x = 88) /\ is_digit 16 h.

(** Which prefix is skipped and which base applies. *)
Inductive radix (base : Z) (body : list Z) : list Z -> Z -> Prop :=
| radix_hex x t : hex_prefixed body -> body = 48 :: x :: t -> (base = 0 \/ base = 16) ->
    radix base body [48; x] 16
| radix_auto8 t : ~ hex_prefixed body -> base = 0 -> body = 48 :: t -> radix base body [] 8
| radix_auto10 : base = 0 -> ends (fun c => c = 48) body -> radix base body [] 10
| radix_plain : base <> 0 -> ~ (base = 16 /\ hex_prefixed body) -> radix base body [] base.

(** The subject sequence: text = white space, sign, prefix, digits, rest, where
    white space and digits are as long as possible. *)
Record subject (base : Z) (text : list Z) (neg : bool) (n : Z) (used : Z) (digits_read : list Z) : Prop := {
  subj_exists : exists ws sg pfx rest b,
    text = ws ++ sg ++ pfx ++ digits_read ++ rest /\
    Forall (fun c => In c spaces) ws /\ ends (fun c => In c spaces) (sg ++ pfx ++ digits_read ++ rest) /\
    sign sg neg /\ (sg = [] -> ends (fun c => c = 43 \/ c = 45) (pfx ++ digits_read ++ rest)) /\
    radix base (pfx ++ digits_read ++ rest) pfx b /\
    numeral b digits_read n /\ ends (is_digit b) rest /\
    used = len ws + len sg + len pfx + len digits_read }.

(** Result prescribed for a type with range [lo, hi].  Signed types clamp the signed
    value; unsigned types clamp the magnitude and negate modulo 2^64.
    Result: value, bytes consumed, errno. *)
Definition signed_result (lo hi : Z) (neg : bool) (n : Z) : Z * option Z :=
  let v := if neg then - n else n in
  if (v <? lo) then (lo, Some 34) else if (hi <? v) then (hi, Some 34) else (v, None).
Definition unsigned_result (neg : bool) (n : Z) : Z * option Z :=
  if 2 ^ 64 - 1 <? n then (2 ^ 64 - 1, Some 34)
  else ((if neg then - n else n) mod 2 ^ 64, None).

(** Text whose number part is a bare 0x / 0X with no hexadecimal digit after it. *)
Definition bare_0x (text : list Z) : Prop :=
  exists ws sg neg x t, text = ws ++ sg ++ 48 :: x :: t /\ Forall (fun c => In c spaces) ws /\
    sign sg neg /\ (x = 120 \/ x = 88) /\ ends (is_digit 16) t.
