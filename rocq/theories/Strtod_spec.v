(* Specification for C118, after C 7.24.1.5 (strtod). *)
From Coq Require Import String Reals ZArith.
From Flocq Require Import Core IEEE754.BinarySingleNaN.
From Verif Require Import Base Ctype_spec Strto_spec.
Open Scope string_scope.
Open Scope list_scope.
Open Scope Z_scope.

(* [v] is finite and is the number of the format (precision prec, largest exponent emax)
   nearest to x, ties to even; [neg] is its sign bit (this matters for a zero). *)
Definition nearest (prec emax : Z) (x : R) (neg : bool) (v : binary_float prec emax) : Prop :=
  is_finite v = true /\
  B2R v = round radix2 (FLT_exp (3 - emax - prec) prec) ZnearestE x /\
  Bsign v = neg.

(* An exponent part (mark, optional sign, digits) at the start of a text. *)
Definition starts_exponent (marks l : list Z) : Prop :=
  exists c sg neg d t, l = c :: sg ++ d :: t /\ In c marks /\ sign sg neg /\ is_digit 10 d.
(* The exponent part [ex] before [rest], and the exponent. *)
Inductive exponent_part (marks rest : list Z) : list Z -> Z -> Prop :=
| ex_none : ~ starts_exponent marks rest -> exponent_part marks rest [] 0
| ex_some c sg (neg : bool) ds e : In c marks -> sign sg neg -> ds <> [] -> numeral 10 ds e -> ends (is_digit 10) rest ->
    exponent_part marks rest (c :: sg ++ ds) (if neg then - e else e).

(* What follows the integer digits: nothing, or a point and digits. *)
Inductive fraction : list Z -> list Z -> Prop :=
| fr_none : fraction [] []
| fr_point ds : fraction (46 :: ds) ds.

(* text = white space, sign, body, rest *)
Definition signed_text (text : list Z) (neg : bool) (body rest : list Z) (used : Z) : Prop :=
  exists ws sg, text = ws ++ sg ++ body ++ rest /\ Forall (fun c => In c spaces) ws /\ sign sg neg /\
    used = len ws + len sg + len body.

(* body = digits [. digits] [e exponent], all as long as possible in body ++ rest; its value
   is n * 10^(x - k) where k is the number of digits after the point. *)
Definition decimal (body rest : list Z) (n k x : Z) : Prop :=
  exists ids fr fds ex, body = ids ++ fr ++ ex /\ ids ++ fds <> [] /\ fraction fr fds /\
    numeral 10 (ids ++ fds) n /\ k = len fds /\ exponent_part (codes "eE") rest ex x /\
    ends (is_digit 10) (ex ++ rest) /\ (fr = [] -> ends (fun c => c = 46) (ex ++ rest)) /\
    (body = [48] -> ends (fun c => c = 120 \/ c = 88) rest).
(* body = 0x digits [. digits] [p exponent]; its value is n * 2^(x - 4k). *)
Definition hexadecimal (body rest : list Z) (n k x : Z) : Prop :=
  exists ids fr fds ex, body = codes "0x" ++ ids ++ fr ++ ex /\ ids ++ fds <> [] /\ fraction fr fds /\
    numeral 16 (ids ++ fds) n /\ k = len fds /\ exponent_part (codes "pP") rest ex x /\
    ends (is_digit 16) (ex ++ rest) /\ (fr = [] -> ends (fun c => c = 46) (ex ++ rest)).

Definition signed_real (neg : bool) (x : R) : R := if neg then (- x)%R else x.

(* [w] is the word [lower] in any mixture of cases. *)
Definition any_case (w lower : list Z) : Prop :=
  Forall2 (fun a b => a = b \/ a = b - 32) w lower.
