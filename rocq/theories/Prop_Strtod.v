(* C118, C119: strtod, strtof, atof and wcstod.  Theorems only; lemmas are in Strtod_float.v,
   Strtod_proofs.v and Strtod_proofs2.v. *)
From Coq Require Import String Reals ZArith Lra.
From Flocq Require Import Core IEEE754.BinarySingleNaN.
From Verif Require Import Base Ctype_spec Strto_model Strto_spec Strto_proofs Wcs_spec
  Strtod_model Strtod_spec Strtod_float Strtod_proofs Strtod_proofs2.
Open Scope string_scope.
Open Scope list_scope.
Open Scope Z_scope.

(* Full statement: for every decimal text (any number of digits before and after the point,
   any exponent) the result is nearest to the number, or an infinity when out of range.
   Proved: no digit after the point, at most 2^53, exponent 0 to 22.  Refuted below: a
   fraction, a negative exponent, a large exponent. *)
Theorem C118_decimal_partial : forall fuel m s text neg body rest used n x,
  cstr m s text -> (length text < fuel)%nat -> signed_text text neg body rest used -> decimal body rest n 0 x ->
  n <= 2 ^ 53 -> 0 <= x <= 22 ->
  exists v, strtod fuel m s = Ok (v, s + used) /\ atof fuel m s = Ok v /\
    nearest 53 1024 (signed_real neg (IZR (n * 10 ^ x))) neg v.
Proof.
  intros * C F T D Ln Hx.
  assert (X5 : 5 ^ x <= 2 ^ 53) by (apply Z.le_trans with (5 ^ 22); [apply Z.pow_le_mono_r; lia|vm_compute; discriminate]).
  assert (X10 : n * 10 ^ x <= 2 ^ (1024 - 1)).
  { assert (10 ^ x <= 10 ^ 22) by (apply Z.pow_le_mono_r; lia). assert (0 < 10 ^ x) by (apply Z.pow_pos_nonneg; lia).
    apply Z.le_trans with (2 ^ 53 * 10 ^ 22); [apply Z.le_trans with (2 ^ 53 * 10 ^ x); [apply Z.mul_le_mono_nonneg_r|apply Z.mul_le_mono_nonneg_l]; lia|].
    vm_compute. discriminate. }
  destruct (decimal_ok 53 1024 prec64 lt64 ltac:(lia) ltac:(lia) fuel m s text neg body rest used n x C F T D Ln ltac:(lia) X5 X10) as (v & E & N).
  exists v. split; [exact E|]. split; [|exact N]. unfold atof, strtod. rewrite E. reflexivity.
Qed.
Print Assumptions C118_decimal_partial.

Theorem C118_decimal_float_partial : forall fuel m s text neg body rest used n x,
  cstr m s text -> (length text < fuel)%nat -> signed_text text neg body rest used -> decimal body rest n 0 x ->
  n <= 2 ^ 24 -> 0 <= x <= 10 ->
  exists v, strtof fuel m s = Ok (v, s + used) /\ nearest 24 128 (signed_real neg (IZR (n * 10 ^ x))) neg v.
Proof.
  intros * C F T D Ln Hx.
  assert (X5 : 5 ^ x <= 2 ^ 24) by (apply Z.le_trans with (5 ^ 10); [apply Z.pow_le_mono_r; lia|vm_compute; discriminate]).
  assert (X10 : n * 10 ^ x <= 2 ^ (128 - 1)).
  { assert (10 ^ x <= 10 ^ 10) by (apply Z.pow_le_mono_r; lia). assert (0 < 10 ^ x) by (apply Z.pow_pos_nonneg; lia).
    apply Z.le_trans with (2 ^ 24 * 10 ^ 10); [apply Z.le_trans with (2 ^ 24 * 10 ^ x); [apply Z.mul_le_mono_nonneg_r|apply Z.mul_le_mono_nonneg_l]; lia|].
    vm_compute. discriminate. }
  exact (decimal_ok 24 128 prec32 lt32 ltac:(lia) ltac:(lia) fuel m s text neg body rest used n x C F T D Ln ltac:(lia) X5 X10).
Qed.
Print Assumptions C118_decimal_float_partial.

(* Hexadecimal texts (with a small x) whose digits fit the precision are exact, with a
   fraction and an exponent of either sign, down to the subnormal numbers. *)
Theorem C118_hexadecimal_partial : forall fuel m s text neg body rest used n k x,
  cstr m s text -> (length text < fuel)%nat -> signed_text text neg body rest used -> hexadecimal body rest n k x ->
  n <= 2 ^ 53 -> 4 * k < 1024 -> Z.abs x <= 127 -> -1074 <= x - 4 * k ->
  exists v, strtod fuel m s = Ok (v, s + used) /\
    is_finite v = true /\ B2R v = signed_real neg (IZR n * bpow radix2 (x - 4 * k)) /\ Bsign v = neg.
Proof.
  intros * C F T D Ln Lk Hx Lo.
  assert (K : 0 <= k) by (destruct D as (? & ? & fds & ? & _ & _ & _ & _ & -> & _); apply len_nonneg).
  exact (hexadecimal_ok 53 1024 prec64 lt64 ltac:(lia) ltac:(lia) fuel m s text neg body rest used n k x C F T D Ln Lk Hx ltac:(lia) ltac:(lia)).
Qed.
Print Assumptions C118_hexadecimal_partial.

Theorem C118_hexadecimal_float_partial : forall fuel m s text neg body rest used n k x,
  cstr m s text -> (length text < fuel)%nat -> signed_text text neg body rest used -> hexadecimal body rest n k x ->
  n <= 2 ^ 24 -> 4 * k < 128 -> Z.abs x <= 127 -> -149 <= x - 4 * k <= 103 ->
  exists v, strtof fuel m s = Ok (v, s + used) /\
    is_finite v = true /\ B2R v = signed_real neg (IZR n * bpow radix2 (x - 4 * k)) /\ Bsign v = neg.
Proof.
  intros * C F T D Ln Lk Hx Lo.
  exact (hexadecimal_ok 24 128 prec32 lt32 ltac:(lia) ltac:(lia) fuel m s text neg body rest used n k x C F T D Ln Lk Hx ltac:(lia) ltac:(lia)).
Qed.
Print Assumptions C118_hexadecimal_float_partial.

(* inf and nan in any case (not the longer words: refuted below). *)
Theorem C118_special_partial : forall fuel m s ws sg neg w rest,
  Forall (fun c => In c spaces) ws -> sign sg neg -> cstr m s (ws ++ sg ++ w ++ rest) ->
  (length (ws ++ sg ++ w ++ rest) < fuel)%nat ->
  (any_case w (codes "inf") -> ~ (exists w' t, rest = w' ++ t /\ any_case w' (codes "inity")) ->
     strtod fuel m s = Ok (B754_infinity neg, s + (len ws + len sg + len w)) /\
     strtof fuel m s = Ok (B754_infinity neg, s + (len ws + len sg + len w))) /\
  (any_case w (codes "nan") -> ends (fun c => c = 40) rest ->
     strtod fuel m s = Ok (B754_nan, s + (len ws + len sg + len w)) /\
     strtof fuel m s = Ok (B754_nan, s + (len ws + len sg + len w))).
Proof.
  intros * Fw Sg C F. split; intros A _; split.
  - exact (special_ok 53 1024 prec64 lt64 ltac:(lia) fuel m s ws sg neg w (codes "inf") rest (or_introl eq_refl) A Fw Sg C F).
  - exact (special_ok 24 128 prec32 lt32 ltac:(lia) fuel m s ws sg neg w (codes "inf") rest (or_introl eq_refl) A Fw Sg C F).
  - exact (special_ok 53 1024 prec64 lt64 ltac:(lia) fuel m s ws sg neg w (codes "nan") rest (or_intror (or_introl eq_refl)) A Fw Sg C F).
  - exact (special_ok 24 128 prec32 lt32 ltac:(lia) fuel m s ws sg neg w (codes "nan") rest (or_intror (or_introl eq_refl)) A Fw Sg C F).
Qed.
Print Assumptions C118_special_partial.

Definition fmk (t : string) : mem := mem_of 1000 (codes t ++ [0]).
(* value and end of the conversion of a text at 1000 *)
Definition conv (t : string) : option (SpecFloat.spec_float * Z) :=
  match strtod 100 (fmk t) 1000 with Ok (v, e) => Some (B2SF v, e) | _ => None end.

(* strtod("3e-1") is 5404319552844596 / 2^54, but 5404319552844595 / 2^54 is nearer to 3/10. *)
Theorem C118_negative_exponent_refuted :
  cstr (fmk "3e-1") 1000 (codes "3e-1") /\
  conv "3e-1" = Some (SpecFloat.S754_finite false 5404319552844596 (-54), 1004) /\
  (Z.abs (10 * 5404319552844595 - 3 * 2 ^ 54) < Z.abs (10 * 5404319552844596 - 3 * 2 ^ 54)).
Proof.
  split; [split; [vm_compute; repeat constructor; discriminate|vm_compute; tauto]|].
  split; [vm_compute; reflexivity|vm_compute; reflexivity].
Qed.
Print Assumptions C118_negative_exponent_refuted.

(* strtod("0.12") is 8646911284551353 / 2^56, but 8646911284551352 / 2^56 is nearer. *)
Theorem C118_fraction_refuted :
  cstr (fmk "0.12") 1000 (codes "0.12") /\
  conv "0.12" = Some (SpecFloat.S754_finite false 8646911284551353 (-56), 1004) /\
  (Z.abs (100 * 8646911284551352 - 12 * 2 ^ 56) < Z.abs (100 * 8646911284551353 - 12 * 2 ^ 56)).
Proof.
  split; [split; [vm_compute; repeat constructor; discriminate|vm_compute; tauto]|].
  split; [vm_compute; reflexivity|vm_compute; reflexivity].
Qed.
Print Assumptions C118_fraction_refuted.

(* The power of ten is computed in a u128 that wraps: 1e39 is off by a factor of over three,
   1e128 is zero and 1e-128 is infinite.  (A build with overflow checks panics.) *)
Theorem C118_exponent_refuted :
  (exists mt, conv "1e39" = Some (SpecFloat.S754_finite false mt 75, 1004) /\ 3 * (Z.pos mt * 2 ^ 75) < 10 ^ 39) /\
  conv "1e128" = Some (SpecFloat.S754_zero false, 1005) /\
  conv "1e-128" = Some (SpecFloat.S754_infinity false, 1006) /\
  (* the exponent itself is a u32 *)
  conv "1e4294967296" = Some (SpecFloat.S754_finite false 4503599627370496 (-52), 1012).
Proof.
  split; [eexists; split; [vm_compute; reflexivity|vm_compute; reflexivity]|].
  repeat split; vm_compute; reflexivity.
Qed.
Print Assumptions C118_exponent_refuted.

(* The end pointer: "infinity" and "nan(1)" are read only up to the third letter; 0X is not a
   hexadecimal prefix; without digits the end must be the argument itself. *)
Theorem C118_end_refuted :
  conv "infinity" = Some (SpecFloat.S754_infinity false, 1003) /\
  conv "nan(1)" = Some (SpecFloat.S754_nan, 1003) /\
  conv "0X10" = Some (SpecFloat.S754_zero false, 1001) /\
  conv "  -" = Some (SpecFloat.S754_zero true, 1003) /\
  conv "." = Some (SpecFloat.S754_zero false, 1001) /\
  conv "e5" = Some (SpecFloat.S754_zero false, 1002).
Proof. repeat split; vm_compute; reflexivity. Qed.
Print Assumptions C118_end_refuted.

Example C118_case :
  conv " -1234567e5;" = Some (SpecFloat.S754_finite true 8090858291200000 (-16), 1011) /\
  1234567 * 10 ^ 5 * 2 ^ 16 = 8090858291200000 /\
  conv "0x1.8p-3" = Some (SpecFloat.S754_finite false 6755399441055744 (-55), 1008) /\
  conv "-INF" = Some (SpecFloat.S754_infinity true, 1004) /\
  conv "-0" = Some (SpecFloat.S754_zero true, 1002) /\
  conv "7e+" = Some (SpecFloat.S754_finite false 7881299347898368 (-50), 1001).
Proof. repeat split; vm_compute; reflexivity. Qed.
(* The hypotheses hold for " -12e5;" and for "0x1.8p-3". *)
Example C118_hyps :
  cstr (fmk " -12e5;") 1000 (codes " -12e5;") /\ signed_text (codes " -12e5;") true (codes "12e5") (codes ";") 6 /\
  decimal (codes "12e5") (codes ";") 12 0 5 /\
  signed_text (codes "0x1.8p-3") false (codes "0x1.8p-3") [] 8 /\ hexadecimal (codes "0x1.8p-3") [] 24 1 (-3).
Proof.
  assert (D : forall b c, 0 <= lookup c < b -> is_digit b c) by (intros; apply is_digit_iff; assumption).
  assert (ND : forall b c, (lookup c <? 0) || (b <=? lookup c) = true -> ~ is_digit b c) by (intros b c E; rewrite is_digit_iff; lia).
  split; [split; [repeat constructor; unfold is_char; lia|vm_compute; tauto]|].
  split; [exists [32], [45]; split; [reflexivity|]; split; [repeat constructor; cbn; tauto|]; split; [constructor|reflexivity]|].
  split.
  - exists [49;50], [], [], (codes "e5"). split; [reflexivity|]. split; [discriminate|]. split; [constructor|].
    split; [change 12 with (acc 10 ([49;50] ++ []) 0); apply acc_numeral; repeat constructor; apply D; vm_compute; split; congruence|].
    split; [reflexivity|].
    split; [apply (ex_some _ _ 101 [] false [53] 5); [cbn; auto|constructor|discriminate| |apply ND; reflexivity]|].
    { change 5 with (acc 10 [53] 0); apply acc_numeral; repeat constructor; apply D; vm_compute; split; congruence. }
    split; [apply ND; reflexivity|]. split; [cbn; lia|]. discriminate.
  - split; [exists [], []; split; [reflexivity|]; split; [constructor|]; split; [constructor|reflexivity]|].
    exists [49], [46;56], [56], (codes "p-3"). split; [reflexivity|]. split; [discriminate|]. split; [constructor|].
    split; [change 24 with (acc 16 ([49] ++ [56]) 0); apply acc_numeral; repeat constructor; apply D; vm_compute; split; congruence|].
    split; [reflexivity|].
    split; [apply (ex_some _ _ 112 [45] true [51] 3); [cbn; auto|constructor|discriminate| |exact I]|].
    { change 3 with (acc 10 [51] 0); apply acc_numeral; repeat constructor; apply D; vm_compute; split; congruence. }
    split; [apply ND; reflexivity|]. discriminate.
Qed.

(* ** C119: wcstod *)
(* Full statement: wcstod accepts what strtod accepts, with the nearest double and the same
   end.  Proved: integers up to 2^53 without a plus sign; the sign of -0 is lost (below). *)
Theorem C119_wcstod_partial : forall fuel m s ws (neg : bool) ds rest n,
  Forall (fun c => In c spaces) ws -> ds <> [] -> numeral 10 ds n -> n <= 2 ^ 53 ->
  ends (fun c => is_digit 10 c \/ In c (codes ".eExX")) rest ->
  let text := ws ++ (if neg then [45] else []) ++ ds ++ rest in
  wstr m s text -> (length text < fuel)%nat ->
  exists v, wcstod fuel m s = Ok (v, s + (len text - len rest)) /\
    is_finite v = true /\ B2R v = IZR (if neg then - n else n).
Proof.
  intros * Fw Nd Nm Ln Er text W F.
  apply (wcsto_float_ok 53 1024 prec64 lt64 ltac:(lia) fuel m s ws neg ds rest n Fw Nd Nm Ln); auto.
  destruct rest; [exact I|]. cbn in Er |- *. intuition.
Qed.
Print Assumptions C119_wcstod_partial.

Definition wconv (t : string) : option (SpecFloat.spec_float * Z) :=
  match wcstod 100 (fmk t) 1000 with Ok (v, e) => Some (B2SF v, e) | _ => None end.
(* A plus sign, an exponent, a hexadecimal number and an infinity are not recognised. *)
Theorem C119_syntax_refuted :
  wconv "+5" = Some (SpecFloat.S754_zero false, 1000) /\
  wconv "1e3" = Some (SpecFloat.S754_finite false 4503599627370496 (-52), 1001) /\
  wconv "0x10" = Some (SpecFloat.S754_zero false, 1001) /\
  wconv "inf" = Some (SpecFloat.S754_zero false, 1000) /\
  wconv "  -" = Some (SpecFloat.S754_zero false, 1003) /\
  wconv "-0" = Some (SpecFloat.S754_zero false, 1002).
Proof. repeat split; vm_compute; reflexivity. Qed.
Print Assumptions C119_syntax_refuted.
(* wcstod(L"0.3") is not the double nearest to 3/10. *)
Theorem C119_fraction_refuted :
  wstr (fmk "0.3") 1000 (codes "0.3") /\
  wconv "0.3" = Some (SpecFloat.S754_finite false 5404319552844596 (-54), 1003) /\
  (Z.abs (10 * 5404319552844595 - 3 * 2 ^ 54) < Z.abs (10 * 5404319552844596 - 3 * 2 ^ 54)).
Proof.
  split; [split; [vm_compute; repeat constructor; discriminate|vm_compute; tauto]|].
  split; [vm_compute; reflexivity|vm_compute; reflexivity].
Qed.
Print Assumptions C119_fraction_refuted.
Example C119_case :
  wconv "  -123;" = Some (SpecFloat.S754_finite true 8655355533852672 (-46), 1006) /\
  123 * 2 ^ 46 = 8655355533852672.
Proof. split; vm_compute; reflexivity. Qed.
