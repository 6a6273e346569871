(** The double returned by drand48/erand48, with Flocq's IEEE-754 binary64. *)
From Coq Require Import Reals Lra.
From Flocq Require Import Core IEEE754.BinarySingleNaN IEEE754.Binary IEEE754.Bits.
From Verif Require Import Base Rand_model Rand_spec Rand_proofs.

(** rand48.rs:61-66: f64::from_bits(bits) - 1.0, rounding to nearest even.
    0x3ff0_0000_0000_0000 is the bit pattern of 1.0. *)
Definition get_f64 (v : Z) : binary64 :=
  b64_minus mode_NE (b64_of_bits (f64_bits v)) (b64_of_bits 4607182418800017408).


Lemma bits_aux k : 0 <= k < 2 ^ 52 -> exists p,
  Z.pos p = 2 ^ 52 + k /\ binary_float_of_bits_aux 52 11 (4607182418800017408 + k) = F754_finite false p (-52).
Proof.
  change (2 ^ 52) with 4503599627370496. intros H.
  unfold binary_float_of_bits_aux, split_bits. change (2 ^ 52) with 4503599627370496. change (2 ^ 11) with 2048.
  assert (E1 : (4607182418800017408 + k) mod 4503599627370496 = k) by lia.
  assert (E2 : ((4607182418800017408 + k) / 4503599627370496) mod 2048 = 1023) by lia.
  rewrite E1, E2. destruct (Z.leb_spec (4503599627370496 * 2048) (4607182418800017408 + k)); [lia|].
  change (Zeq_bool 1023 0) with false. change (Zeq_bool 1023 (2048 - 1)) with false. cbv iota.
  destruct (k + 4503599627370496) as [|p|p] eqn:E; try lia. exists p. split; [lia|]. reflexivity.
Qed.

Lemma b64_value k : 0 <= k < 2 ^ 52 ->
  B2R 53 1024 (b64_of_bits (4607182418800017408 + k)) = (1 + IZR k / IZR (2 ^ 52))%R /\
  is_finite 53 1024 (b64_of_bits (4607182418800017408 + k)) = true.
Proof.
  intros H. destruct (bits_aux k H) as [p [Hp E]].
  unfold b64_of_bits, binary_float_of_bits. cbv zeta. change (52 + 1) with 53. change (2 ^ (11 - 1)) with 1024.
  rewrite B2R_FF2B, is_finite_FF2B. rewrite E. cbn [FF2R is_finite_FF SpecFloat.cond_Zopp].
  split; [|reflexivity]. rewrite Hp. unfold F2R. cbn [Fnum Fexp]. rewrite plus_IZR.
  change (bpow radix2 (-52)) with (/ IZR (Z.pow_pos 2 52))%R. change (Z.pow_pos 2 52) with (2 ^ 52).
  assert (IZR (2 ^ 52) <> 0%R) by (apply IZR_neq; lia). field. assumption.
Qed.

Lemma get_f64_ok v : 0 <= v < 2 ^ 48 ->
  B2R 53 1024 (get_f64 v) = (IZR v / IZR (2 ^ 48))%R /\ is_finite 53 1024 (get_f64 v) = true.
Proof.
  intros H. unfold get_f64. rewrite f64_bits_val by exact H.
  destruct (b64_value (16 * v)) as [V1 F1]; [change (2 ^ 52) with 4503599627370496; change (2 ^ 48) with 281474976710656 in H; lia|].
  destruct (b64_value 0) as [V0 F0]; [change (2 ^ 52) with 4503599627370496; lia|].
  change (4607182418800017408 + 0) with 4607182418800017408 in *.
  unfold b64_minus.
  pose proof (Bminus_correct 53 1024 eq_refl eq_refl binop_nan_pl64 mode_NE _ _ F1 F0) as C.
  rewrite V1, V0 in C.
  assert (D : (1 + IZR (16 * v) / IZR (2 ^ 52) - (1 + 0 / IZR (2 ^ 52)) = IZR v / IZR (2 ^ 48))%R).
  { rewrite mult_IZR. change (IZR (2 ^ 52)) with (IZR (16 * 2 ^ 48)). rewrite mult_IZR.
    assert (IZR (2 ^ 48) <> 0%R) by (apply IZR_neq; lia). field. assumption. }
  rewrite D in C.
  assert (G : generic_format radix2 (SpecFloat.fexp 53 1024) (IZR v / IZR (2 ^ 48))).
  { apply generic_format_FLT. apply (FLT_spec _ _ _ _ (Float radix2 v (-48))).
    - unfold F2R. cbn [Fnum Fexp]. change (bpow radix2 (-48)) with (/ IZR (2 ^ 48))%R. reflexivity.
    - cbn [Fnum]. rewrite Z.abs_eq by lia. change (radix2 ^ 53) with (2 ^ 53). 
      change (2 ^ 53) with 9007199254740992. change (2 ^ 48) with 281474976710656 in H. lia.
    - cbn [Fexp]. cbv. discriminate. }
  rewrite round_generic in C by (try exact G; apply valid_rnd_N).
  rewrite Rlt_bool_true in C; [destruct C as [C1 [C2 _]]; split; assumption|].
  assert (P : (0 < IZR (2 ^ 48))%R) by (apply IZR_lt; lia).
  rewrite Rabs_pos_eq.
  - apply Rlt_trans with 1%R; [|apply (bpow_lt radix2 0 1024); lia].
    apply Rmult_lt_reg_r with (IZR (2 ^ 48)); [exact P|]. unfold Rdiv. rewrite Rmult_assoc, Rinv_l, Rmult_1_r, Rmult_1_l by lra.
    apply IZR_lt. lia.
  - apply Rmult_le_pos; [apply IZR_le; lia|]. apply Rlt_le, Rinv_0_lt_compat, P.
Qed.

Lemma dbl_value v : 0 <= v < 2 ^ 48 ->
  let d := b64_minus mode_NE (b64_of_bits (dbl v)) (b64_of_bits (1023 * 2 ^ 52)) in
  B2R 53 1024 d = (IZR v / IZR (2 ^ 48))%R /\ is_finite 53 1024 d = true.
Proof. intros H d. subst d. rewrite <- f64_bits_dbl by exact H. apply get_f64_ok. exact H. Qed.
