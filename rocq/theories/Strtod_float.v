(* Exactness of the floating-point operations used by strtod, in any binary format. *)
From Coq Require Import Reals ZArith Lra Psatz.
From Flocq Require Import Core IEEE754.BinarySingleNaN.
From Verif Require Import Base Strtod_model Strtod_spec.

Section Float.
  Variables prec emax : Z.
  Context (Hp : Prec_gt_0 prec) (He : Prec_lt_emax prec emax).
  Variable H5 : 5 <= prec.
  Local Notation emin := (3 - emax - prec).
  Local Notation fexp := (FLT_exp emin prec).
  Local Notation fmt := (generic_format radix2 fexp).
  Local Notation rnd := (round radix2 fexp ZnearestE).
  Local Notation fl := (fl prec emax).

  Definition val (x : fl) (r : R) (s : bool) : Prop := is_finite x = true /\ B2R x = r /\ Bsign x = s.

  Instance valid : Valid_exp fexp.
  Proof. apply FLT_exp_valid. exact Hp. Qed.

  Lemma prec_emax : prec < emax.
  Proof. exact He. Qed.

  Lemma fmt_scaled m e : Z.abs m <= 2 ^ prec -> emin <= e -> fmt (IZR m * bpow radix2 e).
  Proof.
    intros Hm Hz. destruct (Z.eq_dec (Z.abs m) (2 ^ prec)) as [E|N].
    - assert (fmt (bpow radix2 (prec + e))).
      { apply generic_format_FLT_bpow; [exact Hp|lia]. }
      assert (IZR (2 ^ prec) * bpow radix2 e = bpow radix2 (prec + e))%R.
      { rewrite bpow_plus. f_equal. rewrite <- (IZR_Zpower radix2 prec) by lia. reflexivity. }
      destruct (Z.abs_eq_or_opp m) as [A|A].
      + replace m with (2 ^ prec) by lia. rewrite H0. exact H.
      + replace m with (- 2 ^ prec) by lia. rewrite opp_IZR, Ropp_mult_distr_l_reverse, H0.
        apply generic_format_opp. exact H.
    - apply generic_format_FLT. exists (Float radix2 m e); [reflexivity| |exact Hz].
      cbn [Fnum]. change (radix2 ^ prec) with (2 ^ prec). lia.
  Qed.
  Lemma fmt_int z : Z.abs z <= 2 ^ prec -> fmt (IZR z).
  Proof.
    intros H. replace (IZR z) with (IZR z * bpow radix2 0)%R by (cbn; lra).
    apply fmt_scaled; [exact H|]. pose proof prec_emax. lia.
  Qed.
  Lemma int_lt z : Z.abs z <= 2 ^ prec -> (Rabs (IZR z) < bpow radix2 emax)%R.
  Proof.
    intros H. apply Rle_lt_trans with (bpow radix2 prec); [|apply bpow_lt; exact prec_emax].
    rewrite <- abs_IZR, <- IZR_Zpower by lia. apply IZR_le. exact H.
  Qed.

  Lemma of_Z_round z : (Rabs (rnd (IZR z)) < bpow radix2 emax)%R ->
    val (of_int prec emax Hp He z) (rnd (IZR z)) (z <? 0).
  Proof.
    intros L. unfold of_int. pose proof (binary_normalize_correct prec emax Hp He mode_NE z 0 false) as C.
    cbv zeta in C. replace (F2R (Float radix2 z 0)) with (IZR z) in C
      by (unfold F2R; cbn; lra).
    change (SpecFloat.fexp prec emax) with fexp in C. change (round_mode mode_NE) with ZnearestE in C.
    rewrite Rlt_bool_true in C by exact L. destruct C as (A & B & D). split; [exact B|]. split; [exact A|].
    rewrite D. destruct (Rcompare_spec (IZR z) 0) as [H|H|H].
    - apply lt_IZR in H. symmetry. lia.
    - apply eq_IZR in H. subst. reflexivity.
    - apply lt_IZR in H. symmetry. lia.
  Qed.
  Lemma of_int_exact z : Z.abs z <= 2 ^ prec -> val (of_int prec emax Hp He z) (IZR z) (z <? 0).
  Proof.
    intros H. pose proof (of_Z_round z) as A. rewrite (round_generic radix2 fexp ZnearestE) in A by (apply fmt_int; exact H).
    apply A. apply int_lt. exact H.
  Qed.
  Lemma of_int_scaled m e : 0 <= m <= 2 ^ prec -> 0 <= e -> m * 2 ^ e < 2 ^ emax ->
    val (of_int prec emax Hp He (m * 2 ^ e)) (IZR m * bpow radix2 e)%R false.
  Proof.
    intros Hm H0 L. pose proof (of_Z_round (m * 2 ^ e)) as A.
    assert (E : IZR (m * 2 ^ e) = (IZR m * bpow radix2 e)%R).
    { rewrite mult_IZR. f_equal. rewrite <- (IZR_Zpower radix2 e) by lia. reflexivity. }
    rewrite E in A.
    rewrite (round_generic radix2 fexp ZnearestE) in A by (apply fmt_scaled; pose proof prec_emax; lia).
    replace (m * 2 ^ e <? 0) with false in A by (symmetry; apply Z.ltb_ge; apply Z.mul_nonneg_nonneg; lia).
    apply A. rewrite <- E, <- abs_IZR, <- IZR_Zpower by (pose proof prec_emax; lia).
    apply IZR_lt. rewrite Z.abs_eq by (apply Z.mul_nonneg_nonneg; lia). exact L.
  Qed.

  Lemma mul_round x y rx ry sx sy : val x rx sx -> val y ry sy ->
    (Rabs (rnd (rx * ry)) < bpow radix2 emax)%R ->
    val (fmul prec emax Hp He x y) (rnd (rx * ry)) (xorb sx sy).
  Proof.
    intros (F1 & <- & <-) (F2 & <- & <-) L. unfold fmul. pose proof (Bmult_correct prec emax Hp He mode_NE x y) as C.
    change (SpecFloat.fexp prec emax) with fexp in C. change (round_mode mode_NE) with ZnearestE in C.
    rewrite Rlt_bool_true in C by exact L. destruct C as (A & B & D). rewrite F1, F2 in B.
    split; [exact B|]. split; [exact A|]. apply D. destruct (Bmult mode_NE x y); try reflexivity; discriminate.
  Qed.
  Lemma mul_exact x y rx ry sx sy : val x rx sx -> val y ry sy -> fmt (rx * ry) ->
    (Rabs (rx * ry) < bpow radix2 emax)%R ->
    val (fmul prec emax Hp He x y) (rx * ry) (xorb sx sy).
  Proof.
    intros A B G L. pose proof (mul_round x y rx ry sx sy A B) as C.
    rewrite (round_generic radix2 fexp ZnearestE _ G) in C. exact (C L).
  Qed.
  Lemma add_exact x y rx ry : val x rx false -> val y ry false -> (0 <= rx)%R -> (0 <= ry)%R -> fmt (rx + ry) ->
    (Rabs (rx + ry) < bpow radix2 emax)%R ->
    val (fadd prec emax Hp He x y) (rx + ry) false.
  Proof.
    intros (F1 & <- & S1) (F2 & <- & S2) P1 P2 G L. unfold fadd.
    pose proof (Bplus_correct prec emax Hp He mode_NE x y F1 F2) as C.
    change (SpecFloat.fexp prec emax) with fexp in C. change (round_mode mode_NE) with ZnearestE in C.
    rewrite (round_generic radix2 fexp ZnearestE _ G) in C. rewrite Rlt_bool_true in C by exact L.
    destruct C as (A & B & D). split; [exact B|]. split; [exact A|]. rewrite D, S1, S2.
    destruct (Rcompare_spec (B2R x + B2R y) 0); try reflexivity. lra.
  Qed.
  Lemma div_round x y rx ry sx sy : val x rx sx -> val y ry sy -> ry <> 0%R ->
    (Rabs (rnd (rx / ry)) < bpow radix2 emax)%R ->
    val (fdiv prec emax Hp He x y) (rnd (rx / ry)) (xorb sx sy).
  Proof.
    intros (F1 & <- & <-) (F2 & <- & <-) Z L. unfold fdiv.
    pose proof (Bdiv_correct prec emax Hp He mode_NE x y Z) as C.
    change (SpecFloat.fexp prec emax) with fexp in C. change (round_mode mode_NE) with ZnearestE in C.
    rewrite Rlt_bool_true in C by exact L.
    destruct C as (A & B & D). split; [congruence|]. split; [exact A|]. apply D.
    destruct (Bdiv mode_NE x y); try reflexivity. cbn in B. congruence.
  Qed.
  Lemma div_exact x y rx ry sx sy : val x rx sx -> val y ry sy -> ry <> 0%R -> fmt (rx / ry) ->
    (Rabs (rx / ry) < bpow radix2 emax)%R ->
    val (fdiv prec emax Hp He x y) (rx / ry) (xorb sx sy).
  Proof.
    intros A B Z G L. pose proof (div_round x y rx ry sx sy A B Z) as C.
    rewrite (round_generic radix2 fexp ZnearestE _ G) in C. exact (C L).
  Qed.
End Float.
