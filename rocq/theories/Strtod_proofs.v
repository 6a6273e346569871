(* Lemmas for C118. *)
From Coq Require Import String Reals ZArith Lra.
From Flocq Require Import Core IEEE754.BinarySingleNaN.
From Verif Require Import Base Ctype_model Ctype_spec Ctype_proofs Strto_model Strto_spec Strto_proofs Inet_model Inet_proofs
  Strtod_model Strtod_spec Strtod_float.
Open Scope string_scope.
Open Scope list_scope.
Open Scope Z_scope.

Lemma digit_of_ok c b : (is_digit b c -> digit_of c b = Some (lookup c)) /\ (~ is_digit b c -> digit_of c b = None).
Proof.
  unfold digit_of. rewrite is_digit_iff. pose proof (lookup_range c). split; intros H0.
  - replace ((lookup c =? -1) || (lookup c >=? b)) with false; [reflexivity|]. symmetry. apply orb_false_iff. split; lia.
  - replace ((lookup c =? -1) || (lookup c >=? b)) with true; [reflexivity|]. symmetry. apply orb_true_iff.
    destruct (Z.eq_dec (lookup c) (-1)); [left|right]; lia.
Qed.

(* The first character of a text with its terminator. *)
Lemma head_at m s l : bytes_at m s (l ++ [0]) ->
  ld m s = Ok (match l with c :: _ => c | [] => 0 end).
Proof. destruct l; intros [B _]; apply ld_ok; exact B. Qed.
Lemma tail_at m s c l : bytes_at m s ((c :: l) ++ [0]) -> bytes_at m (s + 1) (l ++ [0]).
Proof. intros [_ B]. exact B. Qed.
Lemma zero_not_digit b : ~ is_digit b 0.
Proof. rewrite is_digit_iff. change (lookup 0) with (-1). lia. Qed.
Lemma ends_zero b l : ends (is_digit b) l -> ~ is_digit b (match l with c :: _ => c | [] => 0 end).
Proof. destruct l; [intros _; apply zero_not_digit|exact (fun H => H)]. Qed.

Section Float.
  Variables prec emax : Z.
  Context (Hp : Prec_gt_0 prec) (He : Prec_lt_emax prec emax).
  Variable H5 : 5 <= prec.
  Variable Hb : 128 <= emax.
  Local Notation emin := (3 - emax - prec).
  Local Notation fexp := (FLT_exp emin prec).
  Local Notation fmt := (generic_format radix2 fexp).
  Local Notation rnd := (round radix2 fexp ZnearestE).
  Local Notation fl := (fl prec emax).
  Local Notation val := (val prec emax).
  Local Notation of_int := (of_int prec emax Hp He).
  Local Notation fmul := (fmul prec emax Hp He).
  Local Notation fadd := (fadd prec emax Hp He).
  Local Notation fdiv := (fdiv prec emax Hp He).

  Lemma pow32 : 32 <= 2 ^ prec.
  Proof. change 32 with (2 ^ 5). apply Z.pow_le_mono_r; lia. Qed.

  Lemma scaled_lt m e : Z.abs m <= 2 ^ prec -> prec + e < emax -> (Rabs (IZR m * bpow radix2 e) < bpow radix2 emax)%R.
  Proof.
    intros H L. apply Rle_lt_trans with (bpow radix2 (prec + e)); [|apply bpow_lt; exact L].
    rewrite bpow_plus, Rabs_mult, (Rabs_pos_eq (bpow radix2 e)) by (apply bpow_ge_0).
    apply Rmult_le_compat_r; [apply bpow_ge_0|]. rewrite <- abs_IZR, <- IZR_Zpower by lia. apply IZR_le. exact H.
  Qed.

  Lemma step_exact v n r d : 0 <= n -> 0 <= d < r -> 2 <= r <= 16 -> n * r + d <= 2 ^ prec -> val v (IZR n) false ->
    val (fadd (fmul v (of_int r)) (of_int d)) (IZR (n * r + d)) false.
  Proof.
    intros Hn Hd Hr L V. pose proof pow32. assert (0 <= n * r) by nia.
    rewrite plus_IZR, mult_IZR. 
    apply add_exact; auto.
    - change false with (xorb false false). apply mul_exact; auto.
      + pose proof (of_int_exact prec emax Hp He H5 r ltac:(lia)) as A. replace (r <? 0) with false in A by lia. exact A.
      + rewrite <- mult_IZR. apply (fmt_int prec emax Hp He H5). lia.
      + rewrite <- mult_IZR. apply (int_lt prec emax He H5). lia.
    - pose proof (of_int_exact prec emax Hp He H5 d ltac:(lia)) as A. replace (d <? 0) with false in A by lia. exact A.
    - rewrite <- mult_IZR. apply IZR_le. lia.
    - apply IZR_le. lia.
    - rewrite <- mult_IZR, <- plus_IZR. apply (fmt_int prec emax Hp He H5). lia.
    - rewrite <- mult_IZR, <- plus_IZR. apply (int_lt prec emax He H5). lia.
  Qed.

  Lemma int_loop_ok r rest : 2 <= r <= 16 -> forall ds fuel m s v n,
    bytes_at m s (ds ++ rest ++ [0]) -> Forall (is_digit r) ds -> ends (is_digit r) rest ->
    (length ds < fuel)%nat -> 0 <= n -> acc r ds n <= 2 ^ prec -> val v (IZR n) false ->
    exists v', int_loop prec emax Hp He fuel m r s v = Ok (v', s + len ds) /\ val v' (IZR (acc r ds n)) false.
  Proof.
    intros Hr. induction ds as [|c ds IH]; intros fuel m s v n B F E Hf Hn L V; destruct fuel as [|fuel];
      try (cbn in Hf; lia); cbn [int_loop].
    - cbn [app] in B. rewrite (head_at _ _ _ B). cbn [bind]. rewrite (proj2 (digit_of_ok _ r) (ends_zero r rest E)).
      exists v. rewrite len_nil, Z.add_0_r. split; [reflexivity|exact V].
    - destruct B as [B B']. rewrite (ld_ok _ _ _ B). cbn [bind]. apply Forall_cons_iff in F. destruct F as [D F].
      rewrite (proj1 (digit_of_ok c r) D). apply is_digit_iff in D. change (acc r (c :: ds) n) with (acc r ds (n * r + lookup c)) in *.
      assert (0 <= n * r) by nia.
      pose proof (acc_ge r ds ltac:(lia) F (n * r + lookup c) ltac:(lia)).
      destruct (IH fuel m (s + 1) _ (n * r + lookup c) B' F E ltac:(cbn in Hf; lia) ltac:(lia) L
        (step_exact v n r (lookup c) Hn ltac:(lia) Hr ltac:(lia) V)) as (v' & Ev & Vv).
      exists v'. split; [|exact Vv]. rewrite Ev, len_cons. f_equal. f_equal. lia.
  Qed.

  Lemma frac_step v i n j d : 0 <= n -> 0 <= d < 16 -> n * 16 + d <= 2 ^ prec -> 0 <= j -> 4 * (j + 1) < emax ->
    val v (IZR n * bpow radix2 (- (4 * j))) false -> val i (bpow radix2 (4 * j)) false ->
    let i' := fmul i (of_int 16) in
    val i' (bpow radix2 (4 * (j + 1))) false /\
    val (fadd v (fdiv (of_int d) i')) (IZR (n * 16 + d) * bpow radix2 (- (4 * (j + 1)))) false.
  Proof.
    intros Hn Hd L Hj Hj' V I i'. pose proof pow32. pose proof He as PE. unfold Prec_lt_emax in PE.
    assert (I' : val i' (bpow radix2 (4 * (j + 1))) false).
    { assert (EQ : bpow radix2 (4 * (j + 1)) = (bpow radix2 (4 * j) * IZR 16)%R).
      { replace (4 * (j + 1)) with (4 * j + 4) by lia. rewrite bpow_plus. reflexivity. }
      rewrite EQ. change false with (xorb false false). apply mul_exact; auto.
      - exact (of_int_exact prec emax Hp He H5 16 ltac:(lia)).
      - rewrite <- EQ. apply generic_format_FLT_bpow; [exact Hp|lia].
      - rewrite <- EQ, Rabs_pos_eq by apply bpow_ge_0. apply bpow_lt. exact Hj'. }
    split; [exact I'|].
    assert (DV : val (fdiv (of_int d) i') (IZR d * bpow radix2 (- (4 * (j + 1)))) false).
    { rewrite bpow_opp. change (IZR d * / bpow radix2 (4 * (j + 1)))%R with (IZR d / bpow radix2 (4 * (j + 1)))%R.
      change false with (xorb false false). apply div_exact; auto.
      - pose proof (of_int_exact prec emax Hp He H5 d ltac:(lia)) as A. replace (d <? 0) with false in A by lia. exact A.
      - apply Rgt_not_eq. apply bpow_gt_0.
      - unfold Rdiv. rewrite <- bpow_opp. apply (fmt_scaled prec emax Hp H5); lia.
      - unfold Rdiv. rewrite <- bpow_opp. apply scaled_lt; lia. }
    assert (EQ : (IZR (n * 16 + d) * bpow radix2 (- (4 * (j + 1))) =
      IZR n * bpow radix2 (- (4 * j)) + IZR d * bpow radix2 (- (4 * (j + 1))))%R).
    { replace (- (4 * j)) with (- (4 * (j + 1)) + 4) by lia. rewrite bpow_plus, plus_IZR, mult_IZR.
      change (bpow radix2 4) with 16%R. ring. }
    rewrite EQ. apply add_exact; auto.
    - apply Rmult_le_pos; [apply IZR_le; lia|apply bpow_ge_0].
    - apply Rmult_le_pos; [apply IZR_le; lia|apply bpow_ge_0].
    - rewrite <- EQ. apply (fmt_scaled prec emax Hp H5); lia.
    - rewrite <- EQ. apply scaled_lt; lia.
  Qed.

  Lemma frac_loop_ok rest : forall ds fuel m s v i n j,
    bytes_at m s (ds ++ rest ++ [0]) -> Forall (is_digit 16) ds -> ends (is_digit 16) rest ->
    (length ds < fuel)%nat -> 0 <= n -> acc 16 ds n <= 2 ^ prec -> 0 <= j -> 4 * (j + len ds) < emax ->
    val v (IZR n * bpow radix2 (- (4 * j))) false -> val i (bpow radix2 (4 * j)) false ->
    exists v', frac_loop prec emax Hp He fuel m 16 s i v = Ok (v', s + len ds) /\
      val v' (IZR (acc 16 ds n) * bpow radix2 (- (4 * (j + len ds)))) false.
  Proof.
    induction ds as [|c ds IH]; intros fuel m s v i n j B F E Hf Hn L Hj K V I; destruct fuel as [|fuel];
      try (cbn in Hf; lia); cbn [frac_loop].
    - cbn [app] in B. rewrite (head_at _ _ _ B). cbn [bind]. rewrite (proj2 (digit_of_ok _ 16) (ends_zero 16 rest E)).
      exists v. rewrite len_nil, !Z.add_0_r. split; [reflexivity|exact V].
    - destruct B as [B B']. rewrite (ld_ok _ _ _ B). cbn [bind]. apply Forall_cons_iff in F. destruct F as [D F].
      rewrite (proj1 (digit_of_ok c 16) D). apply is_digit_iff in D. change (acc 16 (c :: ds) n) with (acc 16 ds (n * 16 + lookup c)) in *.
      pose proof (acc_ge 16 ds ltac:(lia) F (n * 16 + lookup c) ltac:(lia)).
      rewrite len_cons in *. pose proof (len_nonneg ds).
      destruct (frac_step v i n j (lookup c) Hn ltac:(lia) ltac:(lia) Hj ltac:(lia) V I) as (I' & V').
      destruct (IH fuel m (s + 1) _ _ (n * 16 + lookup c) (j + 1) B' F E ltac:(cbn in Hf; lia) ltac:(lia) L ltac:(lia) ltac:(lia) V' I')
        as (v' & Ev & Vv).
      exists v'. replace (j + (len ds + 1)) with (j + 1 + len ds) by lia. split; [|exact Vv].
      rewrite Ev. f_equal. f_equal. lia.
  Qed.

  Lemma exp_loop_ok rest : forall ds fuel m s n,
    bytes_at m s (ds ++ rest ++ [0]) -> Forall (is_digit 10) ds -> ends (is_digit 10) rest ->
    (length ds < fuel)%nat -> 0 <= n -> acc 10 ds n < 2 ^ 32 ->
    exp_loop fuel m s n = Ok (acc 10 ds n, s + len ds).
  Proof.
    induction ds as [|c ds IH]; intros fuel m s n B F E Hf Hn L; destruct fuel as [|fuel];
      try (cbn in Hf; lia); cbn [exp_loop].
    - cbn [app] in B. rewrite (head_at _ _ _ B). cbn [bind]. rewrite (proj2 (digit_of_ok _ 10) (ends_zero 10 rest E)).
      rewrite len_nil, !Z.add_0_r. reflexivity.
    - destruct B as [B B']. rewrite (ld_ok _ _ _ B). cbn [bind]. apply Forall_cons_iff in F. destruct F as [D F].
      rewrite (proj1 (digit_of_ok c 10) D). apply is_digit_iff in D. change (acc 10 (c :: ds) n) with (acc 10 ds (n * 10 + lookup c)) in *.
      pose proof (acc_ge 10 ds ltac:(lia) F (n * 10 + lookup c) ltac:(lia)).
      rewrite (Z.mod_small (n * 10)) by lia. rewrite Z.mod_small by lia.
      rewrite (IH fuel m (s + 1)); auto; [|cbn in Hf; lia|lia].
      rewrite len_cons. f_equal. f_equal. lia.
  Qed.

  (* The factor the exponent part stands for. *)
  Definition factor (b x : Z) (f : option fl) : Prop :=
    match f with
    | None => x = 0
    | Some f => exists e, 0 <= e /\ (x = e /\ f = of_int (pow128 b e) \/ x = - e /\ f = fdiv (of_int 1) (of_int (pow128 b e)))
    end.

  Lemma exponent_ok fuel m radix marks b s rest ex x :
    (radix, marks, b) = (10, codes "eE", 10) \/ (radix, marks, b) = (16, codes "pP", 2) ->
    exponent_part marks rest ex x -> bytes_at m s (ex ++ rest ++ [0]) -> (length ex < fuel)%nat -> Z.abs x < 2 ^ 32 ->
    exists f, exponent prec emax Hp He fuel m radix s = Ok (f, s + len ex) /\ factor b x f.
  Proof.
    intros RM X B Hf Hx. unfold exponent.
    assert (MK : forall c, (((c =? 101) || (c =? 69)) && (radix =? 10) || ((c =? 112) || (c =? 80)) && (radix =? 16)) = true <-> In c marks).
    { intros c. destruct RM as [[= -> -> ->]|[= -> -> ->]]; cbn; lia. }
    inversion X as [NS|c sg neg ds e Hc Sg Nd Nm Er]; subst.
    - (* no exponent *)
      exists None. cbn [app] in B. rewrite (head_at _ _ _ B). cbn [bind]. rewrite len_nil, Z.add_0_r.
      split; [|reflexivity].
      match goal with |- (if ?b then _ else _) = _ => destruct b eqn:G; [|reflexivity] end.
      apply MK in G. destruct rest as [|c t].
      { exfalso. destruct RM as [[= -> -> ->]|[= -> -> ->]]; cbn in G; lia. }
      pose proof (tail_at _ _ _ _ B) as B1. rewrite (head_at _ _ _ B1). cbn [bind].
      set (g := match t with c0 :: _ => c0 | [] => 0 end).
      assert (exists sg neg t', t = sg ++ t' /\ sign sg neg /\
        (if g =? 45 then (false, s + 1 + 1) else if g =? 43 then (true, s + 1 + 1) else (true, s + 1)) = (negb neg, s + 1 + len sg)) as (sg & neg & t' & -> & Sg & Eg).
      { destruct t as [|c0 t]; subst g.
        - exists [], false, []. split; [reflexivity|]. split; [constructor|]. rewrite len_nil, Z.add_0_r. reflexivity.
        - destruct (Z.eqb_spec c0 45) as [->|]; [exists [45], true, t; repeat constructor|].
          destruct (Z.eqb_spec c0 43) as [->|]; [exists [43], false, t; repeat constructor|].
          exists [], false, (c0 :: t). split; [reflexivity|]. split; [constructor|]. rewrite len_nil, Z.add_0_r. reflexivity. }
      subst g. rewrite Eg. rewrite <- app_assoc in B1. apply bytes_at_app in B1. destruct B1 as [_ B1].
      rewrite (head_at _ _ _ B1). cbn [bind].
      rewrite (proj2 (digit_of_ok _ 10)); [reflexivity|].
      destruct t' as [|d t']; [apply zero_not_digit|]. intros D. apply NS. exists c, sg, neg, d, t'. auto.
    - destruct (numeral_acc _ _ _ Nm) as [Fd En].
      destruct B as [B B1]. rewrite (ld_ok _ _ _ B). cbn [bind]. rewrite (proj2 (MK c) Hc).
      destruct ds as [|d ds]; [congruence|].
      assert (NB : acc 10 (d :: ds) 0 < 2 ^ 32).
      { rewrite <- En. destruct neg; lia. }
      assert (N0 : 0 <= e) by (rewrite En; apply acc_ge; [lia|exact Fd|lia]).
      fold (@app Z) in B1. rewrite <- app_assoc in B1.
      assert (exists g, ld m (s + 1) = Ok g /\
        (if g =? 45 then (false, s + 1 + 1) else if g =? 43 then (true, s + 1 + 1) else (true, s + 1)) = (negb neg, s + 1 + len sg)) as (g & Lg & Eg).
      { destruct Sg.
        - cbn [app] in B1. destruct B1 as [B1 _]. exists d. split; [apply ld_ok; exact B1|].
          apply Forall_cons_iff in Fd. destruct Fd as [Fd _]. apply is_digit_iff in Fd.
          destruct (Z.eqb_spec d 45) as [->|]; [cbn in Fd; lia|]. destruct (Z.eqb_spec d 43) as [->|]; [cbn in Fd; lia|].
          rewrite len_nil, Z.add_0_r. reflexivity.
        - cbn [app] in B1. destruct B1 as [B1 _]. exists 43. split; [apply ld_ok; exact B1|reflexivity].
        - cbn [app] in B1. destruct B1 as [B1 _]. exists 45. split; [apply ld_ok; exact B1|reflexivity]. }
      rewrite Lg. cbn [bind]. rewrite Eg. apply bytes_at_app in B1. destruct B1 as [_ B1].
      assert (Ld : ld m (s + 1 + len sg) = Ok d) by (destruct B1 as [B1 _]; apply ld_ok; exact B1).
      rewrite Ld. cbn [bind]. pose proof Fd as Fd'. apply Forall_cons_iff in Fd'. destruct Fd' as [D _].
      rewrite (proj1 (digit_of_ok d 10) D).
      rewrite (exp_loop_ok rest (d :: ds) fuel m (s + 1 + len sg) 0 B1 Fd Er); [|cbn in Hf; rewrite app_length in Hf; cbn in *; lia|lia|exact NB].
      cbn [bind]. rewrite <- En.
      eexists. split.
      + apply f_equal. apply f_equal2; [reflexivity|]. rewrite (len_cons c), len_app. lia.
      + cbn [factor]. exists e. split; [exact N0|].
        replace (if radix =? 10 then 10 else 2) with b by (destruct RM as [[= -> -> ->]|[= -> -> ->]]; reflexivity).
        destruct neg; [right|left]; auto.
  Qed.

  (* the sign as a factor *)
  Lemma sign_exact (neg : bool) v r : val v r false -> fmt r -> (Rabs r < bpow radix2 emax)%R ->
    val (fmul (of_int (if neg then -1 else 1)) v) (signed_real neg r) neg.
  Proof.
    intros V G L. pose proof pow32.
    assert (S : val (of_int (if neg then -1 else 1)) (if neg then -1 else 1)%R neg).
    { pose proof (of_int_exact prec emax Hp He H5 (if neg then -1 else 1) ltac:(destruct neg; lia)) as A.
      destruct neg; exact A. }
    replace (signed_real neg r) with ((if neg then -1 else 1) * r)%R by (unfold signed_real; destruct neg; lra).
    rewrite <- (xorb_false_r neg) at 3. apply mul_exact; auto.
    - destruct neg; [replace (-1 * r)%R with (- r)%R by lra; apply generic_format_opp; exact G|rewrite Rmult_1_l; exact G].
    - destruct neg; [replace (-1 * r)%R with (- r)%R by lra; rewrite Rabs_Ropp; exact L|rewrite Rmult_1_l; exact L].
  Qed.

  Lemma starts_digit c l w : is_digit 16 c -> (match w with x :: _ => x = 105 \/ x = 110 | [] => True end) -> 
    starts_ci (c :: l) w = false.
  Proof.
    intros D W. apply is_digit_iff in D. unfold starts_ci. destruct l as [|b [|e l]]; try reflexivity.
    destruct w as [|x [|y [|z [|]]]]; try reflexivity.
    replace (tolower c =? x) with false; [reflexivity|]. symmetry.
    assert (Hc : (48 <= c <= 57) \/ (65 <= c <= 70) \/ (97 <= c <= 102)).
    { revert D. unfold lookup. bdes; lia. }
    assert (Hs : existsb (Z.eqb c) [48;49;50;51;52;53;54;55;56;57;65;66;67;68;69;70;97;98;99;100;101;102] = true) by (cbn; lia).
    apply existsb_exists in Hs. destruct Hs as (c' & I & Hc'). apply Z.eqb_eq in Hc'. subst c'.
    apply Z.eqb_neq. destruct W as [-> | ->]; intros E; revert E;
      cbn [In] in I; repeat (destruct I as [<-|I]; [vm_compute; discriminate|]); destruct I.
  Qed.

  (* Everything before the number: white space and sign. *)
  Lemma prefix_ok fuel m s ws sg neg body : Forall (fun c => In c spaces) ws -> sign sg neg ->
    ends (fun c => In c spaces) body -> ends (fun c => c = 43 \/ c = 45) body -> cstr m s (ws ++ sg ++ body) ->
    (length (ws ++ sg ++ body) < fuel)%nat ->
    let p := s + len ws + len sg in
    skip_space fuel m s 0 = Ok (len ws) /\
    cstr m p body /\ read_str fuel m p = Ok body /\
    exists g, ld m (s + len ws) = Ok g /\
      (if g =? 45 then (of_int (-1), s + len ws + 1) else if g =? 43 then (of_int 1, s + len ws + 1) else (of_int 1, s + len ws)) =
      (of_int (if neg then -1 else 1), p).
  Proof.
    intros Fw Sg Es Eb C Hf p. rewrite !app_length in Hf.
    assert (Cb : cstr m (s + len ws) (sg ++ body)).
    { destruct C as [C1 C2]. split; [apply Forall_app in C1; tauto|]. rewrite <- app_assoc in C2. apply bytes_at_app in C2. tauto. }
    assert (Cp : cstr m p body).
    { destruct Cb as [C1 C2]. split; [apply Forall_app in C1; tauto|]. rewrite <- app_assoc in C2. apply bytes_at_app in C2. tauto. }
    split; [|split; [exact Cp|split; [apply read_str_ok; [exact Cp|lia]|]]].
    - assert (S1 : skip_space fuel m s 0 = Ok (0 + len ws)); [|exact S1].
      apply (skip_space_ok ((sg ++ body) ++ [0]) ws).
      + rewrite Z.add_0_r. destruct C as [_ C]. rewrite <- app_assoc in C. exact C.
      + destruct Cb as [C1 _]. apply Forall_app. split; [|repeat constructor; unfold is_byte; lia].
        eapply Forall_impl; [|exact C1]. unfold is_char, is_byte. intros; lia.
      + destruct (sg ++ body); discriminate.
      + exact Fw.
      + destruct Sg; cbn [app]; try (cbn; intuition lia). destruct body; [cbn; intuition lia|exact Es].
      + lia.
    - destruct Cb as [_ Cb]. subst p. destruct Sg; cbn [app] in Cb.
      + exists (match body with c :: _ => c | [] => 0 end). split; [apply head_at; exact Cb|].
        rewrite len_nil, Z.add_0_r. destruct body as [|c body]; [reflexivity|]. cbn in Eb.
        destruct (Z.eqb_spec c 45); [tauto|]. destruct (Z.eqb_spec c 43); [tauto|]. reflexivity.
      + destruct Cb as [Cb _]. exists 43. split; [apply ld_ok; exact Cb|reflexivity].
      + destruct Cb as [Cb _]. exists 45. split; [apply ld_ok; exact Cb|reflexivity].
  Qed.

  Lemma mul_abs_lt (neg : bool) r : (Rabs (signed_real neg r) = Rabs r)%R.
  Proof. unfold signed_real. destruct neg; [apply Rabs_Ropp|reflexivity]. Qed.

  Lemma frac_empty fuel m radix s i v rest : bytes_at m s (rest ++ [0]) -> ends (is_digit radix) rest -> (0 < fuel)%nat ->
    frac_loop prec emax Hp He fuel m radix s i v = Ok (v, s).
  Proof.
    intros B E Hf. destruct fuel; [lia|]. cbn [frac_loop]. rewrite (head_at _ _ _ B). cbn [bind].
    rewrite (proj2 (digit_of_ok _ radix) (ends_zero radix rest E)). reflexivity.
  Qed.

  Lemma number_ok radix marks b fuel m p ids fr fds ex rest n x :
    (radix, marks, b) = (10, codes "eE", 10) \/ (radix, marks, b) = (16, codes "pP", 2) ->
    (radix = 10 -> fds = []) -> fraction fr fds -> numeral radix (ids ++ fds) n -> n <= 2 ^ prec -> 4 * len fds < emax ->
    exponent_part marks rest ex x -> Z.abs x < 2 ^ 32 -> ends (is_digit radix) (ex ++ rest) ->
    (fr = [] -> ends (fun c => c = 46) (ex ++ rest)) ->
    bytes_at m p ((ids ++ fr ++ ex ++ rest) ++ [0]) -> (length (ids ++ fr ++ ex ++ rest) < fuel)%nat ->
    0 <= n /\
    exists v1 c v f, int_loop prec emax Hp He fuel m radix p (of_int 0) = Ok (v1, p + len ids) /\
      ld m (p + len ids) = Ok c /\
      (if c =? 46 then frac_loop prec emax Hp He fuel m radix (p + len ids + 1) (of_int 1) v1 else Ok (v1, p + len ids)) =
        Ok (v, p + len ids + len fr) /\
      exponent prec emax Hp He fuel m radix (p + len ids + len fr) = Ok (f, p + len ids + len fr + len ex) /\
      val v (IZR n * bpow radix2 (- (4 * len fds))) false /\ factor b x f.
  Proof.
    intros RM F10 Fr Nm Ln Lk X Hx Er Ed B Hf. pose proof pow32. rewrite !app_length in Hf.
    destruct (numeral_acc _ _ _ Nm) as [Fd En]. apply Forall_app in Fd. destruct Fd as [Fi Ff].
    assert (Rr : 2 <= radix <= 16) by (destruct RM as [[= -> -> ->]|[= -> -> ->]]; lia).
    assert (N0 : 0 <= n) by (rewrite En; apply acc_ge; [lia|apply Forall_app; auto|lia]). split; [exact N0|].
    assert (En' : n = acc radix fds (acc radix ids 0)) by (rewrite En; unfold acc; apply fold_left_app).
    assert (A0 : 0 <= acc radix ids 0) by (apply acc_ge; [lia|exact Fi|lia]).
    assert (A1 : acc radix ids 0 <= n) by (rewrite En'; apply acc_ge; [lia|exact Ff|exact A0]).
    rewrite <- !app_assoc in B. pose proof B as B1. apply bytes_at_app in B1. destruct B1 as [_ B1].
    destruct (int_loop_ok radix (fr ++ ex ++ rest) Rr ids fuel m p (of_int 0) 0) as (v1 & E1 & V1); auto; try lia.
    { rewrite <- !app_assoc. exact B. }
    { destruct Fr as [|fds]; [exact Er|]. cbn. rewrite is_digit_iff. change (lookup 46) with (-1). lia. }
    { pose proof (of_int_exact prec emax Hp He H5 0 ltac:(lia)) as A. exact A. }
    assert (EX : bytes_at m (p + len ids + len fr) (ex ++ rest ++ [0])) by (apply bytes_at_app in B1; tauto).
    destruct (exponent_ok fuel m radix marks b (p + len ids + len fr) rest ex x RM X EX ltac:(lia) Hx) as (f & E3 & V3).
    exists v1. destruct Fr as [|fds].
    - cbn [app] in *. exists (match ex ++ rest with c :: _ => c | [] => 0 end), v1, f.
      split; [exact E1|]. split; [apply head_at; rewrite <- app_assoc; exact B1|].
      rewrite len_nil, Z.add_0_r in *.
      split; [|split; [exact E3|split; [|exact V3]]].
      + specialize (Ed eq_refl). destruct (ex ++ rest) as [|c t]; [reflexivity|]. cbn in Ed.
        destruct (Z.eqb_spec c 46); [contradiction|reflexivity].
      + change (- (4 * 0)) with 0. cbn [bpow]. rewrite Rmult_1_r. rewrite En'. exact V1.
    - cbn [app] in B1. destruct B1 as [B0 B1]. fold (@app Z) in B1.
      assert (exists v, frac_loop prec emax Hp He fuel m radix (p + len ids + 1) (of_int 1) v1 = Ok (v, p + len ids + 1 + len fds) /\
        val v (IZR n * bpow radix2 (- (4 * len fds))) false) as (v & E2 & V2).
      { destruct RM as [[= -> -> ->]|[= -> -> ->]].
        - rewrite (F10 eq_refl) in *. exists v1. rewrite (frac_empty fuel m 10 _ _ _ (ex ++ rest)); auto; [|rewrite <- app_assoc; exact B1|lia].
          rewrite len_nil, Z.add_0_r. split; [reflexivity|]. change (- (4 * 0)) with 0. cbn [bpow]. rewrite Rmult_1_r, En'. exact V1.
        - destruct (frac_loop_ok (ex ++ rest) fds fuel m (p + len ids + 1) v1 (of_int 1) (acc 16 ids 0) 0) as (v & E2 & V2); auto; try lia.
          + rewrite <- app_assoc. exact B1.
          + cbn [length] in Hf. lia.
          + change (- (4 * 0)) with 0. cbn [bpow]. rewrite Rmult_1_r. exact V1.
          + change (4 * 0) with 0. cbn [bpow]. exact (of_int_exact prec emax Hp He H5 1 ltac:(lia)).
          + exists v. rewrite Z.add_0_l in V2. rewrite En'. auto. }
      exists 46, v, f. split; [exact E1|]. split; [apply ld_ok; exact B0|]. rewrite Z.eqb_refl.
      rewrite len_cons in *. replace (p + len ids + (len fds + 1)) with (p + len ids + 1 + len fds) in * by lia.
      auto.
  Qed.

  Lemma digit_not_space c : is_digit 16 c -> ~ In c spaces.
  Proof.
    rewrite is_digit_iff. intros D I. cbn in I. repeat (destruct I as [<-|I]; [vm_compute in D; intuition congruence|]). destruct I.
  Qed.
  Lemma digit_not_sign c : is_digit 16 c -> ~ (c = 43 \/ c = 45).
  Proof. rewrite is_digit_iff. intros D [->| ->]; vm_compute in D; intuition congruence. Qed.
  Lemma digit_10_16 c : is_digit 10 c -> is_digit 16 c.
  Proof. rewrite !is_digit_iff. lia. Qed.

  Lemma nearest_of_val v r neg : val v (rnd (signed_real neg r)) neg -> nearest prec emax (signed_real neg r) neg v.
  Proof. intros (A & B & C). split; [exact A|]. split; assumption. Qed.

  Lemma bounded_round y : (Rabs y <= bpow radix2 (emax - 1))%R -> (Rabs (rnd y) < bpow radix2 emax)%R.
  Proof.
    intros L. apply Rle_lt_trans with (bpow radix2 (emax - 1)); [|apply bpow_lt; lia].
    pose proof He as PE. unfold Prec_lt_emax in PE.
    apply abs_round_le_generic; [apply valid; exact Hp|apply valid_rnd_N| |exact L].
    apply generic_format_FLT_bpow; [exact Hp|]. lia.
  Qed.

  Lemma factor_ten x f : factor 10 x (Some f) -> 0 <= x <= 38 -> 5 ^ x <= 2 ^ prec -> val f (IZR (10 ^ x)) false.
  Proof.
    intros (e & E0 & D) Hx L. pose proof pow32.
    assert (P : 0 <= e <= 38 -> 5 ^ e <= 2 ^ prec -> val (of_int (pow128 10 e)) (IZR (10 ^ e)) false).
    { intros He' Le. unfold pow128. rewrite Z.mod_small.
      2:{ split; [apply Z.pow_nonneg; lia|]. apply Z.le_lt_trans with (10 ^ 38); [apply Z.pow_le_mono_r; lia|reflexivity]. }
      assert (T : 10 ^ e = 5 ^ e * 2 ^ e) by (rewrite <- Z.pow_mul_l; reflexivity).
      pose proof (of_int_scaled prec emax Hp He H5 (5 ^ e) e) as A. rewrite T, mult_IZR.
      rewrite <- (IZR_Zpower radix2 e) in A by lia. apply A; [|lia|].
      - split; [apply Z.pow_nonneg; lia|exact Le].
      - rewrite <- T. apply Z.le_lt_trans with (10 ^ 38); [apply Z.pow_le_mono_r; lia|].
        apply Z.lt_le_trans with (2 ^ 128); [reflexivity|]. apply Z.pow_le_mono_r; lia. }
    destruct D as [[-> ->]|[-> ->]]; [apply P; lia|].
    assert (e = 0) by lia. subst e. specialize (P ltac:(lia) ltac:(cbn in *; lia)). change (IZR (10 ^ - 0)) with 1%R.
    change (IZR (10 ^ 0)) with 1%R in P. replace 1%R with (1 / 1)%R by lra. change false with (xorb false false).
    apply div_exact; [exact (of_int_exact prec emax Hp He H5 1 ltac:(lia))|exact P|lra| |].
    - replace (1 / 1)%R with (IZR 1) by lra. apply (fmt_int prec emax Hp He H5). lia.
    - replace (1 / 1)%R with (IZR 1) by lra. apply (int_lt prec emax He H5). lia.
  Qed.

  Lemma decimal_ok fuel m s text neg body rest used n x :
    cstr m s text -> (length text < fuel)%nat -> signed_text text neg body rest used -> decimal body rest n 0 x ->
    n <= 2 ^ prec -> 0 <= x <= 38 -> 5 ^ x <= 2 ^ prec -> n * 10 ^ x <= 2 ^ (emax - 1) ->
    exists v, strto_float prec emax Hp He fuel m s = Ok (v, s + used) /\
      nearest prec emax (signed_real neg (IZR (n * 10 ^ x))) neg v.
  Proof.
    intros C Hf (ws & sg & -> & Fw & Sg & ->) (ids & fr & fds & ex & -> & Ne & Fr & Nm & K & X & Er & Ed & Nx) Ln Hx L5 LM.
    assert (fds = []) by (destruct fds; [reflexivity|rewrite len_cons in K; pose proof (len_nonneg fds); lia]). subst fds.
    rewrite app_nil_r in Ne, Nm. rewrite len_nil in K.
    destruct (numeral_acc _ _ _ Nm) as [Fi _].
    destruct ids as [|c ids]; [congruence|]. pose proof Fi as Fi'. apply Forall_cons_iff in Fi'. destruct Fi' as [D _].
    pose proof (digit_10_16 _ D) as D16.
    destruct (prefix_ok fuel m s ws sg neg (((c :: ids) ++ fr ++ ex) ++ rest) Fw Sg (digit_not_space _ D16) (digit_not_sign _ D16) C Hf)
      as (S1 & Cp & S2 & g & Lg & Sgn).
    unfold strto_float. rewrite S1. cbn [bind]. rewrite Lg. cbn [bind]. rewrite Sgn. set (p := s + len ws + len sg) in *.
    rewrite S2. cbn [bind app]. rewrite (starts_digit c _ [105;110;102] D16) by auto. rewrite (starts_digit c _ [110;97;110] D16) by auto.
    destruct Cp as [_ Bp].
    assert (L0 : ld m p = Ok c) by (apply ld_ok; destruct Bp as [Bp _]; exact Bp). rewrite L0. cbn [bind].
    assert (HX : (if c =? 48 then x <- ld m (p + 1) ;; Ok (x =? 120) else Ok false) = Ok false).
    { destruct (Z.eqb_spec c 48) as [->|]; [|reflexivity].
      pose proof (tail_at _ _ _ _ Bp) as B1. fold (@app Z) in B1. rewrite (head_at _ _ _ B1). cbn [bind]. f_equal. apply Z.eqb_neq.
      destruct ids as [|c2 ids].
      - cbn [app]. destruct Fr as [|fds]; [|cbn; lia]. cbn [app] in *.
        inversion X as [NS|mk sg' ng ds e Hc]; subst.
        + cbn [app]. specialize (Nx eq_refl). destruct rest; [lia|]. cbn in Nx. lia.
        + cbn in Hc |- *. lia.
      - cbn [app]. apply Forall_cons_iff in Fi. destruct Fi as [_ Fi]. apply Forall_cons_iff in Fi. destruct Fi as [D2 _].
        apply is_digit_iff in D2. intros ->. vm_compute in D2. intuition congruence. }
    rewrite HX. cbn [bind].
    destruct (number_ok 10 (codes "eE") 10 fuel m p (c :: ids) fr [] ex rest n x) as (N0 & v1 & c1 & v & f & E1 & E2 & E3 & E4 & V & Fc); auto.
    { rewrite app_nil_r. exact Nm. }
    { rewrite len_nil. lia. }
    { lia. }
    { rewrite <- !app_assoc in *. exact Bp. }
    { rewrite !app_length in *. cbn [length] in *. lia. }
    rewrite E1. cbn [bind]. rewrite E2. cbn [bind]. rewrite E3. cbn [bind]. rewrite E4. cbn [bind].
    replace (p + len (c :: ids) + len fr + len ex) with (s + (len ws + len sg + len ((c :: ids) ++ fr ++ ex)))
      by (rewrite !len_app; subst p; lia).
    eexists. split; [reflexivity|].
    rewrite len_nil in V. change (- (4 * 0)) with 0 in V. cbn [bpow] in V. rewrite Rmult_1_r in V.
    pose proof (fmt_int prec emax Hp He H5 n ltac:(lia)) as Gn. pose proof (int_lt prec emax He H5 n ltac:(lia)) as In.
    pose proof (sign_exact neg v (IZR n) V Gn In) as VS.
    destruct f as [f|].
    - pose proof (factor_ten x f Fc Hx L5) as VF. apply nearest_of_val.
      assert (EQ : signed_real neg (IZR (n * 10 ^ x)) = (signed_real neg (IZR n) * IZR (10 ^ x))%R).
      { rewrite mult_IZR. unfold signed_real. destruct neg; ring. }
      rewrite EQ. pose proof (mul_round prec emax Hp He _ _ _ _ _ _ VS VF) as W. rewrite xorb_false_r in W. apply W.
      apply bounded_round. rewrite <- EQ, mul_abs_lt, <- abs_IZR, <- IZR_Zpower by lia.
      apply IZR_le. rewrite Z.abs_eq; [exact LM|]. apply Z.mul_nonneg_nonneg; [lia|apply Z.pow_nonneg; lia].
    - cbn in Fc. subst x. rewrite Z.pow_0_r, Z.mul_1_r. apply nearest_of_val.
      rewrite round_generic; [exact VS|apply valid_rnd_N|]. unfold signed_real. destruct neg; [apply generic_format_opp|]; exact Gn.
  Qed.

  Lemma factor_two x f : factor 2 x (Some f) -> Z.abs x <= 127 -> val f (bpow radix2 x) false.
  Proof.
    intros (e & E0 & D) Hx. pose proof pow32. assert (0 <= e <= 127) by lia. pose proof He as PE. unfold Prec_lt_emax in PE.
    assert (P : val (of_int (pow128 2 e)) (bpow radix2 e) false).
    { unfold pow128. rewrite Z.mod_small.
      2:{ split; [apply Z.pow_nonneg; lia|]. apply Z.pow_lt_mono_r; lia. }
      pose proof (of_int_scaled prec emax Hp He H5 1 e) as A. rewrite Z.mul_1_l, Rmult_1_l in A. apply A; try lia.
      apply Z.pow_lt_mono_r; lia. }
    destruct D as [[-> ->]|[-> ->]]; [exact P|].
    assert (EQ : bpow radix2 (- e) = (1 / bpow radix2 e)%R) by (rewrite bpow_opp; unfold Rdiv; ring).
    rewrite EQ. change false with (xorb false false). apply div_exact; auto.
    - exact (of_int_exact prec emax Hp He H5 1 ltac:(lia)).
    - apply Rgt_not_eq. apply bpow_gt_0.
    - rewrite <- EQ. apply generic_format_FLT_bpow; [exact Hp|lia].
    - rewrite <- EQ, Rabs_pos_eq by apply bpow_ge_0. apply bpow_lt. lia.
  Qed.

  Lemma hexadecimal_ok fuel m s text neg body rest used n k x :
    cstr m s text -> (length text < fuel)%nat -> signed_text text neg body rest used -> hexadecimal body rest n k x ->
    n <= 2 ^ prec -> 4 * k < emax -> Z.abs x <= 127 -> emin <= x - 4 * k -> prec + (x - 4 * k) < emax ->
    exists v, strto_float prec emax Hp He fuel m s = Ok (v, s + used) /\
      is_finite v = true /\ B2R v = signed_real neg (IZR n * bpow radix2 (x - 4 * k)) /\ Bsign v = neg.
  Proof.
    intros C Hf (ws & sg & -> & Fw & Sg & ->) (ids & fr & fds & ex & -> & Ne & Fr & Nm & -> & X & Er & Ed) Ln Lk Hx Lo Hi.
    assert (D16 : is_digit 16 48) by (rewrite is_digit_iff; cbn; lia).
    destruct (prefix_ok fuel m s ws sg neg ((codes "0x" ++ ids ++ fr ++ ex) ++ rest) Fw Sg (digit_not_space _ D16) (digit_not_sign _ D16) C Hf)
      as (S1 & Cp & S2 & g & Lg & Sgn).
    unfold strto_float. rewrite S1. cbn [bind]. rewrite Lg. cbn [bind]. rewrite Sgn. set (p := s + len ws + len sg) in *.
    rewrite S2. cbn [bind]. change (codes "0x") with [48; 120] in *. cbn [app].
    rewrite (starts_digit 48 _ [105;110;102] D16) by auto. rewrite (starts_digit 48 _ [110;97;110] D16) by auto.
    destruct Cp as [_ Bp]. cbn [app] in Bp. destruct Bp as (B0 & B1 & Bp).
    rewrite (ld_ok _ _ _ B0). cbn [bind]. change (48 =? 48) with true. cbv iota. rewrite (ld_ok _ _ _ B1). cbn [bind].
    change (120 =? 120) with true. cbv iota. fold (@app Z) in Bp. replace (p + 1 + 1) with (p + 2) in Bp by lia.
    destruct (number_ok 16 (codes "pP") 2 fuel m (p + 2) ids fr fds ex rest n x) as (N0 & v1 & c1 & v & f & E1 & E2 & E3 & E4 & V & Fc); auto; try lia.
    { rewrite <- !app_assoc in *. exact Bp. }
    { rewrite !app_length in *. cbn [length] in *. lia. }
    rewrite E1. cbn [bind]. rewrite E2. cbn [bind]. rewrite E3. cbn [bind]. rewrite E4. cbn [bind].
    replace (p + 2 + len ids + len fr + len ex) with (s + (len ws + len sg + len (48 :: 120 :: ids ++ fr ++ ex)))
      by (rewrite !len_cons, !len_app; subst p; lia).
    eexists. split; [reflexivity|]. pose proof He as PE. unfold Prec_lt_emax in PE. pose proof (len_nonneg fds).
    assert (G1 : fmt (IZR n * bpow radix2 (- (4 * len fds)))) by (apply (fmt_scaled prec emax Hp H5); lia).
    assert (L1 : (Rabs (IZR n * bpow radix2 (- (4 * len fds))) < bpow radix2 emax)%R) by (apply scaled_lt; lia).
    pose proof (sign_exact neg v _ V G1 L1) as VS.
    destruct f as [f|].
    - pose proof (factor_two x f Fc Hx) as VF.
      assert (EQ : signed_real neg (IZR n * bpow radix2 (x - 4 * len fds)) = (signed_real neg (IZR n * bpow radix2 (- (4 * len fds))) * bpow radix2 x)%R).
      { replace (x - 4 * len fds) with (- (4 * len fds) + x) by lia. rewrite bpow_plus. unfold signed_real. destruct neg; ring. }
      rewrite EQ. pose proof (mul_exact prec emax Hp He _ _ _ _ _ _ VS VF) as W. rewrite xorb_false_r in W. apply W.
      + rewrite <- EQ. assert (fmt (IZR n * bpow radix2 (x - 4 * len fds))) by (apply (fmt_scaled prec emax Hp H5); lia).
        unfold signed_real. destruct neg; [apply generic_format_opp|]; assumption.
      + rewrite <- EQ, mul_abs_lt. apply scaled_lt; lia.
    - cbn in Fc. subst x. rewrite Z.sub_0_l. exact VS.
  Qed.
End Float.
