(* Lemmas for C118: infinities, NaNs, and wcstod. *)
From Coq Require Import String Reals ZArith Lra.
From Flocq Require Import Core IEEE754.BinarySingleNaN.
From Verif Require Import Base Ctype_model Ctype_spec Ctype_proofs Strto_model Strto_spec Strto_proofs Inet_model Inet_proofs
  Wcs_spec Wcsto_model Wcsto_proofs Strtod_model Strtod_spec Strtod_float Strtod_proofs.
Open Scope string_scope.
Open Scope list_scope.
Open Scope Z_scope.

Lemma any_case_starts w lower rest : In lower [codes "inf"; codes "nan"] -> any_case w lower ->
  len w = 3 /\ starts_ci (w ++ rest) lower = true /\ (lower = codes "nan" -> starts_ci (w ++ rest) (codes "inf") = false).
Proof.
  intros I A.
  assert (T : forall a b, In b [105;110;102;97] -> (a = b \/ a = b - 32) -> tolower a = b).
  { intros a b Ib [-> | ->]; cbn in Ib; repeat (destruct Ib as [<-|Ib]; [reflexivity|]); destruct Ib. }
  unfold any_case in A. destruct I as [<-|[<-|[]]].
  - change (codes "inf") with [105;110;102] in *.
    inversion A as [|a ? l ? H1 A1]; subst; inversion A1 as [|b ? l' ? H2 A2]; subst; inversion A2 as [|c ? l'' ? H3 A3]; subst.
    inversion A3; subst. split; [reflexivity|]. split; [|discriminate].
    cbn [app starts_ci]. rewrite (T a 105), (T b 110), (T c 102) by (cbn; auto). reflexivity.
  - change (codes "nan") with [110;97;110] in *.
    inversion A as [|a ? l ? H1 A1]; subst; inversion A1 as [|b ? l' ? H2 A2]; subst; inversion A2 as [|c ? l'' ? H3 A3]; subst.
    inversion A3; subst. split; [reflexivity|].
    split; [|intros _; change (codes "inf") with [105;110;102]]; cbn [app starts_ci];
      rewrite (T a 110), ?(T b 97), ?(T c 110) by (cbn; auto 6); reflexivity.
Qed.

Section Float.
  Variables prec emax : Z.
  Context (Hp : Prec_gt_0 prec) (He : Prec_lt_emax prec emax).
  Variable H5 : 5 <= prec.
  Local Notation emin := (3 - emax - prec).
  Local Notation fexp := (FLT_exp emin prec).
  Local Notation fmt := (generic_format radix2 fexp).
  Local Notation fl := (fl prec emax).
  Local Notation of_int := (of_int prec emax Hp He).

  Lemma of_one (neg : bool) : exists mx ex H, of_int (if neg then -1 else 1) = B754_finite neg mx ex H.
  Proof.
    pose proof (pow32 prec H5).
    pose proof (of_int_exact prec emax Hp He H5 (if neg then -1 else 1) ltac:(destruct neg; lia)) as (F & R & S).
    destruct (of_int (if neg then -1 else 1)) as [z|z| |z mx ex Hm]; try discriminate.
    - cbn in R. destruct neg; exfalso; lra.
    - cbn in S. subst z. destruct neg; eauto.
  Qed.

  Lemma special_ok fuel m s ws sg neg w lower rest :
    In lower [codes "inf"; codes "nan"] -> any_case w lower ->
    Forall (fun c => In c spaces) ws -> sign sg neg -> cstr m s (ws ++ sg ++ w ++ rest) ->
    (length (ws ++ sg ++ w ++ rest) < fuel)%nat ->
    strto_float prec emax Hp He fuel m s =
      Ok (if starts_ci lower (codes "inf") then B754_infinity neg else B754_nan, s + (len ws + len sg + len w)).
  Proof.
    intros I A Fw Sg C Hf. destruct (any_case_starts w lower rest I A) as (L3 & S1 & S2).
    assert (H1 : exists a l, w ++ rest = a :: l /\ In a [105;73;110;78]).
    { destruct w as [|a w]; [discriminate|]. exists a, (w ++ rest). split; [reflexivity|].
      unfold any_case in A. destruct I as [<-|[<-|[]]]; inversion A as [|? ? ? ? Ha]; subst; cbn in Ha |- *; lia. }
    destruct H1 as (a & l & El & Ia).
    destruct (prefix_ok prec emax Hp He fuel m s ws sg neg (w ++ rest) Fw Sg) as (P1 & _ & P2 & g & Lg & Sgn); auto.
    { rewrite El. cbn. cbn in Ia. lia. }
    { rewrite El. cbn. cbn in Ia. lia. }
    unfold strto_float. rewrite P1. cbn [bind]. rewrite Lg. cbn [bind]. rewrite Sgn. rewrite P2. cbn [bind].
    change [105;110;102] with (codes "inf"). change [110;97;110] with (codes "nan").
    replace (s + len ws + len sg + 3) with (s + (len ws + len sg + len w)) by lia.
    destruct (of_one neg) as (mx & ex & Hm & E1).
    destruct I as [<-|[<-|[]]].
    - rewrite S1. rewrite E1. cbn. rewrite xorb_false_r. reflexivity.
    - rewrite (S2 eq_refl), S1. rewrite E1. reflexivity.
  Qed.

  (* wcstod: integers *)
  Definition fin (x : fl) (r : R) : Prop := is_finite x = true /\ B2R x = r.
  Lemma fin_mul x y rx ry : fin x rx -> fin y ry -> fmt (rx * ry) -> (Rabs (rx * ry) < bpow radix2 emax)%R ->
    fin (fmul prec emax Hp He x y) (rx * ry).
  Proof.
    intros [F1 <-] [F2 <-] G L. destruct (mul_exact prec emax Hp He x y _ _ _ _ (conj F1 (conj eq_refl eq_refl)) (conj F2 (conj eq_refl eq_refl)) G L) as (A & B & _).
    split; assumption.
  Qed.
  Lemma fin_add x y rx ry : fin x rx -> fin y ry -> fmt (rx + ry) -> (Rabs (rx + ry) < bpow radix2 emax)%R ->
    fin (fadd prec emax Hp He x y) (rx + ry).
  Proof.
    intros [F1 <-] [F2 <-] G L. unfold fadd. pose proof (Bplus_correct prec emax Hp He mode_NE x y F1 F2) as C.
    change (SpecFloat.fexp prec emax) with fexp in C. change (round_mode mode_NE) with ZnearestE in C.
    rewrite (round_generic radix2 fexp ZnearestE _ G) in C. rewrite Rlt_bool_true in C by exact L. split; tauto.
  Qed.
  Lemma fin_sub x y rx ry : fin x rx -> fin y ry -> fmt (rx - ry) -> (Rabs (rx - ry) < bpow radix2 emax)%R ->
    fin (fsub prec emax Hp He x y) (rx - ry).
  Proof.
    intros [F1 <-] [F2 <-] G L. unfold fsub. pose proof (Bminus_correct prec emax Hp He mode_NE x y F1 F2) as C.
    change (SpecFloat.fexp prec emax) with fexp in C. change (round_mode mode_NE) with ZnearestE in C.
    rewrite (round_generic radix2 fexp ZnearestE _ G) in C. rewrite Rlt_bool_true in C by exact L. split; tauto.
  Qed.
  Lemma fin_int z : Z.abs z <= 2 ^ prec -> fin (of_int z) (IZR z).
  Proof. intros H. destruct (of_int_exact prec emax Hp He H5 z H) as (A & B & _). split; assumption. Qed.

  Definition sgz (neg : bool) (n : Z) : Z := if neg then - n else n.
  Lemma wint_loop_ok neg rest : forall ds fuel m p v n,
    bytes_at m p (ds ++ rest ++ [0]) -> Forall (is_digit 10) ds -> ends (is_digit 10) rest ->
    (length ds < fuel)%nat -> 0 <= n -> acc 10 ds n <= 2 ^ prec -> fin v (IZR (sgz neg n)) ->
    exists v', wint_loop prec emax Hp He fuel m neg p v = Ok (v', p + len ds) /\ fin v' (IZR (sgz neg (acc 10 ds n))).
  Proof.
    pose proof (pow32 prec H5) as P32.
    induction ds as [|c ds IH]; intros fuel m p v n B F E Hf Hn L V; destruct fuel as [|fuel];
      try (cbn in Hf; lia); cbn [wint_loop].
    - cbn [app] in B. rewrite (head_at _ _ _ B). cbn [bind].
      rewrite (proj2 (to_digit_ok _ 10 ltac:(lia)) (ends_zero 10 rest E)). cbn [bind].
      exists v. rewrite len_nil, Z.add_0_r. split; [reflexivity|exact V].
    - destruct B as [B B']. rewrite (ld_ok _ _ _ B). cbn [bind]. apply Forall_cons_iff in F. destruct F as [D F].
      rewrite (proj1 (to_digit_ok c 10 ltac:(lia)) D). cbn [bind]. apply is_digit_iff in D.
      change (acc 10 (c :: ds) n) with (acc 10 ds (n * 10 + lookup c)) in *.
      pose proof (acc_ge 10 ds ltac:(lia) F (n * 10 + lookup c) ltac:(lia)).
      assert (M : fin (fmul prec emax Hp He v (of_int 10)) (IZR (sgz neg n * 10))).
      { rewrite mult_IZR. apply fin_mul; [exact V|apply fin_int; lia| |]; rewrite <- mult_IZR.
        - apply (fmt_int prec emax Hp He H5). unfold sgz. destruct neg; lia.
        - apply (int_lt prec emax He H5). unfold sgz. destruct neg; lia. }
      assert (W : fin (if neg then fsub prec emax Hp He (fmul prec emax Hp He v (of_int 10)) (of_int (lookup c))
                       else fadd prec emax Hp He (fmul prec emax Hp He v (of_int 10)) (of_int (lookup c)))
                      (IZR (sgz neg (n * 10 + lookup c)))).
      { destruct neg; unfold sgz in *.
        - replace (- (n * 10 + lookup c)) with (- n * 10 - lookup c) by lia. rewrite minus_IZR.
          apply fin_sub; [exact M|apply fin_int; lia| |]; rewrite <- minus_IZR.
          + apply (fmt_int prec emax Hp He H5). lia.
          + apply (int_lt prec emax He H5). lia.
        - rewrite plus_IZR. apply fin_add; [exact M|apply fin_int; lia| |]; rewrite <- plus_IZR.
          + apply (fmt_int prec emax Hp He H5). lia.
          + apply (int_lt prec emax He H5). lia. }
      destruct (IH fuel m (p + 1) _ (n * 10 + lookup c) B' F E ltac:(cbn in Hf; lia) ltac:(lia) L W) as (v' & Ev & Vv).
      exists v'. split; [|exact Vv]. rewrite Ev, len_cons. f_equal. f_equal. lia.
  Qed.

  Lemma wcsto_float_ok fuel m s ws (neg : bool) ds rest n :
    Forall (fun c => In c spaces) ws -> ds <> [] -> numeral 10 ds n -> n <= 2 ^ prec ->
    ends (fun c => is_digit 10 c \/ c = 46) rest ->
    let text := ws ++ (if neg then [45] else []) ++ ds ++ rest in
    wstr m s text -> (length text < fuel)%nat ->
    exists v, wcsto_float prec emax Hp He fuel m s = Ok (v, s + (len text - len rest)) /\
      fin v (IZR (if neg then - n else n)).
  Proof.
    intros Fw Nd Nm Ln Er text [_ B] Hf. subst text. destruct (numeral_acc _ _ _ Nm) as [Fd En]. rewrite !app_length in Hf.
    destruct ds as [|d ds]; [congruence|]. pose proof Fd as Fd'. apply Forall_cons_iff in Fd'. destruct Fd' as [D _].
    rewrite <- !app_assoc in B. pose proof B as B1. apply bytes_at_app in B1. destruct B1 as [_ B1].
    unfold wcsto_float.
    rewrite (skipws_ok ((if neg then [45] else []) ++ (d :: ds) ++ rest ++ [0]) ws); auto; try lia.
    2:{ destruct neg; discriminate. }
    2:{ destruct neg; cbn; [intuition lia|]. apply digit_not_space. apply digit_10_16. exact D. }
    cbn [bind].
    assert (SG : exists c, ld m (s + len ws) = Ok c /\ (c =? 45) = neg).
    { destruct neg; destruct B1 as [B1 _].
      - exists 45. split; [apply ld_ok; exact B1|reflexivity].
      - exists d. split; [apply ld_ok; exact B1|]. apply Z.eqb_neq. intros ->. apply is_digit_iff in D. vm_compute in D. intuition congruence. }
    destruct SG as (c & Lc & Ec). rewrite Lc. cbn [bind]. rewrite Ec.
    apply bytes_at_app in B1. destruct B1 as [_ B1].
    set (p := s + len ws + len (if neg then [45] else [])) in *.
    replace (if neg then s + len ws + 1 else s + len ws) with p
      by (subst p; destruct neg; cbn [len]; rewrite ?len_cons, ?len_nil; lia).
    destruct (wint_loop_ok neg rest (d :: ds) fuel m p (of_int 0) 0) as (v & Ev & V); auto; try lia.
    { destruct rest; [exact I|]. cbn in Er |- *. tauto. }
    { pose proof (pow32 prec H5). replace (sgz neg 0) with 0 by (destruct neg; reflexivity). apply fin_int. lia. }
    rewrite Ev. cbn [bind]. apply bytes_at_app in B1. destruct B1 as [_ B1].
    rewrite (head_at _ _ _ B1). cbn [bind].
    replace ((match rest with c0 :: _ => c0 | [] => 0 end) =? 46) with false.
    2:{ symmetry. apply Z.eqb_neq. destruct rest; [lia|]. cbn in Er. tauto. }
    exists v. split; [|rewrite En; exact V]. f_equal. f_equal. rewrite !len_app. subst p. lia.
  Qed.
End Float.
