From Verif Require Import Base String_model String_spec Utf8_model Utf8_spec.
Ltac Zify.zify_post_hook ::= Z.div_mod_to_equations.

Lemma cons_eq (x y : Z) l k : x = y -> l = k -> x :: l = y :: k.
Proof. intros; subst; reflexivity. Qed.
Ltac leq := repeat (apply cons_eq; [lia|]); reflexivity.

Lemma land63 x : Z.land x 63 = x mod 64.
Proof. exact (Z.land_ones x 6 ltac:(lia)). Qed.
Lemma land31 x : Z.land x 31 = x mod 32.
Proof. exact (Z.land_ones x 5 ltac:(lia)). Qed.
Lemma land15 x : Z.land x 15 = x mod 16.
Proof. exact (Z.land_ones x 4 ltac:(lia)). Qed.
Lemma land7 x : Z.land x 7 = x mod 8.
Proof. exact (Z.land_ones x 3 ltac:(lia)). Qed.

Lemma lor_hi x y k : 0 <= k -> 0 <= x < 2 ^ k -> 0 <= y -> Z.lor (Z.shiftl y k) x = x + 2 ^ k * y.
Proof.
  intros Hk Hx Hy.
  assert (E : Z.land (Z.shiftl y k) x = 0).
  { apply Z.bits_inj'. intros j Hj. rewrite Z.land_spec, Z.bits_0, Z.shiftl_spec by lia.
    destruct (Z_lt_dec j k); [rewrite (Z.testbit_neg_r y) by lia; reflexivity|].
    destruct (Z.eq_dec x 0) as [->|]; [rewrite Z.bits_0; apply andb_false_r|].
    rewrite (Z.bits_above_log2 x); [apply andb_false_r|lia|]. assert (Z.log2 x < k) by (apply Z.log2_lt_pow2; lia). lia. }
  rewrite <- (Z.lxor_lor _ _ E), <- (Z.add_nocarry_lxor _ _ E), Z.shiftl_mul_pow2 by lia. lia.
Qed.
Lemma lor128 x : 0 <= x < 64 -> Z.lor x 128 = 128 + x.
Proof. intros. rewrite Z.lor_comm. change 128 with (Z.shiftl 2 6). rewrite lor_hi; change (2 ^ 6) with 64; change (Z.shiftl 2 6) with 128; lia. Qed.
Lemma lor192 x : 0 <= x < 32 -> Z.lor x 192 = 192 + x.
Proof. intros. rewrite Z.lor_comm. change 192 with (Z.shiftl 6 5). rewrite lor_hi; change (2 ^ 5) with 32; change (Z.shiftl 6 5) with 192; lia. Qed.
Lemma lor224 x : 0 <= x < 16 -> Z.lor x 224 = 224 + x.
Proof. intros. rewrite Z.lor_comm. change 224 with (Z.shiftl 14 4). rewrite lor_hi; change (2 ^ 4) with 16; change (Z.shiftl 14 4) with 224; lia. Qed.
Lemma lor240 x : 0 <= x < 8 -> Z.lor x 240 = 240 + x.
Proof. intros. rewrite Z.lor_comm. change 240 with (Z.shiftl 30 3). rewrite lor_hi; change (2 ^ 3) with 8; change (Z.shiftl 30 3) with 240; lia. Qed.
Lemma acc_cont_eq a b : 0 <= a -> acc_cont a b = 64 * a + b mod 64.
Proof. intros. unfold acc_cont. rewrite land63, lor_hi; change (2 ^ 6) with 64; lia. Qed.

Lemma encode_eq c : scalar c -> encode_utf8 c = utf8 c.
Proof.
  intros H. unfold scalar in H. unfold encode_utf8, utf8.
  destruct (Z.ltb_spec c 128); [reflexivity|].
  rewrite !Z.shiftr_div_pow2 by lia. change (2 ^ 6) with 64. change (2 ^ 12) with 4096. change (2 ^ 18) with 262144.
  rewrite !land63, land31, land15, land7.
  destruct (Z.ltb_spec c 2048); [rewrite lor192, lor128 by lia; leq|].
  destruct (Z.ltb_spec c 65536).
  - rewrite lor224, !lor128 by lia; leq.
  - rewrite lor240, !lor128 by lia; leq.
Qed.
Lemma utf8_len c : scalar c -> len (utf8 c) = len_utf8 c.
Proof.
  intros H. unfold utf8, len_utf8. repeat (match goal with |- context [?a <? ?b] => destruct (Z.ltb_spec a b) end; try reflexivity).
Qed.
Lemma utf8_ne c : utf8 c <> [].
Proof. unfold utf8. repeat (match goal with |- context [?a <? ?b] => destruct (Z.ltb_spec a b) end); discriminate. Qed.
Lemma utf8_len_bounds c : 1 <= len (utf8 c) <= 4.
Proof. unfold utf8. repeat (match goal with |- context [?a <? ?b] => destruct (Z.ltb_spec a b) end); unfold len; cbn [length]; lia. Qed.
Lemma from_u32_some c : scalar c -> from_u32 c = Some c.
Proof. intros H. unfold scalar in H. unfold from_u32. replace ((c <? 55296) || (57343 <? c) && (c <=? 1114111)) with true; [reflexivity|]. symmetry. lia. Qed.
Lemma from_u32_none c : ~ scalar c -> 0 <= c -> from_u32 c = None.
Proof. intros H H0. unfold scalar in H. unfold from_u32. replace ((c <? 55296) || (57343 <? c) && (c <=? 1114111)) with false; [reflexivity|]. symmetry. lia. Qed.
Lemma scalar_dec c : scalar c \/ ~ scalar c.
Proof. unfold scalar. lia. Qed.

Lemma st_list_ok l : forall m a, mapped m a (len l) -> exists m', st_list m a l = Ok m' /\ stored m m' a l.
Proof.
  induction l as [|b l IH]; intros m a H; cbn [st_list].
  - exists m. split; [reflexivity|apply stored_nil].
  - rewrite len_cons in H. pose proof (len_nonneg l). rewrite st_ok by (apply H; lia). cbn [bind].
    destruct (IH (upd m a b) (a + 1)) as [m' [E S]].
    { apply mapped_upd. eapply mapped_sub; [exact H|lia|lia]. }
    exists m'. split; [exact E|]. apply stored_cons, S.
Qed.

Definition i32 (x : Z) : Prop := -2147483648 <= x < 2147483648.

Lemma wcrtomb_ok m s wc : s <> NULL -> scalar wc -> mapped m s (len (utf8 wc)) ->
  exists m', wcrtomb m s wc = Ok (m', len (utf8 wc), None) /\ stored m m' s (utf8 wc).
Proof.
  intros Hs Hc Hm. unfold wcrtomb. destruct (Z.eqb_spec s NULL); [contradiction|].
  rewrite Z.mod_small by (unfold scalar in Hc; lia). rewrite from_u32_some by exact Hc.
  rewrite encode_eq by exact Hc. destruct (st_list_ok _ _ _ Hm) as [m' [E S]]. rewrite E. cbn [bind].
  exists m'. rewrite utf8_len by exact Hc. auto.
Qed.
Lemma wcrtomb_bad m s wc : s <> NULL -> i32 wc -> ~ scalar wc -> wcrtomb m s wc = Ok (m, SZ_M1, Some EILSEQ).
Proof.
  intros Hs Hi Hc. unfold wcrtomb. destruct (Z.eqb_spec s NULL); [contradiction|].
  rewrite from_u32_none; [reflexivity| |]; unfold i32, scalar in *; lia.
Qed.
Lemma wctomb_ok m s wc : s <> NULL -> scalar wc -> mapped m s (len (utf8 wc)) ->
  exists m', wctomb m s wc = Ok (m', len (utf8 wc)) /\ stored m m' s (utf8 wc).
Proof.
  intros Hs Hc Hm. destruct (wcrtomb_ok m s wc Hs Hc Hm) as [m' [E S]]. exists m'. split; [|exact S].
  unfold wctomb. rewrite E. cbn [bind]. pose proof (utf8_len_bounds wc). unfold SZ_M1, SZ_M2, USIZE_MAX, to_i32.
  replace ((len (utf8 wc) =? 18446744073709551615) || (len (utf8 wc) =? 18446744073709551615 - 1)) with false by lia.
  do 2 f_equal. lia.
Qed.

(** ** Decoding *)
Lemma width_utf8 c : scalar c -> utf8_char_width (hd 0 (utf8 c)) = len (utf8 c).
Proof.
  intros H. unfold scalar in H. unfold utf8.
  repeat (match goal with |- context [?a <? ?b] => destruct (Z.ltb_spec a b) end); cbn [hd]; cbv [len length Z.of_nat Pos.of_succ_nat Pos.succ];
    unfold utf8_char_width; repeat (match goal with |- context [?a <=? ?b] => destruct (Z.leb_spec a b) end); try lia.
Qed.
Lemma enc_len_utf8 c : scalar c -> get_char_encoded_length (hd 0 (utf8 c)) = Some (len (utf8 c)).
Proof.
  intros H. unfold scalar in H. unfold get_char_encoded_length. rewrite !Z.shiftr_div_pow2 by lia.
  change (2 ^ 7) with 128. change (2 ^ 5) with 32. change (2 ^ 4) with 16. change (2 ^ 3) with 8. unfold utf8.
  repeat (match goal with |- context [?a <? ?b] => destruct (Z.ltb_spec a b) end); cbn [hd]; cbv [len length Z.of_nat Pos.of_succ_nat Pos.succ];
    repeat (match goal with |- context [?a =? ?b] => destruct (Z.eqb_spec a b) end); try lia; try reflexivity.
Qed.

Lemma decode_utf8 c : scalar c -> next_code_point (utf8 c) = c.
Proof.
  intros H. unfold scalar in H. unfold utf8.
  repeat (match goal with |- context [?a <? ?b] => destruct (Z.ltb_spec a b) end); cbn [next_code_point]; [reflexivity|..];
  rewrite ?land31, ?land63, ?land7;
  try rewrite (acc_cont_eq (_ mod 64) (128 + (c / 64) mod 64)) by lia; rewrite ?acc_cont_eq by lia;
  rewrite ?lor_hi by (change (2 ^ 12) with 4096; change (2 ^ 18) with 262144; lia);
  change (2 ^ 12) with 4096; change (2 ^ 18) with 262144; lia.
Qed.
Ltac bd := repeat (match goal with
  | |- context [?a <=? ?b] => destruct (Z.leb_spec a b)
  | |- context [?a =? ?b] => destruct (Z.eqb_spec a b) end; cbn [andb negb]).
Lemma from_utf8_ok m s c : scalar c -> bytes_at m s (utf8 c) -> from_utf8 m s (len (utf8 c)) = Ok (Some (utf8 c)).
Proof.
  intros H. unfold scalar in H. unfold utf8.
  repeat (match goal with |- context [?a <? ?b] => destruct (Z.ltb_spec a b) end); cbn [bytes_at]; intros Hb;
    cbv [len length Z.of_nat Pos.of_succ_nat Pos.succ]; unfold from_utf8; cbn [Z.eqb Pos.eqb].
  - destruct Hb as [Hb _]. rewrite (ld_ok _ _ _ Hb). cbn [bind]. bd; [reflexivity|lia].
  - destruct Hb as [Hb [Hb1 _]]. rewrite (ld_ok _ _ _ Hb), (ld_ok _ _ _ Hb1). cbn [bind]. unfold is_cont.
    replace ((128 <=? 128 + c mod 64) && (128 + c mod 64 <=? 191)) with true by lia. reflexivity.
  - destruct Hb as [Hb [Hb1 [Hb2 _]]]. replace (s + 1 + 1) with (s + 2) in Hb2 by lia.
    rewrite (ld_ok _ _ _ Hb), (ld_ok _ _ _ Hb1), (ld_ok _ _ _ Hb2). cbn [bind]. unfold is_cont.
    replace (if 224 + c / 4096 =? 224 then _ else _) with true; [cbn [negb]|].
    + replace ((128 <=? 128 + c mod 64) && (128 + c mod 64 <=? 191)) with true by lia. reflexivity.
    + symmetry. bd; try lia.
  - destruct Hb as [Hb [Hb1 [Hb2 [Hb3 _]]]]. replace (s + 1 + 1) with (s + 2) in * by lia. replace (s + 2 + 1) with (s + 3) in Hb3 by lia.
    rewrite (ld_ok _ _ _ Hb), (ld_ok _ _ _ Hb1), (ld_ok _ _ _ Hb2), (ld_ok _ _ _ Hb3). cbn [bind]. unfold is_cont.
    replace (if 240 + c / 262144 =? 240 then _ else _) with true; [cbn [negb]|].
    + replace ((128 <=? 128 + c / 64 mod 64) && (128 + c / 64 mod 64 <=? 191)) with true by lia. cbn [negb].
      replace ((128 <=? 128 + c mod 64) && (128 + c mod 64 <=? 191)) with true by lia. reflexivity.
    + symmetry. bd; try lia.
Qed.

Lemma utf8_hd m s c : bytes_at m s (utf8 c) -> ld m s = Ok (hd 0 (utf8 c)).
Proof. destruct (utf8 c) eqn:E; [destruct (utf8_ne c E)|]. intros [H _]. cbn [hd]. apply ld_ok, H. Qed.

Definition mb_ret (c : Z) : Z := if c =? 0 then 0 else len (utf8 c).

Lemma utf8_mbrtowc_char m s n c : scalar c -> bytes_at m s (utf8 c) -> len (utf8 c) <= n ->
  utf8_mbrtowc m s n = Ok (mb_ret c, Some c, None).
Proof.
  intros Hc Hb Hn. unfold utf8_mbrtowc. rewrite (utf8_hd _ _ _ Hb). cbn [bind]. rewrite width_utf8 by exact Hc.
  pose proof (utf8_len_bounds c). replace (n <? len (utf8 c)) with false by lia. replace (len (utf8 c) =? 0) with false by lia.
  rewrite from_utf8_ok by assumption. cbn [bind]. rewrite decode_utf8 by exact Hc. reflexivity.
Qed.
Lemma mbrtowc_char m s n c : s <> NULL -> scalar c -> bytes_at m s (utf8 c) -> len (utf8 c) <= n ->
  mbrtowc m s n = Ok (mb_ret c, Some c, None).
Proof. intros Hs. unfold mbrtowc. destruct (Z.eqb_spec s NULL); [contradiction|]. apply utf8_mbrtowc_char. Qed.

(** Whatever from_utf8 accepts is the encoding of a scalar value. *)
Lemma from_utf8_sound m s l : is_byte (hd 0 l) ->
  from_utf8 m s (utf8_char_width (hd 0 l)) = Ok (Some l) -> utf8_char_width (hd 0 l) <> 0 ->
  exists c, scalar c /\ l = utf8 c /\ bytes_at m s l.
Proof.
  unfold from_utf8, ld. destruct (m s) as [b0|] eqn:E0; [|discriminate]. cbn [bind].
  unfold is_cont. intros Hb H Hw. unfold is_byte in Hb.
  assert (W : utf8_char_width (hd 0 l) = 1 \/ utf8_char_width (hd 0 l) = 2 \/ utf8_char_width (hd 0 l) = 3 \/ utf8_char_width (hd 0 l) = 4).
  { unfold utf8_char_width in *. bd; lia. }
  destruct W as [W|[W|[W|W]]]; rewrite W in H; cbn [Z.eqb Pos.eqb] in H.
  - destruct (Z.leb_spec b0 127); [|discriminate]. injection H as <-. cbn [hd] in *.
    exists b0. split; [unfold scalar; lia|]. split; [|cbn; auto]. unfold utf8. replace (b0 <? 128) with true by lia. reflexivity.
  - destruct (m (s + 1)) as [b1|] eqn:E1; [|discriminate]. cbn [bind] in H.
    destruct ((128 <=? b1) && (b1 <=? 191)) eqn:C1; [|discriminate]. injection H as <-. cbn [hd] in *.
    unfold utf8_char_width in W. destruct (Z.leb_spec b0 127); [discriminate|]. destruct (Z.leb_spec b0 193); [discriminate|].
    destruct (Z.leb_spec b0 223); [|destruct (b0 <=? 239); [discriminate|destruct (b0 <=? 244); discriminate]].
    exists (64 * (b0 - 192) + (b1 - 128)). split; [unfold scalar; lia|]. split; [|cbn; auto].
    unfold utf8. replace (64 * (b0 - 192) + (b1 - 128) <? 128) with false by lia. replace (64 * (b0 - 192) + (b1 - 128) <? 2048) with true by lia.
    leq.
  - destruct (m (s + 1)) as [b1|] eqn:E1; [|discriminate]. cbn [bind] in H.
    match type of H with (if negb ?t then _ else _) = _ => destruct t eqn:C1; [|discriminate] end. cbn [negb] in H.
    destruct (m (s + 2)) as [b2|] eqn:E2; [|discriminate]. cbn [bind] in H.
    destruct ((128 <=? b2) && (b2 <=? 191)) eqn:C2; [|discriminate]. injection H as <-. cbn [hd] in *.
    unfold utf8_char_width in W. destruct (Z.leb_spec b0 127); [discriminate|]. destruct (Z.leb_spec b0 193); [discriminate|].
    destruct (Z.leb_spec b0 223); [discriminate|]. destruct (Z.leb_spec b0 239); [|destruct (b0 <=? 244); discriminate].
    assert (R : 2048 <= 4096 * (b0 - 224) + 64 * (b1 - 128) + (b2 - 128) <= 55295 \/ 57344 <= 4096 * (b0 - 224) + 64 * (b1 - 128) + (b2 - 128) <= 65535).
    { revert C1. bd; intros; try discriminate; lia. }
    assert (B1 : 128 <= b1 <= 191) by (revert C1; bd; intros; try discriminate; lia).
    exists (4096 * (b0 - 224) + 64 * (b1 - 128) + (b2 - 128)). split; [unfold scalar; lia|].
    split; [|cbn; replace (s + 1 + 1) with (s + 2) by lia; auto].
    unfold utf8. remember (4096 * (b0 - 224) + 64 * (b1 - 128) + (b2 - 128)) as v. replace (v <? 128) with false by lia. replace (v <? 2048) with false by lia.
    replace (v <? 65536) with true by lia. leq.
  - destruct (m (s + 1)) as [b1|] eqn:E1; [|discriminate]. cbn [bind] in H.
    match type of H with (if negb ?t then _ else _) = _ => destruct t eqn:C1; [|discriminate] end. cbn [negb] in H.
    destruct (m (s + 2)) as [b2|] eqn:E2; [|discriminate]. cbn [bind] in H.
    destruct ((128 <=? b2) && (b2 <=? 191)) eqn:C2; [|discriminate]. cbn [negb] in H.
    destruct (m (s + 3)) as [b3|] eqn:E3; [|discriminate]. cbn [bind] in H.
    destruct ((128 <=? b3) && (b3 <=? 191)) eqn:C3; [|discriminate]. injection H as <-. cbn [hd] in *.
    unfold utf8_char_width in W. destruct (Z.leb_spec b0 127); [discriminate|]. destruct (Z.leb_spec b0 193); [discriminate|].
    destruct (Z.leb_spec b0 223); [discriminate|]. destruct (Z.leb_spec b0 239); [discriminate|]. destruct (Z.leb_spec b0 244); [|discriminate].
    assert (R : 65536 <= 262144 * (b0 - 240) + 4096 * (b1 - 128) + 64 * (b2 - 128) + (b3 - 128) <= 1114111).
    { revert C1. bd; intros; try discriminate; lia. }
    assert (B1 : 128 <= b1 <= 191) by (revert C1; bd; intros; try discriminate; lia).
    exists (262144 * (b0 - 240) + 4096 * (b1 - 128) + 64 * (b2 - 128) + (b3 - 128)). split; [unfold scalar; lia|].
    split; [|cbn; replace (s + 1 + 1) with (s + 2) by lia; replace (s + 2 + 1) with (s + 3) by lia; auto].
    unfold utf8. remember (262144 * (b0 - 240) + 4096 * (b1 - 128) + 64 * (b2 - 128) + (b3 - 128)) as v. replace (v <? 128) with false by lia. replace (v <? 2048) with false by lia.
    replace (v <? 65536) with false by lia. leq.
Qed.
