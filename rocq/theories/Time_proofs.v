From Coq Require Import String.
From Verif Require Import Base Numeral Ctype_spec Utf8_model Utf8_proofs Timespec_model Writer_model Writer_proofs Time_model Time_spec.
Open Scope string_scope.
Open Scope list_scope.
Open Scope Z_scope.
Ltac Zify.zify_post_hook ::= Z.to_euclidean_division_equations.

Lemma to_i32_id v : -2147483648 <= v <= 2147483647 -> to_i32 v = v.
Proof. intros H. unfold to_i32. rewrite Z.mod_small by lia. lia. Qed.

Lemma td1 v : 0 <= v < 10 -> to_digits 10 v = [v].
Proof. intros H. apply (numeral_1 10); [lia|apply to_digits_numeral; lia|lia]. Qed.
Lemma td2 v : 10 <= v < 100 -> to_digits 10 v = [v / 10; v mod 10].
Proof. intros H. apply (numeral_2 10); [lia|apply to_digits_numeral; lia|lia]. Qed.
Lemma td3 v : 100 <= v < 1000 -> to_digits 10 v = [v / 100; v / 10 mod 10; v mod 10].
Proof. intros H. apply (numeral_3 10); [lia|apply to_digits_numeral; lia|lia]. Qed.

Lemma dec_1 v : 0 <= v < 10 -> dec v = [48 + v].
Proof. intros H. unfold dec. rewrite Z.abs_eq by lia. replace (v <? 0) with false by lia. rewrite td1 by lia. reflexivity. Qed.
Lemma dec_2 v : 10 <= v < 100 -> dec v = dd v.
Proof. intros H. unfold dec. rewrite Z.abs_eq by lia. replace (v <? 0) with false by lia. rewrite td2 by lia. reflexivity. Qed.
Lemma dec0_2 v : 0 <= v < 100 -> dec0 2 v = dd v.
Proof.
  intros H. unfold dec0, dd, zeros. rewrite Z.abs_eq by lia. replace (v <? 0) with false by lia. destruct (Z_lt_dec v 10).
  - rewrite td1 by lia. cbn [map len length repeat app]. change (Z.to_nat (2 - len [48 + v])) with 1%nat. cbn [repeat app].
    leq.
  - rewrite td2 by lia. reflexivity.
Qed.
Lemma dec0_3 v : 0 <= v < 1000 -> dec0 3 v = ddd v.
Proof.
  intros H. unfold dec0, ddd, zeros. rewrite Z.abs_eq by lia. replace (v <? 0) with false by lia. destruct (Z_lt_dec v 10); [|destruct (Z_lt_dec v 100)].
  - rewrite td1 by lia. cbn [map]. change (Z.to_nat (3 - len [48 + v])) with 2%nat. cbn [repeat app].
    leq.
  - rewrite td2 by lia. cbn [map]. change (Z.to_nat (3 - len [48 + v / 10; 48 + v mod 10])) with 1%nat. cbn [repeat app].
    leq.
  - rewrite td3 by lia. reflexivity.
Qed.
Lemma decw_2 v : 0 <= v < 100 -> decw 2 v = space_padded v.
Proof.
  intros H. unfold decw, space_padded. destruct (Z_lt_dec v 10).
  - rewrite dec_1 by lia. replace (v <? 10) with true by lia. reflexivity.
  - rewrite dec_2 by lia. replace (v <? 10) with false by lia. reflexivity.
Qed.
Lemma decimal_dec v : decimal v (dec v).
Proof.
  exists (to_digits 10 (Z.abs v)). split; [apply to_digits_numeral; lia|]. unfold dec. destruct (v <? 0); reflexivity.
Qed.
Lemma decimal_inj v o1 o2 : decimal v o1 -> decimal v o2 -> o1 = o2.
Proof. intros [l1 [N1 ->]] [l2 [N2 ->]]. rewrite (numeral_inj 10 l1 l2 (Z.abs v)); [reflexivity|lia|exact N1|exact N2]. Qed.

(** ** names *)
Ltac seven x H := assert (x = 0 \/ x = 1 \/ x = 2 \/ x = 3 \/ x = 4 \/ x = 5 \/ x = 6) as H by lia.
Ltac twelve x H := assert (x = 0 \/ x = 1 \/ x = 2 \/ x = 3 \/ x = 4 \/ x = 5 \/ x = 6 \/ x = 7 \/ x = 8 \/ x = 9 \/ x = 10 \/ x = 11) as H by lia.
Lemma li_small k x : 0 <= k <= 100 -> 0 <= x <= 100 -> li k x = k + x.
Proof. intros. unfold li. rewrite Z.mod_small; lia. Qed.
Lemma name_a t : 0 <= tm_wday t <= 6 -> langinfo (li 14 (tm_wday t)) = abbrev (weekday t).
Proof. intros H. rewrite li_small by lia. unfold weekday. generalize dependent (tm_wday t). intros x H. seven x C. repeat destruct C as [->|C]; [reflexivity..|subst; reflexivity]. Qed.
Lemma name_A t : 0 <= tm_wday t <= 6 -> langinfo (li 7 (tm_wday t)) = weekday t.
Proof. intros H. rewrite li_small by lia. unfold weekday. generalize dependent (tm_wday t). intros x H. seven x C. repeat destruct C as [->|C]; [reflexivity..|subst; reflexivity]. Qed.
Lemma name_b t : 0 <= tm_mon t <= 11 -> langinfo (li 33 (tm_mon t)) = abbrev (month t).
Proof. intros H. rewrite li_small by lia. unfold month. generalize dependent (tm_mon t). intros x H. twelve x C. repeat destruct C as [->|C]; [reflexivity..|subst; reflexivity]. Qed.
Lemma name_B t : 0 <= tm_mon t <= 11 -> langinfo (li 21 (tm_mon t)) = month t.
Proof. intros H. rewrite li_small by lia. unfold month. generalize dependent (tm_mon t). intros x H. twelve x C. repeat destruct C as [->|C]; [reflexivity..|subst; reflexivity]. Qed.
Lemma name_p t : langinfo (if tm_hour t <? 12 then 5 else 6) = ampm t.
Proof. unfold ampm. destruct (tm_hour t <? 12); reflexivity. Qed.

Lemma h12 t : 0 <= tm_hour t <= 23 -> to_i32 (Z.rem (to_i32 (to_i32 (tm_hour t + 12) - 1)) 12 + 1) = hour12 t.
Proof.
  intros H. rewrite (to_i32_id (tm_hour t + 12)), (to_i32_id (tm_hour t + 12 - 1)), to_i32_id by lia. unfold hour12.
  destruct (tm_hour t mod 12 =? 0) eqn:E; lia.
Qed.
Lemma hour12_range t : 0 <= tm_hour t <= 23 -> 1 <= hour12 t <= 12.
Proof. intros H. unfold hour12. destruct (tm_hour t mod 12 =? 0) eqn:E; lia. Qed.

Definition good (r : sfr) (t : tm) (o : list Z) : Prop := exists ps, r = Ok (ps, t, true) /\ concat ps = o /\ ps <> [].
Lemma good1 t o p : p = o -> good (emit t [p]) t o.
Proof. intros ->. exists [o]. cbn [concat]. rewrite app_nil_r. repeat split. discriminate. Qed.

Ltac ok_destruct H := destruct H as [Hsec [Hmin [Hhour [Hmday [Hmon [Hyear [Hwday [Hyday [Hgmt [z [Hz Fz]]]]]]]]]]].

Ltac pick c := change c with c; cbv [sf_conv]; cbn [Z.eqb Pos.eqb orb]; cbv zeta.

Lemma week_ok t : tm_ok t -> tm_wday t <> 0 -> (tm_yday t - mon_wday t + 3) mod 7 <> 0 -> 10 <= (tm_yday t - mon_wday t + 10) / 7 <= 52 ->
  week_of_year t = iso_week t /\ 10 <= iso_week t <= 52.
Proof.
  intros H Hw H7 Hr. ok_destruct H. unfold week_of_year, iso_week. unfold mon_wday in *.
  assert (Em : (tm_wday t + 6) mod 7 = tm_wday t - 1) by lia. rewrite Em in *.
  rewrite (to_i32_id (10 + tm_yday t)), to_i32_id by lia.
  assert (Eq : Z.quot (10 + tm_yday t - tm_wday t) 7 = (tm_yday t - (tm_wday t - 1) + 9) / 7) by lia. rewrite Eq.
  assert (W : 52 <= weeks_per_year (tm_year t)) by (unfold weeks_per_year; destruct (_ =? 4); lia).
  assert (L : 365 <= year_days (year t)) by (unfold year_days; destruct (leap _); lia).
  set (w := (tm_yday t - (tm_wday t - 1) + 9) / 7) in *.
  replace (w <=? 1) with false by lia. replace (weeks_per_year (tm_year t) <? w) with false by lia.
  replace (tm_yday t - (tm_wday t - 1) + 3 <? 0) with false by lia.
  replace (year_days (year t) <=? tm_yday t - (tm_wday t - 1) + 3) with false by lia. lia.
Qed.
