From Verif Require Import Base String_spec String_proofs Ctype_model Ctype_spec Ctype_proofs Strto_model Strto_spec Strto_proofs.

Lemma is_digit10 c : is_digit 10 c <-> 48 <= c <= 57.
Proof. rewrite is_digit_iff. unfold lookup. bdes; lia. Qed.
Lemma lookup10 c : 48 <= c <= 57 -> lookup c = c - 48.
Proof. unfold lookup. intros. bdes; lia. Qed.

Lemma dec_loop_ok lo hi rest ds : lo <= 0 <= hi -> forall fuel m s N,
  bytes_at m s (ds ++ rest) -> Forall is_byte rest -> rest <> [] ->
  Forall (is_digit 10) ds -> ends (is_digit 10) rest -> (length ds < fuel)%nat ->
  0 <= N -> acc 10 ds N <= - lo ->
  dec_loop fuel m lo hi s (- N) = Ok (- acc 10 ds N).
Proof.
  intros Hl. induction ds as [|c ds IH]; intros fuel m s N B Hb Hr F E Hf HN HA;
    destruct fuel as [|fuel]; try (cbn in Hf; lia); cbn [dec_loop].
  - destruct rest as [|c rest]; [contradiction|]. destruct B as [B _]. rewrite (ld_ok _ _ _ B). cbn [bind].
    apply Forall_cons_iff in Hb. destruct Hb as [Hb _]. rewrite isdigit_sx8 by exact Hb.
    cbn [ends] in E. rewrite is_digit10 in E. destruct ((48 <=? c) && (c <=? 57)) eqn:X; [lia|]. reflexivity.
  - destruct B as [B B']. rewrite (ld_ok _ _ _ B). cbn [bind].
    apply Forall_cons_iff in F. destruct F as [D F]. apply is_digit10 in D.
    rewrite isdigit_sx8 by (unfold is_byte; lia). destruct ((48 <=? c) && (c <=? 57)) eqn:X; [|lia].
    assert (Hc : sx8 c = c) by (unfold sx8; bdes; lia). rewrite Hc.
    cbn [acc fold_left] in HA. rewrite lookup10 in HA by exact D.
    assert (G : N * 10 + (c - 48) <= acc 10 ds (N * 10 + (c - 48))) by (apply acc_ge; [lia|exact F|lia]).
    unfold acc in G. unfold checked, in_range.
    destruct ((lo <=? 10 * - N) && (10 * - N <=? hi)) eqn:R1; [|lia]. cbn [bind].
    destruct ((lo <=? 10 * - N - (c - 48)) && (10 * - N - (c - 48) <=? hi)) eqn:R2; [|lia]. cbn [bind].
    replace (10 * - N - (c - 48)) with (- (N * 10 + (c - 48))) by lia.
    rewrite (IH fuel m (s + 1) (N * 10 + (c - 48))); auto; try lia.
    + unfold acc. cbn [fold_left]. rewrite lookup10 by exact D. reflexivity.
    + cbn in Hf. lia.
Qed.

Lemma dec_num_ok lo hi fuel m s text neg n used ds :
  lo <= 0 <= hi -> hi <= - lo -> cstr m s text -> (length text < fuel)%nat ->
  subject 10 text neg n used ds -> lo <= (if neg then - n else n) <= hi ->
  dec_num lo hi fuel m s = Ok (if neg then - n else n).
Proof.
  intros Hl Hh Hs Hf [Sub] Hr.
  destruct Sub as [ws [sg [pfx [rest [b [-> [Fw [Ew [Sg [Es [Rx [Nm [Er _]]]]]]]]]]]]].
  inversion Rx as [? ? ? ? Hx| | |]; subst; try lia. cbn [app] in *.
  destruct (numeral_acc _ _ _ Nm) as [Fd ->]. clear Rx Nm.
  pose proof Hs as [Hc B]. rewrite <- app_assoc in B. pose proof B as B'. apply bytes_at_app in B'. destruct B' as [_ B'].
  assert (Chars : Forall is_byte ((sg ++ ds ++ rest) ++ [0])).
  { apply Forall_app in Hc. destruct Hc as [_ Hc].
    apply Forall_app. split; [|repeat constructor; unfold is_byte; lia].
    eapply Forall_impl; [|exact Hc]. unfold is_byte, is_char. intros; lia. }
  rewrite !app_length in Hf.
  assert (SK : skip_space fuel m s 0 = Ok (len ws)).
  { rewrite (skip_space_ok ((sg ++ ds ++ rest) ++ [0]) ws); auto; try lia.
    - rewrite Z.add_0_r. exact B.
    - destruct (sg ++ ds ++ rest); discriminate.
    - destruct (sg ++ ds ++ rest); [cbn; intuition lia|exact Ew]. }
  rewrite <- app_assoc in B', Chars. apply bytes_at_app in B'. destruct B' as [Bsg Bbody].
  apply Forall_app in Chars. destruct Chars as [_ Chars]. rewrite <- app_assoc in Chars, Bbody.
  apply Forall_app in Chars. destruct Chars as [_ Chars].
  assert (0 <= acc 10 ds 0) by (apply acc_ge; [lia|exact Fd|lia]).
  assert (DL : dec_loop fuel m lo hi (s + len ws + len sg) (- 0) = Ok (- acc 10 ds 0)).
  { apply (dec_loop_ok lo hi (rest ++ [0]) ds); auto; try lia.
    - destruct rest; discriminate.
    - destruct rest; [cbn; rewrite is_digit10; lia|exact Er].
    - destruct neg; lia. }
  change (- 0) with 0 in DL.
  unfold dec_num. rewrite SK. cbn [bind].
  destruct Sg.
  - cbn [app] in *. rewrite len_nil, Z.add_0_r in *.
    assert (exists c t', ds ++ rest ++ [0] = c :: t' /\ ~ (c = 43 \/ c = 45)) as [c [t' [Eq Nc]]].
    { specialize (Es eq_refl). destruct ds as [|c ds]; [destruct rest as [|c rest]|]; cbn in *; eexists _, _; split; try reflexivity; tauto || lia. }
    assert (Bc : m (s + len ws) = Some c) by (rewrite Eq in Bbody; destruct Bbody; assumption).
    rewrite (ld_ok _ _ _ Bc). cbn [bind].
    destruct (Z.eqb_spec c 45); [tauto|]. destruct (Z.eqb_spec c 43); [tauto|]. cbn [orb].
    rewrite DL. cbn [bind]. unfold checked, in_range. rewrite Z.opp_involutive.
    destruct ((lo <=? acc 10 ds 0) && (acc 10 ds 0 <=? hi)) eqn:R; [reflexivity|lia].
  - destruct Bsg as [Bsg _]. rewrite (ld_ok _ _ _ Bsg). cbn [bind Z.eqb orb Pos.eqb].
    change (len [43]) with 1 in DL. rewrite DL. cbn [bind]. unfold checked, in_range. rewrite Z.opp_involutive.
    destruct ((lo <=? acc 10 ds 0) && (acc 10 ds 0 <=? hi)) eqn:R; [reflexivity|lia].
  - destruct Bsg as [Bsg _]. rewrite (ld_ok _ _ _ Bsg). cbn [bind Z.eqb orb Pos.eqb].
    change (len [45]) with 1 in DL. rewrite DL. reflexivity.
Qed.

(** ** a64l / l64a *)
Lemma to_i32_bits v j : 0 <= j < 32 -> Z.testbit (to_i32 v) j = Z.testbit v j.
Proof.
  intros Hj. unfold to_i32.
  assert (E : (v + 2 ^ 31) mod 2 ^ 32 - 2 ^ 31 = v - (v + 2 ^ 31) / 2 ^ 32 * 2 ^ 32).
  { pose proof (Z.div_mod (v + 2 ^ 31) (2 ^ 32) ltac:(lia)). lia. }
  rewrite E. set (q := (v + 2 ^ 31) / 2 ^ 32).
  rewrite <- (Z.mod_pow2_bits_low (v - q * 2 ^ 32) 32) by lia.
  rewrite <- (Z.mod_pow2_bits_low v 32) by lia.
  replace (v - q * 2 ^ 32) with (v + (- q) * 2 ^ 32) by lia. rewrite Z_mod_plus_full. reflexivity.
Qed.
Lemma to_i32_range v : - 2 ^ 31 <= to_i32 v < 2 ^ 31.
Proof. unfold to_i32. pose proof (Z.mod_pos_bound (v + 2 ^ 31) (2 ^ 32) ltac:(lia)). change (2^32) with (2 * 2 ^ 31) in *. lia. Qed.
Lemma to_i32_high v j : 31 <= j -> Z.testbit (to_i32 v) j = (to_i32 v <? 0).
Proof.
  intros Hj. pose proof (to_i32_range v) as R.
  replace j with ((j - 31) + 31) by lia. rewrite <- Z.shiftr_spec by lia. rewrite Z.shiftr_div_pow2 by lia.
  destruct (Z.ltb_spec (to_i32 v) 0).
  - replace (to_i32 v / 2 ^ 31) with (-1); [apply Z.bits_m1; lia|].
    apply (Z.div_unique_pos _ _ _ (to_i32 v + 2 ^ 31)); lia.
  - rewrite Z.div_small by lia. apply Z.bits_0.
Qed.
Lemma to_i32_idem v : - 2 ^ 31 <= v < 2 ^ 31 -> to_i32 v = v.
Proof. intros H. unfold to_i32. rewrite Z.mod_small; change (2^32) with (2 * 2 ^ 31); lia. Qed.

(** value of the low [k] digits *)
Definition digit (v : Z) (i : nat) : Z := Z.land (Z.shiftr v (6 * Z.of_nat i)) 63.
Lemma digit_range v i : 0 <= digit v i < 64.
Proof. unfold digit. change 63 with (Z.ones 6). rewrite Z.land_ones by lia. apply Z.mod_pos_bound. lia. Qed.
Lemma digit_bits v i j : 0 <= j -> Z.testbit (Z.shiftl (digit v i) (6 * Z.of_nat i)) j =
  (6 * Z.of_nat i <=? j) && (j <? 6 * Z.of_nat i + 6) && Z.testbit v j.
Proof.
  intros Hj. rewrite Z.shiftl_spec by lia. unfold digit. change 63 with (Z.ones 6).
  destruct (Z.leb_spec (6 * Z.of_nat i) j).
  - rewrite Z.land_spec, Z.shiftr_spec by lia. replace (j - 6 * Z.of_nat i + 6 * Z.of_nat i) with j by lia.
    rewrite Z.testbit_ones_nonneg by lia. destruct (Z.ltb_spec (j - 6 * Z.of_nat i) 6), (Z.ltb_spec j (6 * Z.of_nat i + 6)); try lia;
      cbn; rewrite ?andb_true_r, ?andb_false_r; reflexivity.
  - rewrite Z.testbit_neg_r by lia. reflexivity.
Qed.

Lemma l64_char_digit d : 0 <= d < 64 -> a64_digit (sx8 (l64_char d)) = Some d /\ 0 < l64_char d < 128.
Proof.
  intros H.
  pose proof (byte_sweep (fun d => negb (d <? 64) || (match a64_digit (sx8 (l64_char d)) with Some x => x =? d | None => false end
     && (0 <? l64_char d) && (l64_char d <? 128))) ltac:(vm_compute; reflexivity) d ltac:(unfold is_byte; lia)) as S.
  cbv beta in S. destruct (d <? 64) eqn:L; [|lia]. cbn [negb orb] in S.
  destruct (a64_digit (sx8 (l64_char d))); [|discriminate]. split; [f_equal; lia|lia].
Qed.

(** the loop over the first [k] digits: bit j of the accumulator *)
Lemma a64l_loop_ok v m s : forall k i tot L, (i + k)%nat = tot -> (tot <= 6)%nat ->
  bytes_at m (s + Z.of_nat i) (map (fun i => l64_char (digit v i)) (seq i k) ++ [0]) ->
  (forall j, 0 <= j < 32 -> Z.testbit L j = (j <? 6 * Z.of_nat i) && Z.testbit v j) ->
  - 2 ^ 31 <= L < 2 ^ 31 ->
  exists R, a64l_loop (6 - i) m s (Z.of_nat i) L = Ok R /\ - 2 ^ 31 <= R < 2 ^ 31 /\
    forall j, 0 <= j < 32 -> Z.testbit R j = (j <? 6 * Z.of_nat tot) && Z.testbit v j.
Proof.
  induction k as [|k IH]; intros i tot L Ht H6 B HL RL.
  - assert (i = tot) by lia. subst i. cbn [map seq app] in B. destruct B as [B _].
    exists L. split; [|split; [exact RL|exact HL]].
    destruct (6 - tot)%nat; cbn [a64l_loop]; [reflexivity|]. rewrite (ld_ok _ _ _ B). reflexivity.
  - cbn [seq map app] in B. destruct B as [B0 B1].
    destruct (6 - i)%nat as [|k'] eqn:E6; [lia|]. cbn [a64l_loop]. rewrite (ld_ok _ _ _ B0). cbn [bind].
    destruct (l64_char_digit (digit v i) (digit_range v i)) as [Ed Rd]. rewrite Ed.
    destruct (Z.eqb_spec (l64_char (digit v i)) 0); [lia|].
    replace k' with (6 - S i)%nat by lia. replace (Z.of_nat i + 1) with (Z.of_nat (S i)) by lia.
    apply (IH (S i) tot); try lia.
    + replace (s + Z.of_nat (S i)) with (s + Z.of_nat i + 1) by lia. exact B1.
    + intros j Hj. rewrite Z.lor_spec, HL, to_i32_bits, digit_bits by lia.
      destruct (Z.testbit v j); rewrite ?andb_false_r, ?andb_true_r; [|reflexivity].
      destruct (Z.ltb_spec j (6 * Z.of_nat i)), (Z.leb_spec (6 * Z.of_nat i) j),
        (Z.ltb_spec j (6 * Z.of_nat i + 6)), (Z.ltb_spec j (6 * Z.of_nat (S i))); try lia; reflexivity.
    + (* range of lor *)
      assert (X : Z.lor L (to_i32 (Z.shiftl (digit v i) (6 * Z.of_nat i))) =
                  to_i32 (Z.lor L (to_i32 (Z.shiftl (digit v i) (6 * Z.of_nat i))))).
      { apply Z.bits_inj'. intros j Hj.
        destruct (Z_lt_dec j 32); [rewrite to_i32_bits by lia; reflexivity|].
        rewrite to_i32_high by lia. rewrite <- (to_i32_high _ 31) by lia. rewrite to_i32_bits by lia.
        rewrite !Z.lor_spec. rewrite <- (to_i32_idem L RL) at 1 2.
        rewrite !(to_i32_high L) by lia. rewrite !to_i32_high by lia. reflexivity. }
      rewrite X. apply to_i32_range.
Qed.

Lemma bits_eq32 a b : - 2 ^ 31 <= a < 2 ^ 31 -> - 2 ^ 31 <= b < 2 ^ 31 ->
  (forall j, 0 <= j < 32 -> Z.testbit a j = Z.testbit b j) -> a = b.
Proof.
  intros Ha Hb H. rewrite <- (to_i32_idem a Ha), <- (to_i32_idem b Hb). apply Z.bits_inj'. intros j Hj.
  destruct (Z_lt_dec j 32); [rewrite !to_i32_bits by lia; apply H; lia|].
  rewrite !to_i32_high by lia. rewrite <- !(to_i32_high _ 31) by lia. rewrite !to_i32_bits by lia. apply H. lia.
Qed.

Definition ndigits (v : Z) : nat := Z.to_nat (6 - (leading_zeros32 v + 4) / 6).
Lemma ndigits_ok v : - 2 ^ 31 <= v < 2 ^ 31 -> (ndigits v <= 6)%nat /\
  forall j, 6 * Z.of_nat (ndigits v) <= j < 32 -> Z.testbit v j = false.
Proof.
  intros Hv. unfold ndigits, leading_zeros32.
  destruct (Z.ltb_spec v 0); [cbn; split; [lia|intros; lia]|].
  destruct (Z.eqb_spec v 0) as [->|N]; [cbn; split; [lia|intros; apply Z.bits_0]|].
  assert (0 <= Z.log2 v < 31) by (split; [apply Z.log2_nonneg|apply Z.log2_lt_pow2; lia]).
  pose proof (Z.div_mod (31 - Z.log2 v + 4) 6 ltac:(lia)). pose proof (Z.mod_pos_bound (31 - Z.log2 v + 4) 6 ltac:(lia)).
  split; [lia|]. intros j Hj. apply Z.bits_above_log2; lia.
Qed.

Lemma a64l_l64a m s value : s <> NULL -> bytes_at m s (l64a value ++ [0]) -> a64l m s = Ok (to_i32 value).
Proof.
  intros Hs B. unfold a64l. destruct (Z.eqb_spec s NULL); [contradiction|].
  destruct (ndigits_ok (to_i32 value) (to_i32_range value)) as [N6 Hi].
  destruct (a64l_loop_ok (to_i32 value) m s (ndigits (to_i32 value)) 0 (ndigits (to_i32 value)) 0) as [R [E [RR RB]]]; try lia.
  - rewrite Z.add_0_r. exact B.
  - intros j Hj. rewrite Z.bits_0. destruct (Z.ltb_spec j (6 * Z.of_nat 0)); [lia|reflexivity].
  - change (6 - 0)%nat with 6%nat in E. change (Z.of_nat 0) with 0 in E. rewrite E. f_equal.
    apply bits_eq32; [exact RR|apply to_i32_range|]. intros j Hj. rewrite RB by exact Hj.
    destruct (Z.ltb_spec j (6 * Z.of_nat (ndigits (to_i32 value)))); [reflexivity|]. rewrite Hi by lia. reflexivity.
Qed.

Lemma l64a_length value : (length (l64a value) <= 6)%nat.
Proof. unfold l64a. rewrite map_length, seq_length. apply ndigits_ok, to_i32_range. Qed.

Definition alphabet64 : list Z := map l64_char (map Z.of_nat (seq 0 64)).
Lemma l64a_chars value : Forall (fun c => In c alphabet64) (l64a value).
Proof.
  unfold l64a. apply Forall_forall. intros c Hc. apply in_map_iff in Hc. destruct Hc as [i [<- _]].
  apply in_map, in_map_iff. pose proof (digit_range (to_i32 value) i) as R. unfold digit in R.
  exists (Z.to_nat (Z.land (Z.shiftr (to_i32 value) (6 * Z.of_nat i)) 63)). split; [lia|]. apply in_seq. lia.
Qed.

(** the most significant character is not '.' (value 0) *)
Lemma l64a_msd value pre c : l64a value = pre ++ [c] -> c <> 46.
Proof.
  unfold l64a. set (v := to_i32 value). fold (ndigits v).
  destruct (ndigits v) as [|n] eqn:En; [destruct pre; discriminate|].
  rewrite seq_S, map_app. cbn [map]. intros H. apply app_inj_tail in H. destruct H as [_ <-].
  pose proof (to_i32_range value) as Rv. fold v in Rv. cbn [Nat.add].
  assert (D : digit v n <> 0).
  { intros D0. unfold ndigits, leading_zeros32 in En.
    destruct (Z.ltb_spec v 0) as [Vn|Vp].
    - cbn in En. assert (n = 5)%nat by lia. subst n. 
      assert (Z.testbit (Z.shiftl (digit v 5) (6 * Z.of_nat 5)) 31 = true).
      { rewrite digit_bits by lia. unfold v. rewrite to_i32_high by lia. cbn. fold v. lia. }
      rewrite D0, Z.shiftl_0_l, Z.bits_0 in H. discriminate.
    - destruct (Z.eqb_spec v 0) as [E0|N]; [cbn in En; discriminate|].
      assert (0 <= Z.log2 v < 31) by (split; [apply Z.log2_nonneg|apply Z.log2_lt_pow2; lia]).
      pose proof (Z.div_mod (31 - Z.log2 v + 4) 6 ltac:(lia)). pose proof (Z.mod_pos_bound (31 - Z.log2 v + 4) 6 ltac:(lia)).
      assert (Z.testbit (Z.shiftl (digit v n) (6 * Z.of_nat n)) (Z.log2 v) = true).
      { rewrite digit_bits by lia. rewrite Z.bit_log2 by lia.
        destruct (Z.leb_spec (6 * Z.of_nat n) (Z.log2 v)), (Z.ltb_spec (Z.log2 v) (6 * Z.of_nat n + 6)); try reflexivity; lia. }
      rewrite D0, Z.shiftl_0_l, Z.bits_0 in H2. discriminate. }
  pose proof (digit_range v n). unfold digit in *. unfold l64_char. bdes; lia.
Qed.
