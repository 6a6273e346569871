(* Proofs for C51 and C57-C59. *)
From Verif Require Import Base Signal_model Signal_spec.
Opaque Z.pow.

Lemma ones64 : 2 ^ 64 - 1 = Z.ones 64. Proof. reflexivity. Qed.
Lemma ones32 : LOW = Z.ones 32. Proof. reflexivity. Qed.
Lemma low_bit i : 0 <= i -> Z.testbit LOW i = (i <? 32).
Proof. intro I. rewrite ones32. destruct (Z.ltb_spec i 32); [apply Z.ones_spec_low; lia|apply Z.ones_spec_high; lia]. Qed.
Lemma not64_bit x i : 0 <= i < 64 -> Z.testbit (not64 x) i = negb (Z.testbit x i).
Proof. intro I. unfold not64. rewrite Z.lxor_spec, ones64, Z.ones_spec_low by lia. apply xorb_true_r. Qed.
Lemma bit1 k i : 0 <= k -> 0 <= i -> Z.testbit (Z.shiftl 1 k) i = (i =? k).
Proof. intros K I. rewrite Z.shiftl_1_l, Z.pow2_bits_eqb by lia. apply Z.eqb_sym. Qed.
Lemma range_bits n v : 0 <= n -> 0 <= v -> (forall i, n <= i -> Z.testbit v i = false) -> v < 2 ^ n.
Proof.
  intros N V H. destruct (Z.lt_ge_cases v (2 ^ n)) as [L|G]; [exact L|exfalso].
  assert (P : 0 < v) by (pose proof (Z.pow_pos_nonneg 2 n ltac:(lia) N); lia).
  assert (n <= Z.log2 v) by (apply Z.log2_le_pow2; lia). pose proof (H (Z.log2 v) ltac:(assumption)). rewrite Z.bit_log2 in *; [discriminate|exact P].
Qed.
Lemma bits_range n v i : 0 <= v < 2 ^ n -> n <= i -> Z.testbit v i = false.
Proof.
  intros (V1 & V2) I. destruct (Z.eq_dec v 0) as [->|NZ]; [apply Z.bits_0|]. apply Z.bits_above_log2; [lia|].
  assert (Z.log2 v < n) by (apply Z.log2_lt_pow2; lia). lia.
Qed.
Lemma not64_range x : sigset x -> sigset (not64 x).
Proof.
  intro X. assert (N : 0 <= not64 x) by (unfold not64; apply Z.lxor_nonneg; unfold sigset in X; split; intro; [vm_compute; discriminate|lia]).
  split; [exact N|]. apply range_bits; [lia|exact N|]. intros i I. unfold not64. rewrite Z.lxor_spec, ones64, (bits_range 64 x i X I), Z.ones_spec_high by lia. reflexivity.
Qed.
Lemma lor_range n a b : 0 <= n -> 0 <= a < 2 ^ n -> 0 <= b < 2 ^ n -> 0 <= Z.lor a b < 2 ^ n.
Proof.
  intros N A B. assert (0 <= Z.lor a b) by (apply Z.lor_nonneg; lia). split; [assumption|]. apply range_bits; auto. intros i I.
  rewrite Z.lor_spec, (bits_range n a i A I), (bits_range n b i B I). reflexivity.
Qed.
Lemma land_range n a b : 0 <= n -> 0 <= a < 2 ^ n -> 0 <= Z.land a b < 2 ^ n.
Proof.
  intros N A. assert (0 <= Z.land a b) by (apply Z.land_nonneg; lia). split; [assumption|]. apply range_bits; auto. intros i I.
  rewrite Z.land_spec, (bits_range n a i A I). reflexivity.
Qed.
Lemma land_low_range x : 0 <= Z.land x LOW < 2 ^ 32.
Proof.
  rewrite Z.land_comm. apply land_range; [lia|]. split; vm_compute; congruence.
Qed.

(* ---- one word ---- *)
Lemma arrive_word w e : 0 <= w < 2 ^ 64 -> let w' := Z.lor w (Z.land e LOW) in
  0 <= w' < 2 ^ 64 /\ Z.shiftr w' 32 = Z.shiftr w 32 /\ (forall i, 0 <= i -> Z.testbit w' i = Z.testbit w i || ((i <? 32) && Z.testbit e i)).
Proof.
  intros W. cbv zeta. assert (B : forall i, 0 <= i -> Z.testbit (Z.lor w (Z.land e LOW)) i = Z.testbit w i || ((i <? 32) && Z.testbit e i)).
  { intros i I. rewrite Z.lor_spec, Z.land_spec, low_bit by exact I. f_equal. apply andb_comm. }
  split; [|split; [|exact B]].
  - apply lor_range; [lia|exact W|]. pose proof (land_low_range e). assert (2 ^ 32 < 2 ^ 64) by reflexivity. lia.
  - apply Z.bits_inj'. intros i I. rewrite !Z.shiftr_spec, B by lia. replace (i + 32 <? 32) with false by lia. apply orb_false_r.
Qed.
Lemma set_word w n : 0 <= w < 2 ^ 64 -> 0 <= n < 2 ^ 32 ->
  let w' := add64 w (sub64 (Z.shiftl n 32) (Z.shiftl (Z.shiftr w 32) 32)) in
  0 <= w' < 2 ^ 64 /\ (forall i, 0 <= i < 32 -> Z.testbit w' i = Z.testbit w i) /\ (forall i, 32 <= i -> Z.testbit w' i = Z.testbit n (i - 32)).
Proof.
  intros W N. cbv zeta. set (w' := add64 _ _). assert (E : w' = Z.lor (Z.land w LOW) (Z.shiftl n 32)).
  { assert (A : Z.lor (Z.land w LOW) (Z.shiftl n 32) = w mod 2 ^ 32 + n * 2 ^ 32).
    { rewrite <- Z.lxor_lor, <- Z.add_nocarry_lxor.
      - rewrite ones32, Z.land_ones, Z.shiftl_mul_pow2 by lia. reflexivity.
      - apply Z.bits_inj'. intros i I. rewrite Z.land_spec, Z.land_spec, low_bit, Z.bits_0 by exact I. destruct (Z.ltb_spec i 32); [rewrite Z.shiftl_spec_low by lia; apply andb_false_r|rewrite andb_false_r; reflexivity].
      - apply Z.bits_inj'. intros i I. rewrite Z.land_spec, Z.land_spec, low_bit, Z.bits_0 by exact I. destruct (Z.ltb_spec i 32); [rewrite Z.shiftl_spec_low by lia; apply andb_false_r|rewrite andb_false_r; reflexivity]. }
    rewrite A. subst w'. unfold add64, sub64. rewrite Z.add_mod_idemp_r by (unfold M64; lia). rewrite !Z.shiftl_mul_pow2, Z.shiftr_div_pow2 by lia.
    pose proof (Z.div_mod w (2 ^ 32) ltac:(lia)). pose proof (Z.mod_pos_bound w (2 ^ 32) ltac:(lia)).
    replace (w + (n * 2 ^ 32 - w / 2 ^ 32 * 2 ^ 32)) with (w mod 2 ^ 32 + n * 2 ^ 32) by lia. apply Z.mod_small.
    unfold M64. change (2 ^ 64) with (2 ^ 32 * 2 ^ 32). nia. }
  rewrite E. split; [|split].
  - apply lor_range; [lia| |].
    + pose proof (land_low_range w). assert (2 ^ 32 < 2 ^ 64) by reflexivity. lia.
    + rewrite Z.shiftl_mul_pow2 by lia. change (2 ^ 64) with (2 ^ 32 * 2 ^ 32). nia.
  - intros i I. rewrite Z.lor_spec, Z.land_spec, low_bit, Z.shiftl_spec_low by lia. replace (i <? 32) with true by lia. rewrite andb_true_r, orb_false_r. reflexivity.
  - intros i I. rewrite Z.lor_spec, Z.land_spec, low_bit, Z.shiftl_spec by lia. replace (i <? 32) with false by lia. rewrite andb_false_r. reflexivity.
Qed.

(* ---- the two words ---- *)
Definition allow (s : words) : Z := Z.lor (Z.shiftr (w0 s) 32) (Z.shiftl (Z.shiftr (w1 s) 32) 32).
Lemma hi_range w : 0 <= w < 2 ^ 64 -> 0 <= Z.shiftr w 32 < 2 ^ 32.
Proof.
  intro W. rewrite Z.shiftr_div_pow2 by lia. split; [apply Z.div_pos; lia|]. apply Z.div_lt_upper_bound; [lia|]. change (2 ^ 32 * 2 ^ 32) with (2 ^ 64). lia.
Qed.
Lemma allow_low s : good s -> Z.land (allow s) LOW = Z.shiftr (w0 s) 32.
Proof.
  intros (A & B). apply Z.bits_inj'. intros i I. unfold allow. rewrite Z.land_spec, Z.lor_spec, low_bit by exact I.
  destruct (Z.ltb_spec i 32); [rewrite Z.shiftl_spec_low, orb_false_r, andb_true_r by lia; reflexivity|].
  rewrite andb_false_r. symmetry. apply (bits_range 32); [apply hi_range; exact A|lia].
Qed.
Lemma allow_high s : good s -> Z.shiftr (allow s) 32 = Z.shiftr (w1 s) 32.
Proof.
  intros (A & B). apply Z.bits_inj'. intros i I. unfold allow. rewrite Z.shiftr_spec, Z.lor_spec, Z.shiftl_spec by lia.
  rewrite (bits_range 32 (Z.shiftr (w0 s) 32)) by (try apply hi_range; auto; lia). replace (i + 32 - 32) with i by lia. reflexivity.
Qed.
Lemma allow_range s : good s -> sigset (allow s).
Proof.
  intros (A & B). unfold allow. apply lor_range; [lia| |].
  - pose proof (hi_range _ A). assert (2 ^ 32 < 2 ^ 64) by reflexivity. lia.
  - pose proof (hi_range _ B). rewrite (Z.shiftl_mul_pow2 _ 32) by lia. change (2 ^ 64) with (2 ^ 32 * 2 ^ 32). nia.
Qed.
Lemma allow_member s n : good s -> signal n -> member (allow s) n = negb (blocked s n).
Proof.
  intros (A & B) N. unfold signal in N. unfold member, blocked, allow. rewrite negb_involutive, Z.lor_spec. destruct (Z.leb_spec n 32).
  - rewrite Z.shiftl_spec_low, orb_false_r, Z.shiftr_spec by lia. f_equal. lia.
  - rewrite (bits_range 32 (Z.shiftr (w0 s) 32)) by (try apply hi_range; auto; lia). rewrite Z.shiftl_spec, Z.shiftr_spec by lia. cbn [orb]. f_equal. lia.
Qed.
Lemma arrive_ok e s : good s -> good (arrive e s) /\ allow (arrive e s) = allow s /\ (forall n, signal n -> blocked (arrive e s) n = blocked s n /\ pending (arrive e s) n = pending s n || arrives e n).
Proof.
  intros (A & B). destruct (arrive_word (w0 s) (fst e) A) as (A1 & A2 & A3). destruct (arrive_word (w1 s) (snd e) B) as (B1 & B2 & B3).
  split; [split; assumption|]. split; [unfold allow, arrive; cbn [w0 w1]; rewrite A2, B2; reflexivity|].
  intros n N. unfold signal in N. unfold blocked, pending, arrives, arrive. cbn [w0 w1]. destruct (Z.leb_spec n 32).
  - rewrite !A3 by lia. replace (n + 31 <? 32) with false by lia. replace (n - 1 <? 32) with true by lia. cbn [andb]. rewrite orb_false_r. auto.
  - rewrite !B3 by lia. replace (n - 1 <? 32) with false by lia. replace (n - 33 <? 32) with true by lia. cbn [andb]. rewrite orb_false_r. auto.
Qed.

Lemma get_ok e0 e1 s : good s -> get_allowset_raw e0 e1 s = (allow s, arrive e1 (arrive e0 s)).
Proof.
  intro G. unfold get_allowset_raw. f_equal. unfold allow. destruct G as (A & B).
  assert (Q0 : Z.shiftr (w0 (arrive e0 s)) 32 = Z.shiftr (w0 s) 32) by (apply (arrive_word (w0 s) (fst e0)); exact A).
  assert (Q1 : Z.shiftr (w1 (arrive e1 (arrive e0 s))) 32 = Z.shiftr (w1 s) 32).
  { unfold arrive at 1. cbn [w1]. destruct (arrive_word (w1 s) (snd e0) B) as (B1 & B2 & _). destruct (arrive_word (w1 (arrive e0 s)) (snd e1) B1) as (_ & B3 & _). rewrite B3. exact B2. }
  rewrite Q0, Q1. reflexivity.
Qed.

Lemma always_bit n : signal n -> member ALLOWSET_ALWAYS n = unblockable n.
Proof. intro N. unfold signal in N. unfold member, ALLOWSET_ALWAYS, sig_bit, unblockable. rewrite Z.lor_spec, !bit1 by lia. destruct (Z.eqb_spec n 9), (Z.eqb_spec n 19); subst; try reflexivity; lia. Qed.
Lemma always_range : sigset ALLOWSET_ALWAYS. Proof. split; vm_compute; congruence. Qed.

Lemma set_ok e0 e1 s new : good s -> sigset new ->
  let r := set_allowset_raw e0 e1 s (allow s) new in
  good (snd r) /\
  forall n, signal n ->
    blocked (snd r) n = negb (member new n || unblockable n) /\
    pending (snd r) n = pending s n || arrives e0 n || arrives e1 n /\
    member (fst r) n = pending s n || arrives e0 n || ((32 <? n) && arrives e1 n).
Proof.
  intros G N. unfold set_allowset_raw. set (nw := Z.lor new ALLOWSET_ALWAYS). cbv zeta. rewrite allow_low, allow_high by exact G.
  assert (NW : sigset nw) by (apply lor_range; [lia|exact N|exact always_range]).
  pose proof G as (A & B).
  destruct (arrive_word (w0 s) (fst e0) A) as (A1 & A2 & A3). destruct (arrive_word (w1 s) (snd e0) B) as (B1 & B2 & B3).
  change (w0 (arrive e0 s)) with (Z.lor (w0 s) (Z.land (fst e0) LOW)). change (w1 (arrive e0 s)) with (Z.lor (w1 s) (Z.land (snd e0) LOW)).
  set (x0 := Z.lor (w0 s) (Z.land (fst e0) LOW)) in *. set (y0 := Z.lor (w1 s) (Z.land (snd e0) LOW)) in *.
  rewrite <- A2. destruct (set_word x0 (Z.land nw LOW) A1 (land_low_range nw)) as (C1 & C2 & C3).
  set (x1 := add64 x0 _) in *. unfold arrive. cbn [w0 w1 fst snd].
  destruct (arrive_word x1 (fst e1) C1) as (D1 & _ & D3). destruct (arrive_word y0 (snd e1) B1) as (E1 & E2 & E3).
  set (x2 := Z.lor x1 _) in *. set (y1 := Z.lor y0 _) in *. rewrite <- B2, <- E2.
  destruct (set_word y1 (Z.shiftr nw 32) E1) as (F1 & F2 & F3); [apply hi_range; exact NW|]. set (y2 := add64 y1 _) in *.
  split; [split; assumption|]. intros n NN. pose proof NN as NN'. unfold signal in NN'.
  assert (NB : member nw n = member new n || unblockable n) by (unfold nw, member; rewrite Z.lor_spec; fold (member ALLOWSET_ALWAYS n); rewrite always_bit by exact NN; reflexivity).
  unfold blocked, pending, arrives, member at 2. cbn [w0 w1]. rewrite Z.lor_spec. destruct (Z.leb_spec n 32).
  - split; [|split].
    + rewrite D3, C3 by lia. replace (n + 31 <? 32) with false by lia. cbn [andb]. rewrite orb_false_r, Z.land_spec, low_bit by lia.
      replace (n + 31 - 32) with (n - 1) by lia. replace (n - 1 <? 32) with true by lia. rewrite andb_true_r. fold (member nw n). rewrite NB. reflexivity.
    + rewrite D3, C2, A3 by lia. replace (n - 1 <? 32) with true by lia. cbn [andb]. reflexivity.
    + rewrite Z.land_spec, low_bit, Z.shiftl_spec_low, A3 by lia. replace (n - 1 <? 32) with true by lia. replace (32 <? n) with false by lia. cbn [andb]. rewrite andb_true_r, !orb_false_r. reflexivity.
  - split; [|split].
    + rewrite F3, Z.shiftr_spec by lia. replace (n - 1 - 32 + 32) with (n - 1) by lia. fold (member nw n). rewrite NB. reflexivity.
    + rewrite F2, E3, B3 by lia. replace (n - 33 <? 32) with true by lia. cbn [andb]. reflexivity.
    + rewrite Z.land_spec, low_bit, Z.shiftl_spec, Z.land_spec, low_bit by lia. replace (n - 1 <? 32) with false by lia. replace (n - 1 - 32) with (n - 33) by lia.
      replace (n - 33 <? 32) with true by lia. rewrite andb_false_r, andb_true_r, E3, B3 by lia. replace (n - 33 <? 32) with true by lia. replace (32 <? n) with true by lia. reflexivity.
Qed.

(* ---- sigprocmask ---- *)
Lemma member_land a b n : member (Z.land a b) n = member a n && member b n. Proof. apply Z.land_spec. Qed.
Lemma member_lor a b n : member (Z.lor a b) n = member a n || member b n. Proof. apply Z.lor_spec. Qed.
Lemma land_bit a b : sigset b -> Z.land a b <> 0 -> exists n, signal n /\ member a n = true /\ member b n = true.
Proof.
  intros B NZ. set (v := Z.land a b) in *. assert (V : 0 <= v) by (unfold v; apply Z.land_nonneg; right; apply B).
  pose proof (Z.bit_log2 v ltac:(lia)) as X. pose proof (Z.log2_nonneg v). exists (Z.log2 v + 1). unfold member. replace (Z.log2 v + 1 - 1) with (Z.log2 v) by lia.
  unfold v in X at 1. rewrite Z.land_spec in X. apply andb_true_iff in X. destruct X as (X & Y). split; [|split; assumption].
  unfold signal. destruct (Z.lt_ge_cases (Z.log2 v) 64); [lia|]. rewrite (bits_range 64 b _ B) in Y by lia. discriminate.
Qed.
Lemma member_not a n : signal n -> member (not64 a) n = negb (member a n). Proof. intro N. apply not64_bit. unfold signal in N. lia. Qed.
Lemma modify_ok env pp op s : good s -> (forall v, sigset v -> sigset (op v)) ->
  exists old s' t, modify_sigmask env pp (Some op) s = (old, s', t) /\ good s' /\ sigset old /\ old = not64 (allow s) /\
  (t = true -> exists n, signal n /\ member (op old) n = false /\ (pending s' n = true \/ member pp n = true)) /\
  (forall n, signal n -> member (op old) n = false -> pending s n = true \/ member pp n = true -> t = true) /\
  forall n, signal n ->
    member old n = blocked s n /\ blocked s' n = member (op old) n && negb (unblockable n) /\
    pending s' n = pending s n || arrives_in env 0 4 n.
Proof.
  intros G OP. unfold modify_sigmask. rewrite get_ok by exact G.
  destruct (arrive_ok (env 0%nat) s G) as (G1 & A1 & P1). destruct (arrive_ok (env 1%nat) _ G1) as (G2 & A2 & P2).
  set (s2 := arrive (env 1%nat) (arrive (env 0%nat) s)) in *. assert (AL : allow s = allow s2) by congruence.
  assert (SO : sigset (not64 (allow s))) by (apply not64_range, allow_range; exact G).
  assert (SN : sigset (not64 (op (not64 (allow s))))) by (apply not64_range, OP, SO).
  destruct (set_ok (env 2%nat) (env 3%nat) s2 (not64 (op (not64 (allow s)))) G2 SN) as (GR & R).
  rewrite <- AL in GR, R. destruct (set_allowset_raw (env 2%nat) (env 3%nat) s2 (allow s) (not64 (op (not64 (allow s))))) as (tp, s') eqn:E. cbn [fst snd] in *.
  eexists. eexists. eexists. split; [reflexivity|]. split; [exact GR|]. split; [exact SO|]. split; [reflexivity|].
  set (nx := not64 (op (not64 (allow s)))) in *. assert (NX : forall n, signal n -> member nx n = negb (member (op (not64 (allow s))) n)) by (intros n N; apply member_not; exact N).
  split; [|split].
  - destruct (Z.eqb_spec (Z.land (Z.lor tp pp) nx) 0) as [Q|Q]; cbn [negb]; [discriminate|]. intros _.
    destruct (land_bit (Z.lor tp pp) nx SN Q) as (n & N & X & Y). exists n. split; [exact N|]. rewrite NX in Y by exact N. split; [destruct (member (op (not64 (allow s))) n); [discriminate|reflexivity]|].
    rewrite member_lor in X. destruct (R n N) as (_ & R2 & R3). rewrite R2. rewrite R3 in X. destruct (member pp n); [right; reflexivity|left]. rewrite orb_false_r in X.
    destruct (pending s2 n || arrives (env 2%nat) n); [reflexivity|]. destruct (arrives (env 3%nat) n); [reflexivity|]. rewrite andb_false_r in X. discriminate.
  - intros n N X Y. destruct (Z.eqb_spec (Z.land (Z.lor tp pp) nx) 0) as [Q|Q]; [exfalso|reflexivity].
    assert (B : member (Z.land (Z.lor tp pp) nx) n = true).
    { rewrite member_land, member_lor, NX, X by exact N. destruct (R n N) as (_ & _ & R3). destruct (P1 n N) as (B1 & Q1). destruct (P2 n N) as (B2 & Q2). rewrite R3, Q2, Q1. destruct Y as [-> | ->]; [reflexivity|rewrite orb_true_r; reflexivity]. }
    rewrite Q in B. unfold member in B. rewrite Z.bits_0 in B. discriminate.
  - intros n N. destruct (R n N) as (R1 & R2 & _). destruct (P1 n N) as (B1 & Q1). destruct (P2 n N) as (B2 & Q2). split; [|split].
    + rewrite member_not, allow_member by assumption. apply negb_involutive.
    + rewrite R1, NX by exact N. rewrite negb_orb, negb_involutive. reflexivity.
    + rewrite R2. rewrite Q2, Q1. cbn [arrives_in]. rewrite orb_false_r, !orb_assoc. reflexivity.
Qed.

Lemma rlct_bit n : signal n -> member (not64 RLCT_SIGNAL_MASK) n = negb (reserved n).
Proof.
  intro N. unfold signal in N. unfold member. rewrite not64_bit by lia. f_equal. unfold RLCT_SIGNAL_MASK, reserved. rewrite Z.lor_spec, !bit1 by lia.
  destruct (Z.eqb_spec n 33), (Z.eqb_spec n 34); subst; try reflexivity; lia.
Qed.

Lemma sigprocmask_set env pp how set s : good s -> sigset set -> how = SIG_BLOCK \/ how = SIG_UNBLOCK \/ how = SIG_SETMASK ->
  exists old s' t, sigprocmask env pp how (Some set) s = Some (old, s', t) /\ good s' /\
  (t = true -> exists n, signal n /\ (blocked s' n = false /\ (pending s' n = true \/ member pp n = true))) /\
  (forall n, signal n -> unblockable n = false -> blocked s' n = false -> pending s n = true \/ member pp n = true -> t = true) /\
  forall n, signal n ->
    member old n = blocked s n && negb (reserved n) /\ blocked s' n = new_mask how (member set) (blocked s) n /\
    pending s' n = pending s n || arrives_in env 0 4 n.
Proof.
  intros G S HOW. unfold sigprocmask, sys_sigprocmask. set (v := Z.land set (not64 RLCT_SIGNAL_MASK)).
  assert (V : sigset v) by (apply land_range; [lia|exact S]).
  assert (VB : forall n, signal n -> member v n = member set n && negb (reserved n)) by (intros n N; unfold v; rewrite member_land, rlct_bit by exact N; reflexivity).
  assert (MB : forall n, new_mask how (member set) (blocked s) n = (if how =? SIG_BLOCK then blocked s n || (member set n && negb (reserved n))
      else if how =? SIG_UNBLOCK then blocked s n && negb (member set n && negb (reserved n)) else member set n && negb (reserved n)) && negb (unblockable n)).
  { intro n. unfold new_mask. destruct (unblockable n); [rewrite andb_false_r; reflexivity|rewrite andb_true_r; reflexivity]. }
  assert (FIN : forall op, (forall x, sigset x -> sigset (op x)) ->
     (forall old n, signal n -> member old n = blocked s n -> member (op old) n = (if how =? SIG_BLOCK then blocked s n || (member set n && negb (reserved n))
      else if how =? SIG_UNBLOCK then blocked s n && negb (member set n && negb (reserved n)) else member set n && negb (reserved n))) ->
     exists old s' t, match Some (modify_sigmask env pp (Some op) s) with None => None | Some (old, s0, t) => Some (Z.land old (not64 RLCT_SIGNAL_MASK), s0, t) end = Some (old, s', t) /\ good s' /\
     (t = true -> exists n, signal n /\ (blocked s' n = false /\ (pending s' n = true \/ member pp n = true))) /\
     (forall n, signal n -> unblockable n = false -> blocked s' n = false -> pending s n = true \/ member pp n = true -> t = true) /\
     forall n, signal n -> member old n = blocked s n && negb (reserved n) /\ blocked s' n = new_mask how (member set) (blocked s) n /\ pending s' n = pending s n || arrives_in env 0 4 n).
  { intros op O1 O2. destruct (modify_ok env pp op s G O1) as (old & s' & t & E & G' & SO & _ & T1 & T2 & R). rewrite E. do 3 eexists. split; [reflexivity|]. split; [exact G'|].
    split; [intro T; destruct (T1 T) as (n & N & X & Y); exists n; split; [exact N|]; split; [|exact Y]; destruct (R n N) as (_ & R2 & _); rewrite R2, X; reflexivity|].
    split; [intros n N U X Y; apply (T2 n N); [|exact Y]; destruct (R n N) as (_ & R2 & _); rewrite R2, U, andb_true_r in X; exact X|].
    intros n N. destruct (R n N) as (R1 & R2 & R3). split; [rewrite member_land, rlct_bit, R1 by exact N; reflexivity|]. split; [|exact R3].
    rewrite R2, MB, (O2 old n N R1). reflexivity. }
  destruct HOW as [->|[->| ->]]; cbn [Z.eqb Pos.eqb SIG_BLOCK SIG_UNBLOCK SIG_SETMASK].
  - apply FIN; [intros x X; apply lor_range; [lia|exact X|exact V]|]. intros old n N R. rewrite member_lor, R, VB by exact N. reflexivity.
  - apply FIN; [intros x X; apply land_range; [lia|exact X]|]. intros old n N R. rewrite member_land, R, member_not, VB by exact N. reflexivity.
  - apply FIN; [intros x X; exact V|]. intros old n N R. apply VB; exact N.
Qed.
Lemma sigprocmask_get env pp how s : good s ->
  exists old s', sigprocmask env pp how None s = Some (old, s', false) /\ good s' /\
  forall n, signal n -> member old n = blocked s n && negb (reserved n) /\ blocked s' n = blocked s n /\ pending s' n = pending s n || arrives_in env 0 2 n.
Proof.
  intro G. unfold sigprocmask, sys_sigprocmask, get_sigmask, modify_sigmask. rewrite get_ok by exact G.
  destruct (arrive_ok (env 0%nat) s G) as (G1 & A1 & P1). destruct (arrive_ok (env 1%nat) _ G1) as (G2 & A2 & P2).
  do 2 eexists. split; [reflexivity|]. split; [exact G2|]. intros n N. destruct (P1 n N) as (B1 & Q1). destruct (P2 n N) as (B2 & Q2).
  split; [|split; [congruence|rewrite Q2, Q1; cbn [arrives_in]; rewrite orb_false_r, orb_assoc; reflexivity]].
  rewrite member_land, rlct_bit, member_not, allow_member, negb_involutive by assumption. reflexivity.
Qed.

(* ---- waiting ---- *)
Lemma allow_eq s v : good s -> sigset v -> (forall n, signal n -> blocked s n = negb (member v n)) -> allow s = v.
Proof.
  intros G V H. apply Z.bits_inj'. intros i I. destruct (Z.lt_ge_cases i 64).
  - pose proof (H (i + 1) ltac:(unfold signal; lia)) as E. pose proof (allow_member s (i + 1) G ltac:(unfold signal; lia)) as F. unfold member in *.
    replace (i + 1 - 1) with i in * by lia. rewrite F, E. apply negb_involutive.
  - rewrite (bits_range 64 (allow s) i (allow_range s G)), (bits_range 64 v i V) by lia. reflexivity.
Qed.
Lemma suspend_ok env sleep mask s : good s -> sigset mask -> keeps_mask sleep -> (forall n, unblockable n = true -> blocked s n = false) ->
  (forall n, unblockable n = true -> member mask n = false) ->
  let s' := sigsuspend env sleep mask s in good s' /\ forall n, signal n -> blocked s' n = blocked s n.
Proof.
  intros G M K U UM. unfold sigsuspend, await_signal_async. rewrite get_ok by exact G.
  destruct (arrive_ok (env 0%nat) s G) as (G1 & A1 & P1). destruct (arrive_ok (env 1%nat) _ G1) as (G2 & A2 & P2).
  set (s2 := arrive (env 1%nat) (arrive (env 0%nat) s)) in *. assert (AL : allow s = allow s2) by congruence.
  destruct (set_ok (env 2%nat) (env 3%nat) s2 (not64 mask) G2 (not64_range _ M)) as (GR & R). rewrite <- AL in GR, R.
  destruct (set_allowset_raw (env 2%nat) (env 3%nat) s2 (allow s) (not64 mask)) as (tp, s3). cbn [fst snd] in *.
  destruct (K s3 GR) as (G4 & K4).
  assert (A4 : allow (sleep s3) = not64 mask).
  { apply allow_eq; [exact G4|apply not64_range; exact M|]. intros n N. rewrite K4 by exact N. destruct (R n N) as (-> & _). f_equal.
    rewrite member_not by exact N. destruct (unblockable n) eqn:E; [rewrite (UM n E); reflexivity|apply orb_false_r]. }
  pose proof (set_ok (env 4%nat) (env 5%nat) (sleep s3) (allow s) G4 (allow_range s G)) as (G5 & R5). rewrite A4 in G5, R5. split; [exact G5|].
  intros n N. destruct (R5 n N) as (-> & _). rewrite allow_member by assumption. rewrite negb_orb, negb_involutive. destruct (unblockable n) eqn:E; [rewrite (U n E); reflexivity|apply andb_true_r].
Qed.
Lemma timedwait_ok env now claim sleep set s : good s -> sigset set -> keeps_mask sleep -> keeps_mask claim -> (forall n, unblockable n = true -> blocked s n = false) ->
  (forall n, unblockable n = true -> member set n = true) ->
  let s' := sigtimedwait env now claim sleep set s in good s' /\ forall n, signal n -> blocked s' n = blocked s n.
Proof.
  intros G M K KC U UM. unfold sigtimedwait, await_signal_sync. rewrite get_ok by exact G.
  destruct (arrive_ok (env 0%nat) s G) as (G1 & A1 & P1). destruct (arrive_ok (env 1%nat) _ G1) as (G2 & A2 & P2).
  set (s2 := arrive (env 1%nat) (arrive (env 0%nat) s)) in *. assert (AL : allow s = allow s2) by congruence.
  destruct (set_ok (env 2%nat) (env 3%nat) s2 set G2 M) as (GR & R). rewrite <- AL in GR, R.
  destruct (set_allowset_raw (env 2%nat) (env 3%nat) s2 (allow s) set) as (tp, s3). cbn [fst snd] in *.
  assert (FIN : forall f, keeps_mask f -> let s' := snd (set_allowset_raw (env 4%nat) (env 5%nat) (f s3) set (allow s)) in good s' /\ forall n, signal n -> blocked s' n = blocked s n).
  { intros f F. destruct (F s3 GR) as (G4 & K4).
    assert (A4 : allow (f s3) = set).
    { apply allow_eq; [exact G4|exact M|]. intros n N. rewrite K4 by exact N. destruct (R n N) as (-> & _). f_equal.
      destruct (unblockable n) eqn:E; [rewrite (UM n E); reflexivity|apply orb_false_r]. }
    pose proof (set_ok (env 4%nat) (env 5%nat) (f s3) (allow s) G4 (allow_range s G)) as (G5 & R5). rewrite A4 in G5, R5. split; [exact G5|].
    intros n N. destruct (R5 n N) as (-> & _). rewrite allow_member by assumption. rewrite negb_orb, negb_involutive. destruct (unblockable n) eqn:E; [rewrite (U n E); reflexivity|apply andb_true_r]. }
  destruct now; [apply FIN; exact KC|]. destruct (FIN sleep K) as (G6 & R6). destruct (KC _ G6) as (G7 & R7). split; [exact G7|]. intros n N. rewrite R7 by exact N. apply R6; exact N.
Qed.

(* ---- handlers ---- *)
Lemma sigbit_member sig n : signal sig -> signal n -> member (sig_bit sig) n = (n =? sig).
Proof. intros S N. unfold signal in *. unfold member, sig_bit. rewrite bit1 by lia. destruct (Z.eqb_spec (n - 1) (sig - 1)), (Z.eqb_spec n sig); try reflexivity; lia. Qed.
Lemma deliver_ok env sig sa_mask nodefer run s : good s -> signal sig -> sigset sa_mask -> (forall x u, good x -> good (fst (run x u)) /\ sigset (snd (run x u))) ->
  exists s1 uc s', deliver env sig sa_mask nodefer run s = (s1, uc, s') /\ good s' /\ good s1 /\
  forall n, signal n ->
    blocked s1 n = (blocked s n || member sa_mask n || (negb nodefer && (n =? sig))) && negb (unblockable n) /\
    pending s1 n = pending s n || arrives_in env 0 4 n /\
    member uc n = negb (blocked s n) /\
    blocked s' n = negb (member (snd (run s1 uc)) n || unblockable n) /\
    pending s' n = pending (fst (run s1 uc)) n || arrives_in env 4 4 n.
Proof.
  intros G SG M RUN. unfold deliver. rewrite get_ok by exact G.
  destruct (arrive_ok (env 0%nat) s G) as (G1 & A1 & P1). destruct (arrive_ok (env 1%nat) _ G1) as (G2 & A2 & P2).
  set (s2 := arrive (env 1%nat) (arrive (env 0%nat) s)) in *. assert (AL : allow s = allow s2) by congruence.
  set (inside := Z.land (not64 sa_mask) (allow s)). set (ins := if nodefer then inside else _).
  assert (SI : sigset ins) by (assert (sigset inside) by (apply land_range; [lia|apply not64_range; exact M]); unfold ins; destruct nodefer; [assumption|apply land_range; [lia|assumption]]).
  destruct (set_ok (env 2%nat) (env 3%nat) s2 ins G2 SI) as (GR & R). rewrite <- AL in GR, R.
  destruct (set_allowset_raw (env 2%nat) (env 3%nat) s2 (allow s) ins) as (tp, s3). cbn [fst snd] in *.
  destruct (RUN s3 (allow s) GR) as (G4 & S4). destruct (run s3 (allow s)) as (s4, nm) eqn:ER. cbn [fst snd] in *.
  rewrite get_ok by exact G4. destruct (arrive_ok (env 4%nat) s4 G4) as (G5 & A5 & P5). destruct (arrive_ok (env 5%nat) _ G5) as (G6 & A6 & P6).
  set (s6 := arrive (env 5%nat) (arrive (env 4%nat) s4)) in *. assert (AL6 : allow s4 = allow s6) by congruence.
  destruct (set_ok (env 6%nat) (env 7%nat) s6 nm G6 S4) as (G7 & R7). rewrite <- AL6 in G7, R7.
  do 3 eexists. split; [reflexivity|]. split; [exact G7|]. split; [exact GR|]. intros n N. destruct (R n N) as (Q1 & Q2 & _). destruct (R7 n N) as (T1 & T2 & _).
  destruct (P1 n N) as (B1 & C1). destruct (P2 n N) as (B2 & C2). destruct (P5 n N) as (B5 & C5). destruct (P6 n N) as (B6 & C6).
  rewrite ER. cbn [fst snd]. split; [|split; [|split; [apply allow_member; assumption|split; [exact T1|]]]].
  - rewrite Q1, negb_orb. f_equal. assert (IN : member inside n = negb (member sa_mask n) && negb (blocked s n)) by (unfold inside; rewrite member_land, member_not, allow_member by assumption; reflexivity).
    unfold ins. destruct nodefer; cbn [negb andb].
    + rewrite IN, negb_andb, !negb_involutive, orb_false_r. apply orb_comm.
    + rewrite member_land, IN, member_not, !negb_andb, !negb_involutive by exact N. f_equal; [apply orb_comm|].
      apply sigbit_member; assumption.
  - rewrite Q2. rewrite C2, C1. cbn [arrives_in]. rewrite orb_false_r, !orb_assoc. reflexivity.
  - rewrite T2. rewrite C6, C5. cbn [arrives_in]. rewrite orb_false_r, !orb_assoc. reflexivity.
Qed.

(* ---- sigpending ---- *)
Lemma pending_ok env pp s : good s -> sigset pp ->
  exists set s', currently_pending_blocked env pp s = (set, s') /\ good s' /\
  forall n, signal n -> blocked s' n = blocked s n /\ pending s' n = pending s n || arrives_in env 0 2 n /\
    member set n = blocked s n && (pending s n || arrives (env 0%nat) n || ((32 <? n) && arrives (env 1%nat) n) || member pp n).
Proof.
  intros G PP. unfold currently_pending_blocked.
  destruct (arrive_ok (env 0%nat) s G) as (G1 & A1 & P1). destruct (arrive_ok (env 1%nat) _ G1) as (G2 & A2 & P2).
  set (s1 := arrive (env 0%nat) s) in *. set (s2 := arrive (env 1%nat) s1) in *.
  assert (AL : Z.lor (Z.shiftr (w0 s1) 32) (Z.shiftl (Z.shiftr (w1 s2) 32) 32) = allow s).
  { pose proof (get_ok (env 0%nat) (env 1%nat) s G) as X. unfold get_allowset_raw in X. fold s1 in X. fold s2 in X. inversion X. reflexivity. }
  do 2 eexists. split; [reflexivity|]. split; [exact G2|]. intros n N. destruct (P1 n N) as (B1 & C1). destruct (P2 n N) as (B2 & C2).
  split; [congruence|]. split; [rewrite C2, C1; cbn [arrives_in]; rewrite orb_false_r, orb_assoc; reflexivity|].
  rewrite AL, member_land, member_lor, member_not, allow_member, negb_involutive by assumption. rewrite andb_comm. f_equal. f_equal.
  pose proof N as N'. unfold signal in N'. rewrite member_lor. unfold member. rewrite Z.land_spec, low_bit by lia. destruct (Z.leb_spec n 32) as [L|L].
  - rewrite Z.shiftl_spec_low, orb_false_r by lia. replace (n - 1 <? 32) with true by lia. replace (32 <? n) with false by lia. rewrite andb_true_r. cbn [andb]. rewrite orb_false_r.
    unfold pending in C1. unfold arrives in *. destruct (Z.leb_spec n 32) as [H|H]; [|exfalso; clear - H L; lia]. unfold pending. destruct (Z.leb_spec n 32) as [H'|H']; [exact C1|exfalso; clear - H' L; lia].
  - rewrite Z.shiftl_spec, Z.land_spec, low_bit by lia. replace (n - 1 <? 32) with false by lia. replace (n - 1 - 32) with (n - 33) by lia. replace (n - 33 <? 32) with true by lia.
    replace (32 <? n) with true by lia. rewrite andb_false_r, andb_true_r. cbn [orb andb]. rewrite <- C1, <- C2. unfold pending. destruct (Z.leb_spec n 32) as [H|H]; [exfalso; clear - H L; lia|reflexivity].
Qed.

(* ---- the set functions ---- *)
Lemma set_functions set n : sigset set ->
  (signal n -> (exists v, sigaddset set n = (v, 0) /\ sigset v /\ forall k, signal k -> member v k = member set k || (k =? n)) /\
     (exists v, sigdelset set n = (v, 0) /\ sigset v /\ forall k, signal k -> member v k = member set k && negb (k =? n)) /\
     sigismember set n = if member set n then 1 else 0) /\
  (~ signal n -> sigaddset set n = (set, -1) /\ sigdelset set n = (set, -1) /\ sigismember set n = -1).
Proof.
  intro S. unfold sigaddset, sigdelset, sigismember, bad_signo. split.
  - intro N. pose proof N as N'. unfold signal in N'. replace ((n <=? 0) || (64 <? n)) with false by lia. change (Z.shiftl 1 (n - 1)) with (sig_bit n).
    assert (B : sigset (sig_bit n)) by (unfold sigset, sig_bit; rewrite Z.shiftl_1_l; split; [apply Z.pow_nonneg; lia|apply Z.pow_lt_mono_r; lia]).
    split; [|split; [|reflexivity]].
    + eexists. split; [reflexivity|]. split; [apply lor_range; [lia|exact S|exact B]|]. intros k K. rewrite member_lor, sigbit_member by assumption. reflexivity.
    + eexists. split; [reflexivity|]. split; [apply land_range; [lia|exact S]|]. intros k K. rewrite member_land, member_not, sigbit_member by assumption. reflexivity.
  - intro N. unfold signal in N. replace ((n <=? 0) || (64 <? n)) with true by lia. auto.
Qed.
Lemma full_set k : signal k -> member (2 ^ 64 - 1) k = true.
Proof. intro K. unfold signal in K. unfold member. rewrite ones64. apply Z.ones_spec_low. lia. Qed.
