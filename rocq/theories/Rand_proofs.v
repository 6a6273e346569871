From Verif Require Import Base String_proofs Strto_model Strto_proofs2 Word_mem Rand_model Rand_spec.
From Coq Require Import Znumtheory.

(** ** bits *)
Lemma lor_shift x y k : 0 <= k -> 0 <= x < 2 ^ k -> 0 <= y -> Z.lor x (Z.shiftl y k) = x + 2 ^ k * y.
Proof.
  intros Hk Hx Hy.
  assert (E : Z.land x (Z.shiftl y k) = 0).
  { apply Z.bits_inj'. intros j Hj. rewrite Z.land_spec, Z.bits_0, Z.shiftl_spec by lia.
    destruct (Z_lt_dec j k); [rewrite (Z.testbit_neg_r y) by lia; apply andb_false_r|].
    destruct (Z.eq_dec x 0) as [->|]; [rewrite Z.bits_0; reflexivity|].
    rewrite (Z.bits_above_log2 x); [reflexivity|lia|]. assert (Z.log2 x < k) by (apply Z.log2_lt_pow2; lia). lia. }
  rewrite <- (Z.lxor_lor _ _ E), <- (Z.add_nocarry_lxor _ _ E), Z.shiftl_mul_pow2 by lia. lia.
Qed.
Lemma lor_shift' x y k : 0 <= k -> 0 <= x < 2 ^ k -> 0 <= y -> Z.lor (Z.shiftl y k) x = x + 2 ^ k * y.
Proof. intros. rewrite Z.lor_comm. apply lor_shift; assumption. Qed.

Lemma of_arr_val a : arr_ok a -> of_arr a = val3 a.
Proof.
  destruct a as [[x0 x1] x2]. unfold arr_ok, u16, of_arr, val3. change (2 ^ 16) with 65536. change (2 ^ 32) with 4294967296.
  intros [H0 [H1 H2]].
  rewrite (lor_shift x0 x1 16) by (try lia; change (2 ^ 16) with 65536; lia).
  rewrite lor_shift; change (2 ^ 16) with 65536; change (2 ^ 32) with 4294967296; lia.
Qed.
Lemma val3_range a : arr_ok a -> 0 <= val3 a < 2 ^ 48.
Proof.
  destruct a as [[x0 x1] x2]. unfold arr_ok, u16, val3. change (2 ^ 16) with 65536. change (2 ^ 32) with 4294967296.
  change (2 ^ 48) with 281474976710656. lia.
Qed.
Lemma to_arr_eq v : to_arr v = arr3 v.
Proof. unfold to_arr, arr3. rewrite !Z.shiftr_div_pow2 by lia. reflexivity. Qed.

Lemma lcg48_ok a c x : lcg48 a c x = Ok ((a * x + c) mod 2 ^ 48).
Proof.
  unfold lcg48, u48_unwrap. change 281474976710655 with (Z.ones 48). rewrite Z.land_ones by lia.
  assert (E : (((a * x) mod M64 + c) mod M64) mod 2 ^ 48 = (a * x + c) mod 2 ^ 48).
  { rewrite Z.add_mod_idemp_l by (unfold M64; lia).
    symmetry. apply Zmod_div_mod; [lia|unfold M64; lia|]. exists (2 ^ 16). reflexivity. }
  rewrite E. pose proof (Z.mod_pos_bound (a * x + c) (2 ^ 48) ltac:(lia)).
  change M48 with (2 ^ 48). destruct (Z.ltb_spec ((a * x + c) mod 2 ^ 48) (2 ^ 48)); [reflexivity|lia].
Qed.

Lemma get_u31_ok x : get_u31 x = top31 x.
Proof. unfold get_u31. apply Z.shiftr_div_pow2. lia. Qed.
Lemma get_i32_ok x : 0 <= x < 2 ^ 48 -> get_i32 x = top32s x.
Proof.
  intros H. unfold get_i32, top32s. rewrite Z.shiftr_div_pow2 by lia.
  assert (0 <= x / 2 ^ 16 < 2 ^ 32).
  { split; [apply Z.div_pos; lia|]. apply Z.div_lt_upper_bound; [lia|]. exact (proj2 H). }
  set (h := x / 2 ^ 16) in *. clearbody h. unfold to_i32.
  change (2 ^ 31) with 2147483648 in *. change (2 ^ 32) with 4294967296 in *.
  destruct (Z.ltb_spec h 2147483648); lia.
Qed.

Lemma f64_bits_val v : 0 <= v < 2 ^ 48 -> f64_bits v = 4607182418800017408 + 16 * v.
Proof.
  change (2 ^ 48) with 281474976710656. intros H. unfold f64_bits, M64. rewrite Z.shiftl_mul_pow2 by lia. change (2 ^ 4) with 16.
  rewrite Z.mod_small by lia. rewrite Z.lor_comm.
  change 4607182418800017408 with (Z.shiftl 1023 52) at 1. rewrite lor_shift by (change (2 ^ 52) with 4503599627370496; lia).
  change (2 ^ 52 * 1023) with 4607182418800017408. lia.
Qed.

Lemma f64_bits_dbl v : 0 <= v < 2 ^ 48 -> f64_bits v = dbl v.
Proof. intros H. rewrite f64_bits_val by exact H. reflexivity. Qed.

Lemma run48_ok g o : state_ok g -> arg_ok o ->
  run48 g o = Ok (spec48 g o) /\ state_ok (fst (spec48 g o)).
Proof.
  intros Hg Ha. pose proof Hg as [Hx [HA HC]].
  assert (R : forall x, 0 <= next48 g x < 2 ^ 48) by (intros x; apply Z.mod_pos_bound; lia).
  assert (D : forall x, 0 <= x < 2 ^ 48 -> state_ok (defaults x)).
  { intros x X. unfold state_ok, defaults. cbn [gx ga gc]. split; [exact X|]. split; [lia|lia]. }
  destruct o; cbn [run48 spec48 arg_ok] in *; rewrite ?lcg48_ok; cbn [bind];
    rewrite ?to_arr_eq, ?get_u31_ok; rewrite ?of_arr_val by tauto;
    try (rewrite get_i32_ok by (apply Z.mod_pos_bound; lia));
    try (rewrite f64_bits_dbl by (apply Z.mod_pos_bound; lia)).
  all: try (split; [reflexivity|]; cbn [fst]; solve [exact Hg|split; [apply R|split; assumption]|apply D, val3_range; assumption]).
  - assert (0 <= seed mod 2 ^ 32 < 2 ^ 32) by (apply Z.mod_pos_bound; lia).
    change (2 ^ 16) with 65536 in *. change (2 ^ 32) with 4294967296 in *.
    rewrite lor_shift' by (try lia; change (2 ^ 16) with 65536; lia).
    change (2 ^ 16) with 65536. unfold u48_unwrap, M48.
    destruct (Z.ltb_spec (13070 + 65536 * (seed mod 4294967296)) 281474976710656); [|lia]. cbn [bind fst].
    replace (13070 + 65536 * (seed mod 4294967296)) with (65536 * (seed mod 4294967296) + 13070) by lia.
    split; [reflexivity|]. apply D. change (2 ^ 48) with 281474976710656. lia.
  - destruct Ha as [? [? ?]]. rewrite ?of_arr_val by assumption. split; [reflexivity|].
    split; [apply val3_range; assumption|]. split; [apply val3_range; assumption|assumption].
Qed.

Lemma run48s_ok l : forall g, state_ok g -> Forall arg_ok l ->
  run48s g l = Ok (spec48s g l) /\ state_ok (fst (spec48s g l)).
Proof.
  induction l as [|o l IH]; intros g Hg Ha; cbn [run48s spec48s]; [auto|].
  apply Forall_cons_iff in Ha. destruct Ha as [Ho Ha].
  destruct (run48_ok g o Hg Ho) as [E S]. rewrite E. destruct (spec48 g o) as [g1 r]. cbn [bind fst] in *.
  destruct (IH g1 S Ha) as [E' S']. rewrite E'. destruct (spec48s g1 l) as [g2 rs]. cbn [bind fst] in *. auto.
Qed.

(** ** random *)
Definition gen_words (g : gen) : list Z := match g with Lcg x => [x] | Lag _ _ xs => xs end.
Definition gen_ok (size : Z) (g : gen) : Prop :=
  Forall is_u32 (gen_words g) /\ 4 * len (gen_words g) + 4 <= size /\ gen_n g < 256 /\
  match g with Lcg _ => True | Lag i j xs => 7 <= len xs /\ 0 <= i < len xs /\ 0 <= j < len xs end.
Definition regs (s : rstate) (g : gen) : Prop :=
  rn s = gen_n g /\ 0 <= ri s < 256 /\ 0 <= rj s < 256 /\
  match g with Lcg _ => True | Lag i j xs => ri s = i /\ rj s = j end.
Definition stashed (m : mem) (p : Z) (g : gen) : Prop :=
  exists s, regs s g /\ word_at m p (stash s) /\ words_at m (p + 4) (gen_words g).

Record inv (dflt : Z) (bufs : list (Z * Z)) (s : rstate) (m : mem) (w : world) : Prop := {
  i_bufs : buffers_ok dflt bufs m;
  i_ptr : x_ptr s = cur w + 4 \/ x_ptr s = NULL /\ cur w = dflt;
  i_cur : exists g n, tbl w (cur w) = Some g /\ In (cur w, n) bufs /\ regs s g /\ words_at m (cur w + 4) (gen_words g);
  i_tbl : forall p g, tbl w p = Some g -> exists n, In (p, n) bufs /\ gen_ok n g;
  i_stash : forall p g, p <> cur w -> tbl w p = Some g -> stashed m p g }.

Lemma stash_val s g : regs s g -> gen_n g < 256 -> 0 <= gen_n g -> stash s = rj s + 2 ^ 8 * ri s + 2 ^ 16 * rn s.
Proof.
  intros [Hn [Hi [Hj _]]] Hg H0. unfold stash.
  rewrite Z.lor_comm. rewrite (Z.lor_comm (Z.shiftl (rn s) 16)).
  rewrite Z.lor_assoc. change (2 ^ 16) with 65536. change (2 ^ 8) with 256.
  rewrite (lor_shift (rj s) (ri s) 8) by (try lia; change (2 ^ 8) with 256; lia). change (2 ^ 8) with 256.
  rewrite lor_shift; change (2 ^ 16) with 65536; lia.
Qed.
Lemma gen_n_nonneg g : 0 <= gen_n g.
Proof. destruct g; cbn; [lia|apply len_nonneg]. Qed.
Lemma stash_u32 s g : regs s g -> gen_n g < 256 -> is_u32 (stash s).
Proof.
  intros R H. pose proof (gen_n_nonneg g). rewrite (stash_val s g) by auto. destruct R as [Rn [Ri [Rj _]]]. unfold is_u32.
  change (2 ^ 8) with 256. change (2 ^ 16) with 65536. change (2 ^ 32) with 4294967296. lia.
Qed.
Lemma load_ok m p g : stashed m p g -> gen_n g < 256 ->
  exists s, load p m = Ok s /\ regs s g /\ x_ptr s = p + 4.
Proof.
  intros [s [R [W _]]] H. unfold load. pose proof (stash_u32 s g R H) as U.
  rewrite (ld32_ok _ _ _ W U). cbn [bind]. eexists. split; [reflexivity|]. split; [|reflexivity].
  pose proof (gen_n_nonneg g).
  rewrite (stash_val s g) by auto. destruct R as [Rn [Ri [Rj R]]].
  rewrite !Z.shiftr_div_pow2 by lia. change 255 with (Z.ones 8). rewrite !Z.land_ones by lia.
  change (2 ^ 8) with 256. change (2 ^ 16) with 65536.
  assert (E1 : (rj s + 256 * ri s + 65536 * rn s) / 65536 mod 256 = rn s) by lia.
  assert (E2 : (rj s + 256 * ri s + 65536 * rn s) / 256 mod 256 = ri s) by lia.
  assert (E3 : (rj s + 256 * ri s + 65536 * rn s) mod 256 = rj s) by lia.
  unfold regs. cbn [rn ri rj]. rewrite E1, E2, E3. auto.
Qed.

(** An update confined to [p, p+n) *)
Definition only (m m' : mem) (p n : Z) : Prop := forall x, ~ (p <= x < p + n) -> m' x = m x.
Lemma only_trans m m1 m2 p n : only m m1 p n -> only m1 m2 p n -> only m m2 p n.
Proof. intros A B x Hx. rewrite B, A by exact Hx. reflexivity. Qed.
Lemma stored_only m m' a l p n : stored m m' a l -> p <= a -> a + len l <= p + n -> only m m' p n.
Proof. intros [_ S] H1 H2 x Hx. apply S. lia. Qed.
Lemma stashed_only m m' p n q k g : only m m' p n -> disjoint p n q k -> gen_ok k g -> stashed m q g -> stashed m' q g.
Proof.
  intros O D [_ [L _]] [s [R [W1 W2]]]. exists s. split; [exact R|]. pose proof (len_nonneg (gen_words g)). split.
  - eapply bytes_at_ext; [|exact W1]. rewrite le_bytes_len. intros x Hx. apply O. unfold disjoint in D. lia.
  - eapply words_at_ext; [|exact W2]. intros x Hx. apply O. unfold disjoint in D. lia.
Qed.
Lemma mapped_only_st m m' a l p n q k : stored m m' a l -> mapped m p n -> only m m' q k -> mapped m' p n.
Proof. intros S M _. eapply stored_mapped; eauto. Qed.
Lemma buffers_map dflt bufs m m' : buffers_ok dflt bufs m -> (forall p n, In (p, n) bufs -> mapped m' p n) -> buffers_ok dflt bufs m'.
Proof. intros [A B C D E] H. constructor; assumption. Qed.
Definition keeps (m m' : mem) : Prop := forall p n, mapped m p n -> mapped m' p n.
Lemma keeps_stored m m' a l : stored m m' a l -> keeps m m'.
Proof. intros S p n M. eapply stored_mapped; eauto. Qed.
Lemma keeps_trans m m1 m2 : keeps m m1 -> keeps m1 m2 -> keeps m m2.
Proof. intros A B p n M. auto. Qed.
Lemma keeps_buffers dflt bufs m m' : buffers_ok dflt bufs m -> keeps m m' -> buffers_ok dflt bufs m'.
Proof. intros B K. eapply buffers_map; eauto. intros p n I. apply K. eapply b_map; eauto. Qed.

(** ensure *)
Lemma ensure_ok dflt bufs s m w : inv dflt bufs s m w ->
  x_ptr (ensure dflt s) = cur w + 4 /\ rn (ensure dflt s) = rn s /\ ri (ensure dflt s) = ri s /\ rj (ensure dflt s) = rj s.
Proof.
  intros I. unfold ensure. destruct (i_cur _ _ _ _ _ I) as [g [n [_ [In _]]]].
  destruct (b_pos _ _ _ (i_bufs _ _ _ _ _ I) _ _ In) as [P _].
  destruct (Z.eqb_spec (x_ptr s) NULL) as [E|E]; cbn [x_ptr rn ri rj]; destruct (i_ptr _ _ _ _ _ I) as [X|[X Y]]; auto; unfold NULL in *; try lia.
Qed.
Lemma regs_eq s s' g : rn s' = rn s -> ri s' = ri s -> rj s' = rj s -> regs s g -> regs s' g.
Proof. unfold regs. intros -> -> ->. auto. Qed.

(** Writing the current generator state *)
Lemma inv_update dflt bufs s m w m' s' g' n :
  inv dflt bufs s m w -> In (cur w, n) bufs -> only m m' (cur w) n -> keeps m m' ->
  x_ptr s' = cur w + 4 -> regs s' g' -> gen_ok n g' -> words_at m' (cur w + 4) (gen_words g') ->
  inv dflt bufs s' m' {| cur := cur w; tbl := put (tbl w) (cur w) g' |}.
Proof.
  intros I In O K X R G W. pose proof (i_bufs _ _ _ _ _ I) as B. constructor; cbn [cur tbl].
  - eapply keeps_buffers; eauto.
  - left. exact X.
  - exists g', n. unfold put. rewrite Z.eqb_refl. auto.
  - intros p g. unfold put. destruct (Z.eqb_spec p (cur w)) as [->|N].
    + intros [= <-]. eauto.
    + apply (i_tbl _ _ _ _ _ I).
  - intros p g N. unfold put. destruct (Z.eqb_spec p (cur w)) as [->|_]; [contradiction|]. intros T.
    destruct (i_tbl _ _ _ _ _ I p g T) as [k [Ik Gk]].
    apply (stashed_only m m' (cur w) n p k); auto; [|apply (i_stash _ _ _ _ _ I); auto].
    eapply b_disj; eauto.
Qed.

Lemma setZ_set l i v : 0 <= i < len l -> setZ l i v = set_nth (Z.to_nat i) v l.
Proof.
  unfold setZ, len. intros H. assert (Hi : (Z.to_nat i < length l)%nat) by lia. clear H.
  set (k := Z.to_nat i) in *. clearbody k. clear i. revert k Hi. induction l as [|x l IH]; intros k Hk; [cbn in Hk; lia|].
  destruct k as [|k]; cbn [firstn skipn app set_nth]; [reflexivity|]. rewrite <- IH by (cbn in Hk; lia). reflexivity.
Qed.
Lemma nthZ_err l i : 0 <= i < len l -> nth_error l (Z.to_nat i) = Some (nthZ l i).
Proof. unfold nthZ, len. intros H. apply nth_error_nth'. lia. Qed.

Lemma tbl_cur dflt bufs s m w : inv dflt bufs s m w -> exists g n,
  tbl w (cur w) = Some g /\ In (cur w, n) bufs /\ gen_ok n g /\ regs s g /\ words_at m (cur w + 4) (gen_words g).
Proof.
  intros I. destruct (i_cur _ _ _ _ _ I) as [g [n [T [In [R W]]]]]. exists g, n.
  destruct (i_tbl _ _ _ _ _ I _ _ T) as [k [Ik G]].
  rewrite (b_uniq _ _ _ (i_bufs _ _ _ _ _ I) _ _ _ In Ik) in *. auto.
Qed.

Lemma random_ok dflt bufs s m w : inv dflt bufs s m w ->
  exists s' m' w' r, random dflt s m = Ok (s', m', r) /\ world_step w Random = Some (w', r) /\
    inv dflt bufs s' m' w' /\ 0 <= r < 2 ^ 31.
Proof.
  intros I. destruct (tbl_cur _ _ _ _ _ I) as [g [n [T [In [G [R W]]]]]].
  destruct (ensure_ok _ _ _ _ _ I) as [EX [EN [EI EJ]]].
  pose proof (b_map _ _ _ (i_bufs _ _ _ _ _ I) _ _ In) as M.
  unfold random, world_step. rewrite T, EX, EN, EI, EJ.
  pose proof R as [Rn [Ri [Rj Rx]]]. pose proof G as [GU [GL [GN GX]]]. rewrite Rn.
  destruct g as [x|i j xs]; cbn [gen_n gen_words gen_next] in *.
  - change (0 =? 0) with true. cbn match. destruct W as [W _]. apply Forall_cons_iff in GU. destruct GU as [GU _].
    rewrite (ld32_ok _ _ _ W GU). cbn [bind]. change (len [x]) with 1 in GL.
    assert (E : lcg31_step x = (1103515245 * x + 12345) mod 2 ^ 31).
    { unfold lcg31_step. change 2147483647 with (Z.ones 31). rewrite Z.land_ones by lia.
      rewrite Z.add_mod_idemp_l by lia. symmetry. apply Zmod_div_mod; [lia|lia|]. exists 2. reflexivity. }
    rewrite E. set (y := (1103515245 * x + 12345) mod 2 ^ 31).
    assert (Hy : 0 <= y < 2 ^ 31) by (apply Z.mod_pos_bound; lia).
    destruct (st32_ok m (cur w + 4) y) as [m' [E' S]].
    { intros z Hz. apply M. lia. }
    rewrite E'. cbn [bind]. eexists _, m', _, y. split; [reflexivity|]. split; [reflexivity|]. split; [|exact Hy].
    eapply inv_update; eauto.
    + eapply stored_only; [exact S|lia|]. rewrite le_bytes_len. lia.
    + eapply keeps_stored; eauto.
    + eapply regs_eq; [| | |exact R]; auto.
    + split; [|cbn [gen_words gen_n]; auto]. constructor; [|constructor]. unfold is_u32. change (2 ^ 32) with (2 * 2 ^ 31). lia.
    + cbn [gen_words words_at]. split; [apply S|exact Logic.I].
  - destruct GX as [L1 [Hi Hj]]. destruct Rx as [Ri' Rj'].
    destruct (Z.eqb_spec (len xs) 0) as [E0|_]; [lia|].
    pose proof (nthZ_err xs i Hi) as Ni. pose proof (nthZ_err xs j Hj) as Nj.
    assert (Ui : is_u32 (nthZ xs i)) by (rewrite Forall_forall in GU; apply GU; eapply nth_error_In; eauto).
    assert (Uj : is_u32 (nthZ xs j)) by (rewrite Forall_forall in GU; apply GU; eapply nth_error_In; eauto).
    pose proof (words_at_nth _ _ _ _ _ W Ni) as Wi. pose proof (words_at_nth _ _ _ _ _ W Nj) as Wj.
    rewrite Z2Nat.id in Wi, Wj by lia. rewrite Ri', Rj'.
    rewrite (ld32_ok _ _ _ Wi Ui). cbn [bind]. rewrite (ld32_ok _ _ _ Wj Uj). cbn [bind].
    set (y := (nthZ xs i + nthZ xs j) mod 2 ^ 32).
    assert (Hy : 0 <= y < 2 ^ 32) by (apply Z.mod_pos_bound; lia).
    destruct (st32_ok m (cur w + 4 + 4 * i) y) as [m' [E' S]].
    { intros z Hz. apply M. lia. }
    rewrite E'. cbn [bind]. eexists _, m', _, (Z.shiftr y 1). split; [reflexivity|].
    rewrite Z.shiftr_div_pow2 by lia. change (2 ^ 1) with 2. split; [reflexivity|].
    change (2 ^ 32) with 4294967296 in Hy. split; [|change (2 ^ 31) with 2147483648; lia].
    assert (Mi : (i + 1) mod len xs = if i + 1 =? len xs then 0 else i + 1).
    { destruct (Z.eqb_spec (i + 1) (len xs)) as [->|]; [apply Z.mod_same; lia|apply Z.mod_small; lia]. }
    assert (Mj : (j + 1) mod len xs = if j + 1 =? len xs then 0 else j + 1).
    { destruct (Z.eqb_spec (j + 1) (len xs)) as [->|]; [apply Z.mod_same; lia|apply Z.mod_small; lia]. }
    rewrite setZ_set by lia.
    assert (SL : len (set_nth (Z.to_nat i) y xs) = len xs) by (unfold len; rewrite set_nth_length; reflexivity).
    eapply inv_update; eauto.
    + eapply stored_only; [exact S|lia|]. rewrite le_bytes_len. lia.
    + eapply keeps_stored; eauto.
    + rewrite Mi, Mj. unfold regs. cbn [rn ri rj gen_n]. rewrite SL.
      destruct (i + 1 =? len xs), (j + 1 =? len xs); repeat split; lia.
    + unfold gen_ok. cbn [gen_words gen_n]. rewrite SL. repeat split; auto; try (apply Z.mod_pos_bound; lia); try lia.
      apply set_nth_Forall; auto.
    + cbn [gen_words]. eapply words_at_set; [unfold len in Hi; lia|exact W|]. rewrite Z2Nat.id by lia. exact S.
Qed.

(** seeding *)
Lemma lcg64_eq s : lcg64_step s = (6364136223846793005 * s + 1) mod 2 ^ 64.
Proof. unfold lcg64_step. change M64 with (2 ^ 64). rewrite Z.add_mod_idemp_l by lia. reflexivity. Qed.
Lemma lcg64_words_length k : forall s, length (lcg64_words k s) = k.
Proof. induction k as [|k IH]; intros s; cbn; [reflexivity|]. rewrite IH. reflexivity. Qed.
Lemma lcg64_words_u32 k : forall s, Forall is_u32 (lcg64_words k s).
Proof.
  induction k as [|k IH]; intros s; cbn [lcg64_words]; constructor; auto.
  pose proof (Z.mod_pos_bound (6364136223846793005 * s + 1) (2 ^ 64) ltac:(lia)) as H.
  unfold is_u32. split; [apply Z.div_pos; lia|]. apply Z.div_lt_upper_bound; [lia|].
  change (2 ^ 32 * 2 ^ 32) with (2 ^ 64). apply H.
Qed.
Lemma seed_loop_ok k : forall m p s, mapped m p (4 * Z.of_nat k) ->
  exists m', seed_loop k m p s = Ok m' /\ words_at m' p (lcg64_words k s) /\ only m m' p (4 * Z.of_nat k) /\ keeps m m'.
Proof.
  induction k as [|k IH]; intros m p s M; cbn [seed_loop lcg64_words].
  - exists m. split; [reflexivity|]. split; [exact I|]. split; [intros x _; reflexivity|intros ? ?; auto].
  - rewrite lcg64_eq. set (s' := (6364136223846793005 * s + 1) mod 2 ^ 64). rewrite Z.shiftr_div_pow2 by lia.
    destruct (st32_ok m p (s' / 2 ^ 32)) as [m1 [E1 S1]]; [intros x Hx; apply M; lia|]. rewrite E1. cbn [bind].
    destruct (IH m1 (p + 4) s') as [m2 [E2 [W [O K]]]].
    { eapply keeps_stored; [exact S1|]. eapply mapped_sub; [exact M|lia|lia]. }
    exists m2. split; [exact E2|]. split; [|split].
    + cbn [words_at]. split; [|exact W]. eapply bytes_at_ext; [|apply S1]. rewrite le_bytes_len. intros x Hx. apply O. lia.
    + intros x Hx. rewrite O by lia. apply S1. rewrite le_bytes_len. lia.
    + eapply keeps_trans; [eapply keeps_stored; exact S1|exact K].
Qed.

Lemma lor_1 x : 0 <= x -> Z.lor x 1 = if Z.even x then x + 1 else x.
Proof.
  intros H. rewrite Z.lor_comm. destruct x as [|p|p]; try lia; [reflexivity|]. destruct p; reflexivity.
Qed.

Definition nsize_ok (n : Z) : Prop := n = 0 \/ 7 <= n < 256.
Lemma seeded_ok n s size : nsize_ok n -> 4 * n + 4 <= size -> 8 <= size -> 0 <= s < 2 ^ 32 -> gen_ok size (seeded n s) /\ gen_n (seeded n s) = n.
Proof.
  intros Hn Hs H8 Hsd. unfold seeded. destruct (Z.eqb_spec n 0) as [->|N].
  - split; [|reflexivity]. unfold gen_ok. cbn [gen_words gen_n]. change (len [s]) with 1.
    repeat split; try lia. repeat constructor; unfold is_u32; lia.
  - destruct Hn as [?|Hn]; [contradiction|].
    assert (L : len (make_odd (lcg64_words (Z.to_nat n) s)) = n).
    { unfold len. replace (length (make_odd (lcg64_words (Z.to_nat n) s))) with (length (lcg64_words (Z.to_nat n) s)).
      - rewrite lcg64_words_length. lia.
      - destruct (lcg64_words (Z.to_nat n) s); reflexivity. }
    split; [|exact L]. unfold gen_ok. cbn [gen_words gen_n]. rewrite L. repeat split; try lia.
    + pose proof (lcg64_words_u32 (Z.to_nat n) s) as F. destruct (lcg64_words (Z.to_nat n) s) as [|x l]; [constructor|].
      apply Forall_cons_iff in F. destruct F as [Fx F]. constructor; [|exact F]. unfold is_u32 in *.
      destruct (Z.even x) eqn:E; [|exact Fx]. apply Z.even_spec in E. destruct E as [y ->]. change (2 ^ 32) with 4294967296 in *. lia.
    + destruct ((n =? 31) || (n =? 7)); lia.
    + destruct ((n =? 31) || (n =? 7)); lia.
Qed.

Lemma seed_ok dflt s m sd p size : x_ptr s = p + 4 -> 0 < p -> nsize_ok (rn s) -> 4 * rn s + 4 <= size -> 8 <= size ->
  0 <= ri s < 256 -> 0 <= rj s < 256 -> 0 <= sd < 2 ^ 32 -> mapped m p size ->
  exists s' m', seed dflt s m sd = Ok (s', m') /\ x_ptr s' = p + 4 /\ regs s' (seeded (rn s) sd) /\
    words_at m' (p + 4) (gen_words (seeded (rn s) sd)) /\ only m m' p size /\ keeps m m'.
Proof.
  intros X P N L L8 Hi Hj Hs M. unfold seed, ensure. rewrite X.
  destruct (Z.eqb_spec (p + 4) NULL) as [E|_]; [unfold NULL in E; lia|]. rewrite X.
  destruct (seeded_ok (rn s) sd size N L L8 Hs) as [G Gn].
  unfold seeded in *. destruct (Z.eqb_spec (rn s) 0) as [E0|NE].
  - rewrite Z.mod_small by exact Hs. destruct (st32_ok m (p + 4) sd) as [m' [E S]]; [intros x Hx; apply M; lia|].
    rewrite E. cbn [bind]. exists s, m'. split; [reflexivity|]. split; [exact X|]. split; [|split; [|split]].
    + unfold regs. cbn [gen_n]. auto.
    + cbn. split; [apply S|exact I].
    + eapply stored_only; [exact S|lia|rewrite le_bytes_len; lia].
    + eapply keeps_stored; eauto.
  - destruct N as [?|N]; [contradiction|].
    destruct (seed_loop_ok (Z.to_nat (rn s)) m (p + 4) sd) as [m1 [E1 [W1 [O1 K1]]]].
    { rewrite Z2Nat.id by lia. eapply mapped_sub; [exact M|lia|lia]. }
    rewrite Z2Nat.id in O1 by lia. rewrite E1. cbn [bind].
    pose proof (lcg64_words_u32 (Z.to_nat (rn s)) sd) as FU.
    pose proof (lcg64_words_length (Z.to_nat (rn s)) sd) as FL.
    destruct (lcg64_words (Z.to_nat (rn s)) sd) as [|x0 xs]; [cbn in FL; lia|].
    apply Forall_cons_iff in FU. destruct FU as [U0 _]. destruct W1 as [W0 W1].
    rewrite (ld32_ok _ _ _ W0 U0). cbn [bind].
    destruct (st32_ok m1 (p + 4) (Z.lor x0 1)) as [m2 [E2 S2]].
    { apply K1. eapply mapped_sub; [exact M|lia|lia]. }
    rewrite E2. cbn [bind]. eexists _, m2. split; [reflexivity|]. cbn [x_ptr]. split; [reflexivity|].
    rewrite lor_1 in S2 by (unfold is_u32 in U0; lia).
    split; [|split; [|split]].
    + unfold regs. cbn [rn ri rj]. rewrite Gn. destruct ((rn s =? 31) || (rn s =? 7)); repeat split; lia.
    + cbn [gen_words make_odd words_at]. split; [apply S2|]. eapply words_at_ext; [|exact W1].
      intros x Hx. apply S2. rewrite le_bytes_len. lia.
    + eapply only_trans.
      * intros x Hx. apply O1. lia.
      * eapply stored_only; [exact S2|lia|rewrite le_bytes_len; lia].
    + eapply keeps_trans; [exact K1|eapply keeps_stored; exact S2].
Qed.

Lemma srandom_ok dflt bufs s m w sd : inv dflt bufs s m w -> 0 <= sd < 2 ^ 32 ->
  exists s' m' w', srandom dflt s m sd = Ok (s', m') /\ world_step w (Srandom sd) = Some (w', 0) /\
    inv dflt bufs s' m' w'.
Proof.
  intros I Hs. destruct (tbl_cur _ _ _ _ _ I) as [g [n [T [In [G [R W]]]]]].
  destruct (ensure_ok _ _ _ _ _ I) as [EX [EN [EI EJ]]].
  pose proof (i_bufs _ _ _ _ _ I) as B. destruct (b_pos _ _ _ B _ _ In) as [P P8].
  pose proof (b_map _ _ _ B _ _ In) as M.
  assert (NS : nsize_ok (gen_n g) /\ 4 * gen_n g + 4 <= n).
  { destruct G as [_ [GL [GN GX]]]. unfold nsize_ok. destruct g; cbn in *; [split; [auto|]; lia|]. split; [right; lia|lia]. }
  destruct NS as [NS NL]. pose proof R as [Rn [Ri [Rj _]]].
  destruct (seed_ok dflt (ensure dflt s) m sd (cur w) n) as [s' [m' [E [X' [R' [W' [O K]]]]]]]; auto; try lia.
  { rewrite EN, Rn. exact NS. }
  assert (E2 : seed dflt (ensure dflt s) m sd = seed dflt s m sd).
  { unfold seed. f_equal. unfold ensure. destruct (x_ptr s =? NULL) eqn:Q; [|rewrite Q; reflexivity]. cbn [x_ptr].
    destruct (dflt + 4 =? NULL) eqn:Q2; reflexivity. }
  rewrite EN, Rn in R', W'.
  exists s', m'. unfold srandom. rewrite <- E2, E. unfold world_step. rewrite T. eexists. split; [reflexivity|]. split; [reflexivity|].
  destruct (seeded_ok (gen_n g) sd n NS NL P8 Hs) as [G' _].
  eapply inv_update; eauto.
Qed.

(** stashing the current state: afterwards every initialised buffer is stashed *)
Lemma save_ok dflt bufs s m w : inv dflt bufs s m w ->
  exists s' m', save dflt s m = Ok (s', m', cur w) /\ buffers_ok dflt bufs m' /\
    x_ptr s' = cur w + 4 /\ rn s' = rn s /\ ri s' = ri s /\ rj s' = rj s /\
    forall p g, tbl w p = Some g -> stashed m' p g.
Proof.
  intros I. destruct (tbl_cur _ _ _ _ _ I) as [g [n [T [In [G [R W]]]]]].
  destruct (ensure_ok _ _ _ _ _ I) as [EX [EN [EI EJ]]].
  pose proof (i_bufs _ _ _ _ _ I) as B. pose proof (b_map _ _ _ B _ _ In) as M. destruct (b_pos _ _ _ B _ _ In) as [P P8].
  unfold save. rewrite EX. replace (cur w + 4 - 4) with (cur w) by lia.
  destruct (st32_ok m (cur w) (stash (ensure dflt s))) as [m' [E S]]; [intros x Hx; apply M; lia|].
  rewrite E. cbn [bind]. exists (ensure dflt s), m'. split; [reflexivity|].
  split; [eapply keeps_buffers; [exact B|eapply keeps_stored; exact S]|].
  repeat (split; [assumption|]). intros p g' T'.
  destruct (i_tbl _ _ _ _ _ I p g' T') as [k [Ik Gk]].
  destruct (Z.eq_dec p (cur w)) as [->|N].
  - rewrite T in T'. injection T' as <-. exists (ensure dflt s). split; [eapply regs_eq; eauto|]. split; [apply S|].
    eapply words_at_ext; [|exact W]. intros x Hx. apply S. rewrite le_bytes_len. lia.
  - apply (stashed_only m m' (cur w) n p k); auto.
    + eapply stored_only; [exact S|lia|rewrite le_bytes_len; lia].
    + eapply b_disj; eauto.
    + apply (i_stash _ _ _ _ _ I); auto.
Qed.

Lemma setstate_ok dflt bufs s m w p : inv dflt bufs s m w -> tbl w p <> None ->
  exists s' m' w', setstate dflt s m p = Ok (s', m', cur w) /\ world_step w (Setstate p) = Some (w', cur w) /\
    inv dflt bufs s' m' w'.
Proof.
  intros I TP. destruct (tbl w p) as [g|] eqn:T; [|contradiction].
  destruct (save_ok _ _ _ _ _ I) as [s1 [m1 [E [B [_ [_ [_ [_ ST]]]]]]]].
  destruct (tbl_cur _ _ _ _ _ I) as [gc [nc [Tc _]]].
  destruct (i_tbl _ _ _ _ _ I p g T) as [k [Ik Gk]].
  unfold setstate. rewrite E. cbn [bind]. destruct Gk as [G1 [G2 [G3 G4]]].
  destruct (load_ok m1 p g (ST p g T) G3) as [s2 [E2 [R2 X2]]]. rewrite E2. cbn [bind].
  exists s2, m1. unfold world_step. rewrite Tc, T. eexists. split; [reflexivity|]. split; [reflexivity|].
  constructor; cbn [cur tbl].
  - exact B.
  - left. exact X2.
  - exists g, k. destruct (ST p g T) as [s3 [_ [_ W]]]. auto.
  - apply (i_tbl _ _ _ _ _ I).
  - intros q g' _ T'. apply ST. exact T'.
Qed.

Lemma n_of_size_ok size : 8 <= size -> nsize_ok (n_of_size size) /\ 4 * n_of_size size + 4 <= size.
Proof.
  intros H. unfold n_of_size, nsize_ok.
  destruct (Z.leb_spec size 31), (Z.leb_spec size 63), (Z.leb_spec size 127), (Z.leb_spec size 255); lia.
Qed.

Lemma initstate_ok dflt bufs s m w sd p size n : inv dflt bufs s m w -> 0 <= sd < 2 ^ 32 -> In (p, n) bufs -> size <= n ->
  exists s' m' w' r, initstate dflt s m sd p size = Ok (s', m', r) /\ world_step w (Initstate sd p size) = Some (w', r) /\
    inv dflt bufs s' m' w'.
Proof.
  intros I Hs Ip Hn. unfold initstate, world_step. destruct (tbl_cur _ _ _ _ _ I) as [gc [nc [Tc [_ [_ [Rc _]]]]]]. rewrite Tc.
  destruct (Z.ltb_spec size 8) as [L|L]; [exists s, m, w, NULL; auto|].
  destruct (save_ok _ _ _ _ _ I) as [s1 [m1 [E [B [X1 [N1 [I1 [J1 ST]]]]]]]]. rewrite E. cbn [bind].
  destruct (n_of_size_ok size L) as [NS NL].
  destruct (b_pos _ _ _ B _ _ Ip) as [P P8]. pose proof (b_map _ _ _ B _ _ Ip) as M.
  destruct Rc as [_ [Ri [Rj _]]].
  destruct (seed_ok dflt {| x_ptr := p + 4; rn := n_of_size size; ri := ri s1; rj := rj s1 |} m1 sd p n)
    as [s2 [m2 [E2 [X2 [R2 [W2 [O2 K2]]]]]]]; cbn [x_ptr rn ri rj] in *; auto; try lia.
  rewrite E2. cbn [bind].
  assert (G2 : gen_ok n (seeded (n_of_size size) sd) /\ gen_n (seeded (n_of_size size) sd) = n_of_size size).
  { apply seeded_ok; auto; lia. }
  destruct G2 as [G2 GN].
  (* second save, on the new buffer *)
  assert (I2 : inv dflt bufs s2 m2 {| cur := p; tbl := put (tbl w) p (seeded (n_of_size size) sd) |}).
  { constructor; cbn [cur tbl].
    - eapply keeps_buffers; eauto.
    - left. exact X2.
    - exists (seeded (n_of_size size) sd), n. unfold put. rewrite Z.eqb_refl. auto.
    - intros q g. unfold put. destruct (Z.eqb_spec q p) as [->|N]; [intros [= <-]; eauto|apply (i_tbl _ _ _ _ _ I)].
    - intros q g N. unfold put. destruct (Z.eqb_spec q p) as [->|_]; [contradiction|]. intros T.
      destruct (i_tbl _ _ _ _ _ I q g T) as [k [Ik Gk]].
      apply (stashed_only m1 m2 p n q k); auto. eapply b_disj; eauto. }
  destruct (save_ok _ _ _ _ _ I2) as [s3 [m3 [E3 [B3 [X3 [N3 [I3 [J3 ST3]]]]]]]]. rewrite E3. cbn [bind].
  eexists s3, m3, _, (cur w). split; [reflexivity|]. split; [reflexivity|].
  destruct (tbl_cur _ _ _ _ _ I2) as [g2 [n2 [T2 [In2 [_ [R2' _]]]]]]. cbn [cur tbl] in *.
  constructor; cbn [cur tbl].
  - exact B3.
  - left. exact X3.
  - exists g2, n2. split; [exact T2|]. split; [exact In2|]. split; [eapply regs_eq; eauto|].
    destruct (ST3 p g2 T2) as [s4 [_ [_ W4]]]. exact W4.
  - apply (i_tbl _ _ _ _ _ I2).
  - intros q g' _ T'. apply ST3. exact T'.
Qed.

Lemma rrun_ok dflt bufs l : forall s m w w' outs, inv dflt bufs s m w -> Forall (rop_ok bufs) l ->
  world_run w l = Some (w', outs) ->
  exists s' m', rrun dflt s m l = Ok (s', m', outs) /\ inv dflt bufs s' m' w'.
Proof.
  induction l as [|o l IH]; intros s m w w' outs I F H; cbn [world_run rrun] in *.
  { injection H as <- <-. eauto. }
  apply Forall_cons_iff in F. destruct F as [Fo F].
  destruct (world_step w o) as [[w1 r]|] eqn:WS; [|discriminate].
  destruct (world_run w1 l) as [[w2 rs]|] eqn:WR; [|discriminate]. injection H as <- <-.
  assert (exists s1 m1, rstep dflt s m o = Ok (s1, m1, r) /\ inv dflt bufs s1 m1 w1) as [s1 [m1 [E I1]]].
  { destruct o as [|sd|sd p size|p]; cbn [rstep rop_ok] in *.
    - destruct (random_ok _ _ _ _ _ I) as [s1 [m1 [w1' [r' [E [WS' [I1 _]]]]]]]. rewrite WS in WS'. injection WS' as <- <-. eauto.
    - destruct (srandom_ok _ _ _ _ _ sd I Fo) as [s1 [m1 [w1' [E [WS' I1]]]]]. rewrite WS in WS'. injection WS' as <- ->.
      rewrite E. cbn [bind]. eauto.
    - destruct Fo as [Fs [n [Fi Fn]]].
      destruct (initstate_ok _ _ _ _ _ sd p size n I Fs Fi Fn) as [s1 [m1 [w1' [r' [E [WS' I1]]]]]]. rewrite WS in WS'. injection WS' as <- <-. eauto.
    - assert (TP : tbl w p <> None).
      { unfold world_step in WS. destruct (tbl w (cur w)); [|discriminate]. destruct (tbl w p); [discriminate|discriminate]. }
      destruct (setstate_ok _ _ _ _ _ p I TP) as [s1 [m1 [w1' [E [WS' I1]]]]]. rewrite WS in WS'. injection WS' as <- ->. eauto. }
  rewrite E. cbn [bind]. destruct (IH s1 m1 w1 w2 rs I1 F WR) as [s' [m' [E' I']]]. rewrite E'. cbn [bind]. eauto.
Qed.

(** ** From process start *)
Lemma default_seed : DEFAULT_X = make_odd (lcg64_words 31 1).
Proof. vm_compute. reflexivity. Qed.
Lemma start_inv dflt bufs m : at_start dflt bufs m -> inv dflt bufs rstart m (world0 dflt).
Proof.
  intros [B W]. destruct (seeded_ok 31 1 128) as [G _]; try (unfold nsize_ok; lia).
  constructor; cbn [cur tbl world0 x_ptr rstart].
  - exact B.
  - right. split; reflexivity.
  - exists (seeded 31 1), 128. unfold put. rewrite Z.eqb_refl. split; [reflexivity|]. split; [apply (b_dflt _ _ _ B)|].
    split; [repeat split; cbn [rstart rn ri rj]; lia|]. cbn [gen_words seeded Z.eqb Pos.eqb]. rewrite default_seed in W. exact W.
  - intros p g. unfold put. destruct (Z.eqb_spec p dflt) as [->|N]; [|discriminate]. intros [= <-].
    exists 128. split; [apply (b_dflt _ _ _ B)|exact G].
  - intros p g N. unfold put. destruct (Z.eqb_spec p dflt); [contradiction|discriminate].
Qed.

Lemma random_history dflt bufs m l w outs : at_start dflt bufs m -> Forall (rop_ok bufs) l ->
  world_run (world0 dflt) l = Some (w, outs) ->
  exists s' m', rrun dflt rstart m l = Ok (s', m', outs).
Proof.
  intros S F W. destruct (rrun_ok dflt bufs l _ _ _ _ _ (start_inv _ _ _ S) F W) as [s' [m' [E _]]]. eauto.
Qed.
Lemma random_range dflt bufs m l w outs : at_start dflt bufs m -> Forall (rop_ok bufs) l ->
  world_run (world0 dflt) l = Some (w, outs) ->
  exists s1 m1 s2 m2 r, rrun dflt rstart m l = Ok (s1, m1, outs) /\ random dflt s1 m1 = Ok (s2, m2, r) /\ 0 <= r < 2 ^ 31.
Proof.
  intros S F W. destruct (rrun_ok dflt bufs l _ _ _ _ _ (start_inv _ _ _ S) F W) as [s' [m' [E I]]].
  destruct (random_ok _ _ _ _ _ I) as [s2 [m2 [_ [r [E2 [_ [_ R]]]]]]]. exists s', m', s2, m2, r. auto.
Qed.

Lemma world_run_app l k w : world_run w (l ++ k) =
  match world_run w l with
  | None => None
  | Some (w1, rs) => match world_run w1 k with None => None | Some (w2, ss) => Some (w2, rs ++ ss) end
  end.
Proof.
  revert w; induction l as [|o l IH]; intros w; cbn [app world_run].
  - destruct (world_run w k) as [[w2 ss]|]; reflexivity.
  - destruct (world_step w o) as [[w1 r]|]; [|reflexivity]. rewrite IH. destruct (world_run w1 l) as [[w2 rs]|]; [|reflexivity].
    destruct (world_run w2 k) as [[w3 ss]|]; reflexivity.
Qed.

(** Two worlds with the same current generator produce the same random() values. *)
Lemma world_randoms n : forall w1 w2, tbl w1 (cur w1) = tbl w2 (cur w2) -> tbl w1 (cur w1) <> None ->
  exists u1 u2 outs, world_run w1 (repeat Random n) = Some (u1, outs) /\ world_run w2 (repeat Random n) = Some (u2, outs).
Proof.
  induction n as [|n IH]; intros w1 w2 E N; cbn [repeat world_run]; [exists w1, w2, []; auto|].
  unfold world_step. rewrite <- E. destruct (tbl w1 (cur w1)) as [g|]; [|contradiction]. destruct (gen_next g) as [g' r].
  edestruct (IH {| cur := cur w1; tbl := put (tbl w1) (cur w1) g' |} {| cur := cur w2; tbl := put (tbl w2) (cur w2) g' |})
    as [u1 [u2 [outs [E1 E2]]]]; cbn [cur tbl]; unfold put; rewrite ?Z.eqb_refl; [reflexivity|discriminate|].
  unfold put in E1, E2. rewrite E1, E2. exists u1, u2, (r :: outs). auto.
Qed.

Lemma avoids_keeps p l : forall w w' outs, Forall (avoids p) l -> cur w <> p -> world_run w l = Some (w', outs) ->
  cur w' <> p /\ tbl w' p = tbl w p.
Proof.
  induction l as [|o l IH]; intros w w' outs F N H; cbn [world_run] in H.
  - injection H as <- <-. auto.
  - apply Forall_cons_iff in F. destruct F as [Fo F]. destruct (world_step w o) as [[w1 r]|] eqn:E; [|discriminate].
    destruct (world_run w1 l) as [[w2 rs]|] eqn:E2; [|discriminate]. injection H as <- <-.
    assert (A : cur w1 <> p /\ tbl w1 p = tbl w p).
    { unfold world_step in E. destruct (tbl w (cur w)) as [g|]; [|discriminate]. destruct o as [|sd|sd q sz|q]; cbn [avoids] in Fo.
      - destruct (gen_next g). injection E as <- <-. cbn [cur tbl]. unfold put. destruct (Z.eqb_spec p (cur w)); [congruence|auto].
      - injection E as <- <-. cbn [cur tbl]. unfold put. destruct (Z.eqb_spec p (cur w)); [congruence|auto].
      - destruct (sz <? 8); injection E as <- <-; [auto|]. cbn [cur tbl]. unfold put. destruct (Z.eqb_spec p q); [congruence|auto].
      - destruct (tbl w q); [|discriminate]. injection E as <- <-. auto. }
    destruct A as [A1 A2]. destruct (IH w1 w2 rs F A1 E2) as [B1 B2]. split; [exact B1|congruence].
Qed.

(** After any history ending in state p, a detour through other states and setstate(p)
    continues the sequence exactly as if the detour had not happened. *)
Lemma random_resume dflt bufs m h w hs detour v vs n :
  at_start dflt bufs m -> Forall (rop_ok bufs) h -> Forall (rop_ok bufs) detour ->
  world_run (world0 dflt) h = Some (w, hs) -> world_run w detour = Some (v, vs) ->
  (exists o rest, detour = o :: rest /\ (exists s q z, o = Initstate s q z /\ 8 <= z \/ o = Setstate q)) ->
  Forall (avoids (cur w)) detour ->
  exists s1 m1 s2 m2 outs r, rrun dflt rstart m (h ++ repeat Random n) = Ok (s1, m1, hs ++ outs) /\
    rrun dflt rstart m (h ++ detour ++ Setstate (cur w) :: repeat Random n) = Ok (s2, m2, hs ++ vs ++ r :: outs).
Proof.
  intros S Fh Fd Wh Wd [o [rest [-> Ho]]] Av.
  assert (T : tbl w (cur w) <> None).
  { cbn [world_run] in Wd. unfold world_step in Wd. destruct (tbl w (cur w)); [discriminate|discriminate]. }
  assert (K : tbl v (cur w) = tbl w (cur w)).
  { cbn [world_run] in Wd. destruct (world_step w o) as [[w1 r]|] eqn:E; [|discriminate].
    destruct (world_run w1 rest) as [[w2 rs]|] eqn:E2; [|discriminate]. injection Wd as <- <-.
    apply Forall_cons_iff in Av. destruct Av as [A0 Av].
    assert (cur w1 <> cur w /\ tbl w1 (cur w) = tbl w (cur w)) as [A1 A2].
    { unfold world_step in E. destruct (tbl w (cur w)) as [g|] eqn:G; [|contradiction].
      destruct Ho as [s [q [z [[-> Hz]| ->]]]]; cbn [avoids] in A0.
      - destruct (Z.ltb_spec z 8); [lia|]. injection E as <- <-. cbn [cur tbl]. unfold put. destruct (Z.eqb_spec (cur w) q); [congruence|].
        split; [exact A0|exact G].
      - destruct (tbl w q); [|discriminate]. injection E as <- <-. cbn [cur tbl]. split; [exact A0|exact G]. }
    destruct (avoids_keeps _ _ _ _ _ Av A1 E2) as [_ B]. congruence. }
  destruct (world_randoms n w {| cur := cur w; tbl := tbl v |}) as [u1 [u2 [outs [R1 R2]]]]; [symmetry; exact K|exact T|].
  assert (Fr : Forall (rop_ok bufs) (repeat Random n)) by (apply Forall_forall; intros x Hx; apply repeat_spec in Hx; subst; exact Logic.I).
  assert (Tv : tbl v (cur v) <> None).
  { destruct (rrun_ok dflt bufs (h ++ o :: rest) rstart m (world0 dflt) v (hs ++ vs) (start_inv _ _ _ S)) as [s' [m' [_ I]]].
    - apply Forall_app. auto.
    - rewrite world_run_app, Wh, Wd. reflexivity.
    - destruct (i_cur _ _ _ _ _ I) as [g [? [G _]]]. rewrite G. discriminate. }
  destruct (random_history dflt bufs m (h ++ repeat Random n) u1 (hs ++ outs) S) as [s1 [m1 E1]].
  { apply Forall_app. auto. }
  { rewrite world_run_app, Wh, R1. reflexivity. }
  destruct (random_history dflt bufs m (h ++ (o :: rest) ++ Setstate (cur w) :: repeat Random n) u2 (hs ++ vs ++ cur v :: outs) S) as [s2 [m2 E2]].
  { apply Forall_app. split; [exact Fh|]. apply Forall_app. split; [exact Fd|]. constructor; [exact Logic.I|exact Fr]. }
  { rewrite world_run_app, Wh, world_run_app, Wd. cbn [world_run].
    assert (WS : world_step v (Setstate (cur w)) = Some ({| cur := cur w; tbl := tbl v |}, cur v)).
    { unfold world_step. destruct (tbl v (cur v)) as [gv|]; [|contradiction]. destruct (tbl v (cur w)) as [g|]; [reflexivity|congruence]. }
    rewrite WS, R2. reflexivity. }
  exists s1, m1, s2, m2, outs, (cur v). auto.
Qed.

Lemma gen_next_n g : gen_n (fst (gen_next g)) = gen_n g \/ exists i j xs, g = Lag i j xs /\ ~ (0 <= i < len xs).
Proof.
  destruct g as [x|i j xs]; [left; reflexivity|]. cbn [gen_next fst gen_n].
  destruct (Z_le_dec 0 i), (Z_lt_dec i (len xs)); try (right; exists i, j, xs; split; [reflexivity|lia]).
  left. unfold setZ, len in *. rewrite app_length, firstn_length. cbn [length]. rewrite skipn_length. lia.
Qed.

(** srandom(s) determines the future sequence: two histories that end in states of the
    same size, then srandom(s), then n calls, give the same n values. *)
Lemma random_reseed dflt bufs m h1 h2 w1 w2 o1 o2 g1 g2 s n :
  at_start dflt bufs m -> Forall (rop_ok bufs) h1 -> Forall (rop_ok bufs) h2 -> 0 <= s < 2 ^ 32 ->
  world_run (world0 dflt) h1 = Some (w1, o1) -> world_run (world0 dflt) h2 = Some (w2, o2) ->
  tbl w1 (cur w1) = Some g1 -> tbl w2 (cur w2) = Some g2 -> gen_n g1 = gen_n g2 ->
  exists s1 m1 s2 m2 outs,
    rrun dflt rstart m (h1 ++ Srandom s :: repeat Random n) = Ok (s1, m1, o1 ++ 0 :: outs) /\
    rrun dflt rstart m (h2 ++ Srandom s :: repeat Random n) = Ok (s2, m2, o2 ++ 0 :: outs).
Proof.
  intros S F1 F2 Hs W1 W2 G1 G2 Gn.
  assert (Fr : Forall (rop_ok bufs) (Srandom s :: repeat Random n)).
  { constructor; [exact Hs|]. apply Forall_forall; intros x Hx; apply repeat_spec in Hx; subst; exact Logic.I. }
  destruct (world_randoms n {| cur := cur w1; tbl := put (tbl w1) (cur w1) (seeded (gen_n g1) s) |}
     {| cur := cur w2; tbl := put (tbl w2) (cur w2) (seeded (gen_n g2) s) |}) as [u1 [u2 [outs [R1 R2]]]];
    cbn [cur tbl]; [unfold put; rewrite !Z.eqb_refl, Gn; reflexivity|unfold put; rewrite Z.eqb_refl; discriminate|].
  destruct (random_history dflt bufs m (h1 ++ Srandom s :: repeat Random n) u1 (o1 ++ 0 :: outs) S) as [s1 [m1 E1]].
  { apply Forall_app. auto. }
  { rewrite world_run_app, W1. cbn [world_run]. unfold world_step at 1. rewrite G1, R1. reflexivity. }
  destruct (random_history dflt bufs m (h2 ++ Srandom s :: repeat Random n) u2 (o2 ++ 0 :: outs) S) as [s2 [m2 E2]].
  { apply Forall_app. auto. }
  { rewrite world_run_app, W2. cbn [world_run]. unfold world_step at 1. rewrite G2, R2. reflexivity. }
  exists s1, m1, s2, m2, outs. auto.
Qed.
