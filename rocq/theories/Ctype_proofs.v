From Verif Require Import Base String_spec String_proofs Ctype_model Ctype_spec.

Lemma in_map_bool (l : list Z) c : In c l <-> existsb (Z.eqb c) l = true.
Proof.
  rewrite existsb_exists. split.
  - intros H. exists c. split; [exact H|apply Z.eqb_refl].
  - intros [x [H E]]. apply Z.eqb_eq in E. subst. exact H.
Qed.

Ltac bdes := repeat match goal with
  | |- context[if ?x then _ else _] => destruct x eqn:?
  | H : context[if ?x then _ else _] |- _ => destruct x eqn:?
  end.

(** A class given by a list of bytes: check the 256 bytes, the rest by arithmetic. *)
Lemma class_sweep (f : Z -> Z) (l : list Z) :
  forallb (fun c => Bool.eqb (negb (f c =? 0)) (existsb (Z.eqb c) l)) all_bytes = true ->
  (forall c, ~ is_byte c -> f c = 0) -> Forall is_byte l -> accepts f (fun c => In c l).
Proof.
  intros Hs Hf Hl c.
  assert (D : is_byte c \/ ~ is_byte c) by (unfold is_byte; lia). destruct D as [D|D].
  - pose proof (byte_sweep (fun c => Bool.eqb (negb (f c =? 0)) (existsb (Z.eqb c) l)) Hs c D) as H.
    cbv beta in H. apply eqb_prop in H. rewrite in_map_bool, <- H. lia.
  - rewrite (Hf c D). split; [congruence|]. intros Hi. rewrite Forall_forall in Hl. exfalso. auto.
Qed.

Lemma in_range_list (l : list Z) : forallb (fun c => (0 <=? c) && (c <? 256)) l = true -> Forall is_byte l.
Proof. intros H. apply Forall_forall. intros x Hx. rewrite forallb_forall in H. specialize (H x Hx). unfold is_byte. lia. Qed.

Ltac class :=
  apply class_sweep; [vm_compute; reflexivity| |apply in_range_list; vm_compute; reflexivity].

Lemma isdigit_ok : accepts isdigit (fun c => In c digits).
Proof. class. unfold is_byte, isdigit, b2i. intros; bdes; lia. Qed.
Lemma islower_ok : accepts islower (fun c => In c lowers).
Proof. class. unfold is_byte, islower, b2i. intros; bdes; lia. Qed.
Lemma isupper_ok : accepts isupper (fun c => In c uppers).
Proof. class. unfold is_byte, isupper, b2i. intros; bdes; lia. Qed.
Lemma isalpha_ok : accepts isalpha (fun c => In c (uppers ++ lowers)).
Proof. class. unfold is_byte, isalpha, islower, isupper, b2i. intros; bdes; lia. Qed.
Lemma isalnum_ok : accepts isalnum (fun c => In c (digits ++ uppers ++ lowers)).
Proof. class. unfold is_byte, isalnum, isalpha, islower, isupper, isdigit, b2i. intros; bdes; lia. Qed.
Lemma isblank_ok : accepts isblank (fun c => In c blanks).
Proof. class. unfold is_byte, isblank, b2i. intros; bdes; lia. Qed.
Lemma iscntrl_ok : accepts iscntrl (fun c => 0 <= c <= 31 \/ c = 127).
Proof. intros c. unfold iscntrl, b2i. bdes; lia. Qed.
Lemma isgraph_ok : accepts isgraph (fun c => In c (digits ++ uppers ++ lowers ++ puncts)).
Proof. class. unfold is_byte, isgraph, b2i. intros; bdes; lia. Qed.
Lemma isprint_ok : accepts isprint (fun c => In c (32 :: digits ++ uppers ++ lowers ++ puncts)).
Proof. class. unfold is_byte, isprint, b2i. intros; bdes; lia. Qed.
Lemma ispunct_ok : accepts ispunct (fun c => In c puncts).
Proof. class. unfold is_byte, ispunct, b2i. intros; bdes; lia. Qed.
Lemma isspace_ok : accepts isspace (fun c => In c spaces).
Proof. class. unfold is_byte, isspace, b2i. intros; bdes; lia. Qed.

Lemma lor32_bounds c : 0 <= Z.lor c 32 < 256 -> 0 <= c < 256.
Proof.
  intros [H1 H2].
  assert (Hc : 0 <= c).
  { apply Z.lor_nonneg in H1. tauto. }
  split; [exact Hc|]. destruct (Z_lt_dec c 256); [assumption|]. exfalso.
  assert (Hb : Z.testbit (Z.lor c 32) (Z.log2 c) = true).
  { rewrite Z.lor_spec, Z.bit_log2 by lia. reflexivity. }
  assert (8 <= Z.log2 c) by (apply Z.log2_le_pow2; [lia|]; cbn; lia).
  rewrite Z.testbit_true in Hb by lia.
  rewrite Z.div_small in Hb; [discriminate|].
  split; [lia|]. apply Z.lt_le_trans with (2 ^ 8); [cbn; lia|]. apply Z.pow_le_mono_r; lia.
Qed.

Lemma isxdigit_ok : accepts isxdigit (fun c => In c xdigits).
Proof.
  class. intros c H. unfold isxdigit, isdigit, b2i.
  assert (~ 0 <= Z.lor c 32 < 256) by (intros A; apply lor32_bounds in A; apply H; unfold is_byte; lia).
  unfold is_byte in H. bdes; lia.
Qed.

Lemma isascii_ok : accepts isascii (fun c => 0 <= c <= 127).
Proof.
  intros c. unfold isascii, b2i.
  replace (Z.land c (Z.lnot 127)) with (Z.ldiff c 127) by reflexivity.
  change 127 with (Z.ones 7). rewrite Z.ldiff_ones_r by lia. rewrite Z.shiftl_mul_pow2, Z.shiftr_div_pow2 by lia.
  change (2 ^ 7) with 128. change (Z.ones 7) with 127.
  pose proof (Z.div_mod c 128). pose proof (Z.mod_pos_bound c 128). 
  destruct (c / 128 * 128 =? 0) eqn:E; lia.
Qed.

Lemma toascii_ok c : toascii c = c mod 128.
Proof. unfold toascii. change 127 with (Z.ones 7). rewrite Z.land_ones by lia. reflexivity. Qed.

Lemma not_in_letters_small (l : list Z) : forallb (fun c => (0 <=? c) && (c <? 256)) l = true -> forall c, In c l -> is_byte c.
Proof. intros H c Hc. pose proof (in_range_list l H) as F. rewrite Forall_forall in F. auto. Qed.

Lemma tolower_eq c : tolower c = if (65 <=? c) && (c <=? 90) then c + 32 else c.
Proof.
  unfold tolower, isupper. destruct ((65 <=? c) && (c <=? 90)) eqn:E; [|reflexivity]. cbn [b2i Z.eqb negb].
  assert (H : is_byte c) by (unfold is_byte; lia).
  pose proof (byte_sweep (fun c => negb ((65 <=? c) && (c <=? 90)) || (Z.lor c 32 =? c + 32))
    ltac:(vm_compute; reflexivity) c H) as S. cbv beta in S. rewrite E in S. cbn in S. lia.
Qed.
Lemma toupper_eq c : toupper c = if (97 <=? c) && (c <=? 122) then c - 32 else c.
Proof.
  unfold toupper, islower. destruct ((97 <=? c) && (c <=? 122)) eqn:E; [|reflexivity]. cbn [b2i Z.eqb negb].
  assert (H : is_byte c) by (unfold is_byte; lia).
  pose proof (byte_sweep (fun c => negb ((97 <=? c) && (c <=? 122)) || (Z.land c (Z.lnot 32) =? c - 32))
    ltac:(vm_compute; reflexivity) c H) as S. cbv beta in S. rewrite E in S. cbn in S. lia.
Qed.

Lemma nth_uppers i u : nth_error uppers i = Some u <-> (i < 26)%nat /\ u = 65 + Z.of_nat i.
Proof.
  split.
  - intros H. assert (L : (i < 26)%nat) by (change 26%nat with (length uppers); apply nth_error_Some; congruence).
    split; [exact L|]. do 26 (destruct i as [|i]; [cbn in H; injection H as <-; reflexivity|]). lia.
  - intros [L ->]. do 26 (destruct i as [|i]; [reflexivity|]). lia.
Qed.
Lemma nth_lowers i u : nth_error lowers i = Some u <-> (i < 26)%nat /\ u = 97 + Z.of_nat i.
Proof.
  split.
  - intros H. assert (L : (i < 26)%nat) by (change 26%nat with (length lowers); apply nth_error_Some; congruence).
    split; [exact L|]. do 26 (destruct i as [|i]; [cbn in H; injection H as <-; reflexivity|]). lia.
  - intros [L ->]. do 26 (destruct i as [|i]; [reflexivity|]). lia.
Qed.
Lemma case_pair_iff u l : case_pair u l <-> 65 <= u <= 90 /\ l = u + 32.
Proof.
  unfold case_pair. split.
  - intros [i [H1 H2]]. apply nth_uppers in H1. apply nth_lowers in H2. lia.
  - intros [H ->]. exists (Z.to_nat (u - 65)). rewrite nth_uppers, nth_lowers. lia.
Qed.
Lemma in_uppers c : In c uppers <-> 65 <= c <= 90.
Proof. rewrite <- (isupper_ok c). unfold isupper, b2i. bdes; lia. Qed.
Lemma in_lowers c : In c lowers <-> 97 <= c <= 122.
Proof. rewrite <- (islower_ok c). unfold islower, b2i. bdes; lia. Qed.

Lemma tolower_ok c :
  (forall l, case_pair c l -> tolower c = l) /\ (~ In c uppers -> tolower c = c) /\
  tolower (tolower c) = tolower c.
Proof.
  rewrite !tolower_eq, in_uppers. split; [|split].
  - intros l H. apply case_pair_iff in H. bdes; lia.
  - intros. bdes; lia.
  - destruct ((65 <=? c) && (c <=? 90)) eqn:E; [|rewrite E; reflexivity]. bdes; lia.
Qed.
Lemma toupper_ok c :
  (forall u, case_pair u c -> toupper c = u) /\ (~ In c lowers -> toupper c = c) /\
  toupper (toupper c) = toupper c.
Proof.
  rewrite !toupper_eq, in_lowers. split; [|split].
  - intros l H. apply case_pair_iff in H. bdes; lia.
  - intros. bdes; lia.
  - destruct ((97 <=? c) && (c <=? 122)) eqn:E; [|rewrite E; reflexivity]. bdes; lia.
Qed.

Lemma lower_tolower b : is_byte b -> lower b = tolower b.
Proof. intros _. rewrite tolower_eq. reflexivity. Qed.

(** ** strcasecmp *)
Definition fold_sx (b : Z) : Z := tolower (sx8 b).

Lemma fold_sx_inj a b : is_byte a -> is_byte b -> (fold_sx a - fold_sx b = 0 <-> lower a = lower b).
Proof.
  intros Ha Hb. unfold fold_sx. rewrite !tolower_eq. unfold lower, sx8, is_byte in *.
  repeat match goal with |- context[if ?x then _ else _] => destruct x eqn:? end; lia.
Qed.
Lemma fold_sx_0 : fold_sx 0 = 0. Proof. reflexivity. Qed.

Lemma casecmp_ok l : forall k fuel m a b n,
  bstr m a n l -> bstr m b n k -> (length l < fuel)%nat ->
  exists r, casecmp_loop fuel m a b n = Ok r /\
    (r = 0 <-> map lower l = map lower k) /\
    (Forall (fun c => c < 128) l -> Forall (fun c => c < 128) k ->
     sign_is r (lex (map lower l) (map lower k))).
Proof.
  induction l as [|x l IH]; intros k fuel m a b n Hl Hk Hf; destruct fuel as [|fuel]; try (cbn in Hf; lia);
    cbn [casecmp_loop].
  - destruct (Z.eqb_spec n 0) as [->|Hn].
    + destruct k as [|y k].
      * exists 0. cbn. tauto.
      * destruct Hk as [_ [_ Hk]]. rewrite len_cons in Hk. pose proof (len_nonneg k). lia.
    + destruct Hl as [_ [_ [Hl|[_ Hl]]]]; rewrite len_nil in Hl; [lia|]. rewrite Z.add_0_r in Hl.
      rewrite (ld_ok _ _ _ Hl). cbn [bind].
      destruct k as [|y k].
      * destruct Hk as [_ [_ [Hk|[_ Hk]]]]; rewrite len_nil in Hk; [lia|]. rewrite Z.add_0_r in Hk.
        rewrite (ld_ok _ _ _ Hk). cbn [bind]. exists 0. cbn. tauto.
      * destruct Hk as [Fc [[Hy _] _]]. rewrite (ld_ok _ _ _ Hy). cbn [bind].
        apply Forall_cons_iff in Fc. destruct Fc as [Cy _].
        change (tolower (sx8 0)) with 0. rewrite tolower_eq. 
        exists (0 - tolower (sx8 y)). rewrite tolower_eq. unfold is_char in Cy.
        split; [|split].
        -- unfold sx8. bdes; try reflexivity; lia.
        -- cbn. split; [unfold sx8; bdes; lia|discriminate].
        -- intros _ Hk. apply Forall_cons_iff in Hk. cbn. unfold sx8. bdes; lia.
  - assert (Hn : n <> 0).
    { destruct Hl as [_ [_ Hl]]. rewrite len_cons in Hl. pose proof (len_nonneg l). lia. }
    destruct (Z.eqb_spec n 0) as [|_]; [contradiction|].
    pose proof (proj1 Hl) as Fx. apply Forall_cons_iff in Fx. destruct Fx as [Cx Fl].
    pose proof (proj1 (proj1 (proj2 Hl))) as Hx. rewrite (ld_ok _ _ _ Hx). cbn [bind].
    assert (Tl : bstr m (a + 1) (n - 1) l).
    { destruct Hl as [_ [[_ B] E]]. rewrite len_cons in E. split; [exact Fl|]. split; [exact B|].
      destruct E as [E|[E1 E2]]; [left; lia|right; split; [lia|]].
      replace (a + 1 + len l) with (a + (len l + 1)) by lia. exact E2. }
    destruct k as [|y k].
    + destruct Hk as [_ [_ [Hk|[_ Hk]]]]; rewrite len_nil in Hk; [lia|]. rewrite Z.add_0_r in Hk.
      rewrite (ld_ok _ _ _ Hk). cbn [bind]. change (tolower (sx8 0)) with 0.
      unfold is_char in Cx.
      exists (tolower (sx8 x) - 0). rewrite tolower_eq. split; [|split].
      * unfold sx8. bdes; try reflexivity; lia.
      * cbn. split; [unfold sx8; bdes; lia|discriminate].
      * intros Hk' _. apply Forall_cons_iff in Hk'. cbn. unfold sx8. bdes; lia.
    + pose proof (proj1 Hk) as Fy. apply Forall_cons_iff in Fy. destruct Fy as [Cy Fk].
      pose proof (proj1 (proj1 (proj2 Hk))) as Hy. rewrite (ld_ok _ _ _ Hy). cbn [bind].
      assert (Tk : bstr m (b + 1) (n - 1) k).
      { destruct Hk as [_ [[_ B] E]]. rewrite len_cons in E. split; [exact Fk|]. split; [exact B|].
        destruct E as [E|[E1 E2]]; [left; lia|right; split; [lia|]].
        replace (b + 1 + len k) with (b + (len k + 1)) by lia. exact E2. }
      assert (Bx : is_byte x) by (unfold is_byte, is_char in *; lia).
      assert (By : is_byte y) by (unfold is_byte, is_char in *; lia).
      pose proof (fold_sx_inj x y Bx By) as J. unfold fold_sx in J.
      destruct (Z.eqb_spec (tolower (sx8 x) - tolower (sx8 y)) 0) as [E|E]; cbn [negb].
      * destruct ((x =? 0) || (y =? 0)) eqn:Z0; [unfold is_char in *; lia|].
        apply J in E.
        destruct (IH k fuel m (a + 1) (b + 1) (n - 1) Tl Tk ltac:(cbn in Hf; lia)) as [r [Er [Q S]]].
        exists r. split; [exact Er|]. cbn [map lex]. rewrite E, Z.compare_refl. split.
        -- rewrite Q. split; [intros ->; reflexivity|intros G; injection G; auto].
        -- intros A B. apply Forall_cons_iff in A, B. apply S; tauto.
      * exists (tolower (sx8 x) - tolower (sx8 y)). split; [reflexivity|]. split.
        -- split; [lia|]. intros G. cbn in G. exfalso. apply E, J. injection G; auto.
        -- intros A B. apply Forall_cons_iff in A, B. cbn [map lex].
           assert (N : lower x <> lower y) by (intros G; apply E, J, G).
           destruct (Z.compare_spec (lower x) (lower y)) as [G|G|G]; [contradiction| |];
             cbn; revert G; rewrite !tolower_eq; unfold sx8, lower, is_char in *; bdes; lia.
Qed.

Lemma strncasecmp_ok l k fuel m a b n :
  a <> NULL -> b <> NULL -> bstr m a n l -> bstr m b n k -> (length l < fuel)%nat ->
  exists r, strncasecmp fuel m a b n = Ok r /\
    (r = 0 <-> map lower l = map lower k) /\
    (Forall (fun c => c < 128) l -> Forall (fun c => c < 128) k ->
     sign_is r (lex (map lower l) (map lower k))).
Proof.
  intros Ha Hb Hl Hk Hf. unfold strncasecmp.
  destruct (Z.eqb_spec a NULL); [contradiction|]. destruct (Z.eqb_spec b NULL); [contradiction|].
  cbn [orb]. apply casecmp_ok; assumption.
Qed.

Lemma strcasecmp_ok l k fuel m a b :
  a <> NULL -> b <> NULL -> cstr m a l -> cstr m b k -> len l <= USIZE_MAX -> len k <= USIZE_MAX ->
  (length l < fuel)%nat ->
  exists r, strcasecmp fuel m a b = Ok r /\
    (r = 0 <-> map lower l = map lower k) /\
    (Forall (fun c => c < 128) l -> Forall (fun c => c < 128) k ->
     sign_is r (lex (map lower l) (map lower k))).
Proof. intros. apply strncasecmp_ok; try assumption; apply bstr_cstr; try assumption; lia. Qed.

(** ** ffs *)
Lemma ctz_ok k : forall i, (exists j, 0 <= j < Z.of_nat k /\ Z.testbit i j = true) ->
  Z.testbit i (ctz k i) = true /\ forall j, 0 <= j < ctz k i -> Z.testbit i j = false.
Proof.
  induction k as [|k IH]; intros i [j [Hj Ht]]; [lia|]. cbn [ctz].
  destruct (Z.testbit i 0) eqn:E; [split; [exact E|lia]|].
  assert (j <> 0) by (intros ->; congruence).
  destruct (IH (Z.shiftr i 1)) as [H1 H2].
  { exists (j - 1). split; [lia|]. rewrite Z.shiftr_spec by lia. replace (j - 1 + 1) with j by lia. exact Ht. }
  assert (C : 0 <= ctz k (Z.shiftr i 1)).
  { clear. generalize (Z.shiftr i 1). induction k; intros z; cbn [ctz]; [lia|]. destruct (Z.testbit z 0); [lia|]. specialize (IHk (Z.shiftr z 1)). lia. }
  rewrite Z.shiftr_spec in H1 by lia. split; [replace (1 + _) with (ctz k (Z.shiftr i 1) + 1) by lia; exact H1|].
  intros x Hx. destruct (Z.eq_dec x 0) as [->|]; [exact E|].
  specialize (H2 (x - 1) ltac:(lia)). rewrite Z.shiftr_spec in H2 by lia.
  replace (x - 1 + 1) with x in H2 by lia. exact H2.
Qed.

Lemma nonzero_bit w i : (0 < w)%nat -> - 2 ^ (Z.of_nat w - 1) <= i < 2 ^ (Z.of_nat w - 1) -> i <> 0 ->
  exists j, 0 <= j < Z.of_nat w /\ Z.testbit i j = true.
Proof.
  intros Hw Hi Hn. destruct (Z_lt_dec i 0).
  - exists (Z.of_nat w - 1). split; [lia|].
    rewrite Z.testbit_true by lia.
    replace (i / 2 ^ (Z.of_nat w - 1)) with (-1); [reflexivity|].
    apply Z.div_unique with (r := i + 2 ^ (Z.of_nat w - 1)); lia.
  - exists (Z.log2 i). split; [|apply Z.bit_log2; lia].
    pose proof (Z.log2_nonneg i). split; [lia|].
    assert (Z.log2 i < Z.of_nat w - 1); [|lia]. apply Z.log2_lt_pow2; lia.
Qed.

Lemma ffs_ok w i : (0 < w)%nat -> - 2 ^ (Z.of_nat w - 1) <= i < 2 ^ (Z.of_nat w - 1) ->
  (i = 0 /\ ffs w i = 0) \/
  (i <> 0 /\ 0 < ffs w i /\ Z.testbit i (ffs w i - 1) = true /\
   forall j, 0 <= j < ffs w i - 1 -> Z.testbit i j = false).
Proof.
  intros Hw Hi. unfold ffs. destruct (Z.eqb_spec i 0); [left; auto|right].
  destruct (ctz_ok w i (nonzero_bit w i Hw Hi n)) as [H1 H2].
  split; [exact n|]. split.
  - destruct (Z_lt_dec (ctz w i) 0); [rewrite Z.testbit_neg_r in H1 by lia; discriminate|lia].
  - replace (1 + ctz w i - 1) with (ctz w i) by lia. auto.
Qed.
