(** Proofs about string.h (lemmas; the property statements are in Prop_String.v). *)
From Verif Require Import Base String_model String_spec.

Ltac Zify.zify_post_hook ::= Z.div_mod_to_equations.

Ltac ldst :=
  repeat match goal with
  | H : ?m ?a = Some ?b |- context [ld ?m ?a] => rewrite (ld_ok m a b H); cbn [bind]
  end.

Lemma char_neq0 b : is_char b -> (b =? 0) = false.
Proof. unfold is_char. lia. Qed.

(** ** strlen / strnlen *)
Lemma count_nul_ok s : forall fuel m p i,
  cstr m p s -> (length s < fuel)%nat -> count_nul fuel m p i = Ok (i + len s).
Proof.
  induction s as [|c s IH]; intros [|f] m p i Hs Hf; cbn [length] in *; try lia; cbn [count_nul].
  - apply cstr_nil in Hs. ldst. rewrite len_nil, Z.add_0_r. reflexivity.
  - apply cstr_cons in Hs. destruct Hs as [Hc [Hm Hs]]. ldst. rewrite (char_neq0 _ Hc).
    rewrite (IH f m (p+1) (i+1) Hs) by lia. rewrite len_cons. f_equal. lia.
Qed.

Lemma strlen_ok s fuel m p :
  p <> NULL -> cstr m p s -> (length s < fuel)%nat -> strlen fuel m p = Ok (len s).
Proof.
  intros Hp Hs Hf. unfold strlen. rewrite (proj2 (Z.eqb_neq _ _) Hp).
  rewrite (count_nul_ok s); auto.
Qed.

(** what a function bounded by [n] can see of the string at [a] *)
Lemma bstr_cons m a n c l : bstr m a n (c :: l) <->
  is_char c /\ m a = Some c /\ bstr m (a + 1) (n - 1) l.
Proof.
  unfold bstr. rewrite len_cons. cbn [bytes_at].
  replace (a + (len l + 1)) with (a + 1 + len l) by lia.
  split.
  - intros [Hf [[H2 H3] H4]]. apply Forall_cons_iff in Hf. destruct Hf as [Hf1 Hf2].
    split; [exact Hf1|]. split; [exact H2|]. split; [exact Hf2|]. split; [exact H3|].
    destruct H4 as [H4|[H4 H5]]; [left; lia|right; split; [lia|exact H5]].
  - intros [H1 [H2 [H3 [H4 H5]]]]. split; [constructor; assumption|]. split; [auto|].
    destruct H5 as [H5|[H5 H6]]; [left; lia|right; split; [lia|exact H6]].
Qed.

Lemma bstr_nil m a n : bstr m a n [] <-> n = 0 \/ 0 < n /\ m a = Some 0.
Proof.
  unfold bstr. rewrite len_nil, Z.add_0_r. cbn. split.
  - intros [_ [_ [H|H]]]; [left; lia|right; exact H].
  - intros [H|H]; repeat split; auto.
Qed.

Lemma bstr_le m a n l : bstr m a n l -> len l <= n.
Proof. intros [_ [_ [H|[H _]]]]; lia. Qed.

Lemma bstr_ext m m' a n l :
  (forall x, a <= x < a + Z.min n (len l + 1) -> m' x = m x) -> bstr m a n l -> bstr m' a n l.
Proof.
  intros He Hb. pose proof (bstr_le _ _ _ _ Hb). pose proof (len_nonneg l).
  destruct Hb as [H1 [H2 H3]]. repeat split; auto.
  - eapply bytes_at_ext; [|exact H2]. intros x Hx. apply He. lia.
  - destruct H3 as [H3|[H3 H4]]; [left; exact H3|right]. split; [exact H3|].
    rewrite He by lia. exact H4.
Qed.

Lemma bstr_of_cstr m a s n : cstr m a s -> 0 <= n -> bstr m a n (firstn (Z.to_nat n) s).
Proof.
  intros Hs Hn. pose proof (cstr_end _ _ _ Hs) as He. destruct Hs as [Hc Hb].
  apply bytes_at_app in Hb. destruct Hb as [Hb _].
  assert (F : Forall is_char (firstn (Z.to_nat n) s) /\ bytes_at m a (firstn (Z.to_nat n) s)).
  { rewrite <- (firstn_skipn (Z.to_nat n) s) in Hc, Hb. apply Forall_app in Hc. apply bytes_at_app in Hb. tauto. }
  destruct F as [F1 F2]. repeat split; auto.
  destruct (Z_lt_dec (len s) n).
  - right. rewrite firstn_all2 by (unfold len in *; lia). auto.
  - left. unfold len in *. rewrite firstn_length. lia.
Qed.

Lemma count_take_ok l : forall fuel m p n i,
  bstr m p n l -> (length l < fuel)%nat ->
  count_nul_take fuel m p n i = Ok (i + len l).
Proof.
  induction l as [|c s IH]; intros [|f] m p n i Hs Hf; cbn [length] in *; try lia; cbn [count_nul_take].
  - rewrite len_nil, Z.add_0_r. apply bstr_nil in Hs. destruct (Z.eqb_spec n 0); [reflexivity|].
    destruct Hs as [Hs|[_ Hs]]; [contradiction|]. ldst. reflexivity.
  - pose proof (bstr_le _ _ _ _ Hs) as Hn. rewrite len_cons in *. pose proof (len_nonneg s).
    destruct (Z.eqb_spec n 0); [lia|].
    apply bstr_cons in Hs. destruct Hs as [Hc [Hm Hs]]. ldst. rewrite (char_neq0 _ Hc).
    rewrite (IH f m (p+1) (n-1) (i+1) Hs) by lia. f_equal. lia.
Qed.

Lemma strnlen_ok l fuel m p n :
  p <> NULL -> bstr m p n l -> (length l < fuel)%nat -> strnlen fuel m p n = Ok (len l).
Proof.
  intros Hp Hs Hf. unfold strnlen. rewrite (proj2 (Z.eqb_neq _ _) Hp).
  rewrite (count_take_ok l) by assumption. reflexivity.
Qed.

(** ** memcpy, memmove, memset *)
Lemma copy_fwd_ok l : forall m d s,
  bytes_at m s l -> mapped m d (len l) -> d <= s \/ s + len l <= d ->
  exists m', copy_fwd (length l) m d s = Ok m' /\ stored m m' d l.
Proof.
  induction l as [|b l IH]; intros m d s Hb Hd Hdis; cbn [length copy_fwd].
  - exists m. split; [reflexivity|apply stored_nil].
  - destruct Hb as [Hm Hb]. rewrite len_cons in *. pose proof (len_nonneg l). ldst.
    rewrite st_ok by (apply Hd; lia). cbn [bind].
    destruct (IH (upd m d b) (d+1) (s+1)) as [m' [E S]].
    + apply bytes_at_upd_out; [lia|exact Hb].
    + apply mapped_upd. eapply mapped_sub; [exact Hd|lia|lia].
    + lia.
    + exists m'. split; [exact E|]. apply stored_cons. exact S.
Qed.

Lemma copy_bwd_ok l : forall m d s,
  bytes_at m s l -> mapped m d (len l) -> s <= d \/ d + len l <= s ->
  exists m', copy_bwd (length l) m d s = Ok m' /\ stored m m' d l.
Proof.
  induction l as [|b l IH] using rev_ind; intros m d s Hb Hd Hdis.
  - exists m. split; [reflexivity|apply stored_nil].
  - rewrite app_length, Nat.add_comm. cbn [length Nat.add copy_bwd].
    apply bytes_at_app in Hb. destruct Hb as [Hb [Hm _]].
    rewrite len_app, len_cons, len_nil in *. pose proof (len_nonneg l).
    change (Z.of_nat (length l)) with (len l). ldst.
    rewrite st_ok by (apply Hd; lia). cbn [bind].
    destruct (IH (upd m (d + len l) b) d s) as [m' [E S]].
    + apply bytes_at_upd_out; [lia|exact Hb].
    + apply mapped_upd. eapply mapped_sub; [exact Hd|lia|lia].
    + lia.
    + exists m'. split; [exact E|]. destruct S as [S1 S2]. split.
      * apply bytes_at_app. split; [exact S1|]. cbn. split; [|exact I].
        rewrite S2 by lia. apply upd_same.
      * intros x Hx. rewrite len_app, len_cons, len_nil in Hx. rewrite S2 by lia. apply upd_other. lia.
Qed.

Lemma memcpy_ok l m d s :
  bytes_at m s l -> mapped m d (len l) -> disjoint d (len l) s (len l) ->
  exists m', memcpy m d s (len l) = Ok (m', d) /\ stored m m' d l.
Proof.
  intros Hb Hd Hdis. unfold memcpy. unfold len at 1. rewrite Nat2Z.id.
  pose proof (len_nonneg l).
  destruct (copy_fwd_ok l m d s Hb Hd) as [m' [E S]]; [unfold disjoint in Hdis; lia|].
  exists m'. rewrite E. auto.
Qed.

Lemma memmove_ok l m d s :
  bytes_at m s l -> mapped m d (len l) ->
  exists m', memmove m d s (len l) = Ok (m', d) /\ stored m m' d l.
Proof.
  intros Hb Hd. unfold memmove. unfold len at 1 2. rewrite Nat2Z.id.
  destruct (Z.ltb_spec s d).
  - destruct (copy_bwd_ok l m d s Hb Hd) as [m' [E S]]; [lia|].
    exists m'. rewrite E. auto.
  - destruct (copy_fwd_ok l m d s Hb Hd) as [m' [E S]]; [lia|].
    exists m'. rewrite E. auto.
Qed.

Lemma len_repeat {A} (x : A) n : len (repeat x n) = Z.of_nat n.
Proof. unfold len. rewrite repeat_length. reflexivity. Qed.

Lemma fill_ok k : forall m d c,
  mapped m d (Z.of_nat k) -> exists m', fill k m d c = Ok m' /\ stored m m' d (repeat c k).
Proof.
  induction k as [|k IH]; intros m d c Hd; cbn [fill repeat].
  - exists m. split; [reflexivity|apply stored_nil].
  - rewrite st_ok by (apply Hd; lia). cbn [bind].
    destruct (IH (upd m d c) (d+1) c) as [m' [E S]].
    + apply mapped_upd. eapply mapped_sub; [exact Hd|lia|lia].
    + exists m'. split; [exact E|apply stored_cons; exact S].
Qed.

Lemma memset_ok m d c n :
  0 <= n -> mapped m d n ->
  exists m', memset m d c n = Ok (m', d) /\ stored m m' d (repeat (c mod 256) (Z.to_nat n)).
Proof.
  intros Hn Hd. unfold memset, to_u8.
  destruct (fill_ok (Z.to_nat n) m d (c mod 256)) as [m' [E S]].
  - rewrite Z2Nat.id by lia. exact Hd.
  - exists m'. rewrite E. auto.
Qed.

(** ** memcmp *)
Lemma ld_le_ok l : forall m a, bytes_at m a l ->
  exists v, ld_le (length l) m a = Ok v.
Proof.
  induction l as [|b l IH]; intros m a Hb; cbn [length ld_le]; [eauto|].
  destruct Hb as [Hm Hb]. ldst. destruct (IH m (a+1) Hb) as [v ->]. cbn. eauto.
Qed.

Lemma ld_le_inj l : forall k m a b v w,
  length l = length k -> Forall is_byte l -> Forall is_byte k ->
  bytes_at m a l -> bytes_at m b k ->
  ld_le (length l) m a = Ok v -> ld_le (length l) m b = Ok w ->
  (v = w <-> l = k).
Proof.
  induction l as [|x l IH]; intros [|y k] m a b v w Hl Fl Fk Ba Bb Ea Eb; cbn [length] in *; try lia.
  - cbn in Ea, Eb. split; congruence.
  - cbn [ld_le] in Ea, Eb. destruct Ba as [Ma Ba]. destruct Bb as [Mb Bb].
    rewrite (ld_ok _ _ _ Ma) in Ea. rewrite (ld_ok _ _ _ Mb) in Eb. cbn [bind] in Ea, Eb.
    inversion Fl; subst. inversion Fk; subst.
    destruct (ld_le (length l) m (a+1)) as [va| | |] eqn:Ra; try discriminate.
    destruct (ld_le (length l) m (b+1)) as [vb| | |] eqn:Rb; try discriminate.
    cbn in Ea, Eb. injection Ea as <-. injection Eb as <-.
    assert (Hk : length l = length k) by lia.
    pose proof (IH k m (a+1) (b+1) va vb Hk H2 H4 Ba Bb Ra Rb) as IHk.
    unfold is_byte in *. split.
    + intros E. clear - E H1 H3 IHk.
      assert (Exy : x = y).
      { rewrite <- (Z.mod_small x 256), <- (Z.mod_small y 256) by lia.
        rewrite <- (Z_mod_plus_full x va 256), <- (Z_mod_plus_full y vb 256).
        replace (x + va * 256) with (y + vb * 256) by lia. reflexivity. }
      subst y. f_equal. apply IHk. lia.
    + intros E. injection E as -> ->. f_equal. f_equal. tauto.
Qed.

Lemma lex_refl l : lex l l = Eq.
Proof. induction l as [|a l IH]; cbn; [reflexivity|]. rewrite Z.compare_refl. exact IH. Qed.

Lemma lex_app_same p l k : lex (p ++ l) (p ++ k) = lex l k.
Proof. induction p as [|a p IH]; cbn; [reflexivity|]. rewrite Z.compare_refl. exact IH. Qed.

Lemma lex_app_diff l k l' k' : length l = length k -> l <> k ->
  lex (l ++ l') (k ++ k') = lex l k.
Proof.
  revert k; induction l as [|a l IH]; intros [|b k] Hl Hne; cbn [length] in *; try lia; [congruence|].
  cbn. destruct (Z.compare_spec a b); [|reflexivity|reflexivity].
  subst. apply IH; [lia|congruence].
Qed.

Lemma sign_sub_lex a b l k : a <> b -> sign_is (a - b) (lex (a :: l) (b :: k)).
Proof. intros H. cbn. destruct (Z.compare_spec a b); cbn; lia. Qed.

Lemma memcmp_word_diff_ok l : forall k m a b,
  length l = length k -> l <> k -> bytes_at m a l -> bytes_at m b k ->
  exists r, memcmp_word_diff (length l) m a b = Ok r /\ sign_is r (lex l k).
Proof.
  induction l as [|x l IH]; intros [|y k] m a b Hl Hne Ba Bb; cbn [length] in *; try lia; [congruence|].
  destruct Ba as [Ma Ba]. destruct Bb as [Mb Bb]. cbn [memcmp_word_diff]. ldst.
  destruct (Z.eqb_spec x y) as [->|Hxy]; cbn [negb].
  - destruct (IH k m (a+1) (b+1)) as [r [E S]]; try assumption; [lia|congruence|].
    exists r. split; [exact E|]. cbn. rewrite Z.compare_refl. exact S.
  - eexists. split; [reflexivity|]. apply sign_sub_lex. exact Hxy.
Qed.

Lemma memcmp_tail_ok l : forall k m a b,
  length l = length k -> bytes_at m a l -> bytes_at m b k ->
  exists r, memcmp_tail (length l) m a b = Ok r /\ sign_is r (lex l k).
Proof.
  induction l as [|x l IH]; intros [|y k] m a b Hl Ba Bb; cbn [length] in *; try lia.
  - exists 0. split; reflexivity.
  - destruct Ba as [Ma Ba]. destruct Bb as [Mb Bb]. cbn [memcmp_tail]. ldst.
    destruct (Z.eqb_spec x y) as [->|Hxy]; cbn [negb].
    + destruct (IH k m (a+1) (b+1)) as [r [E S]]; try assumption; [lia|].
      exists r. split; [exact E|]. cbn. rewrite Z.compare_refl. exact S.
    + eexists. split; [reflexivity|]. apply sign_sub_lex. exact Hxy.
Qed.

Lemma memcmp_words_ok w : forall rem l k m a b,
  length l = (8 * w + rem)%nat -> length k = length l ->
  Forall is_byte l -> Forall is_byte k -> bytes_at m a l -> bytes_at m b k ->
  exists r, memcmp_words w rem m a b = Ok r /\ sign_is r (lex l k).
Proof.
  induction w as [|w IH]; intros rem l k m a b Hl Hk Fl Fk Ba Bb; cbn [memcmp_words].
  - replace rem with (length l) by lia. apply memcmp_tail_ok; auto.
  - rewrite <- (firstn_skipn 8 l) in Ba, Fl. rewrite <- (firstn_skipn 8 k) in Bb, Fk.
    apply bytes_at_app in Ba. apply bytes_at_app in Bb.
    apply Forall_app in Fl. apply Forall_app in Fk.
    destruct Ba as [Ba1 Ba2], Bb as [Bb1 Bb2], Fl as [Fl1 Fl2], Fk as [Fk1 Fk2].
    assert (L8 : length (firstn 8 l) = 8%nat) by (rewrite firstn_length; lia).
    assert (K8 : length (firstn 8 k) = 8%nat) by (rewrite firstn_length; lia).
    assert (Ll : len (firstn 8 l) = 8) by (unfold len; lia).
    assert (Lk : len (firstn 8 k) = 8) by (unfold len; lia).
    rewrite Ll in Ba2. rewrite Lk in Bb2.
    unfold ld_word.
    destruct (ld_le_ok _ _ _ Ba1) as [va Ea]. destruct (ld_le_ok _ _ _ Bb1) as [vb Eb].
    pose proof (ld_le_inj _ _ _ _ _ va vb (eq_trans L8 (eq_sym K8)) Fl1 Fk1 Ba1 Bb1) as Inj.
    rewrite L8 in *. rewrite K8 in Eb. specialize (Inj Ea Eb).
    rewrite Ea, Eb. cbn [bind].
    rewrite <- (firstn_skipn 8 l), <- (firstn_skipn 8 k).
    destruct (Z.eqb_spec va vb) as [Ev|Ev]; cbn [negb].
    + rewrite (proj1 Inj Ev), lex_app_same.
      apply IH; try assumption; rewrite ?skipn_length; lia.
    + assert (firstn 8 l <> firstn 8 k) as Hd by (intros Q; apply Ev, Inj, Q).
      rewrite lex_app_diff by (congruence || assumption).
      pose proof (memcmp_word_diff_ok _ _ m a b (eq_trans L8 (eq_sym K8)) Hd Ba1 Bb1) as W.
      rewrite L8 in W. exact W.
Qed.

Lemma memcmp_ok l k m a b n :
  len l = n -> len k = n -> Forall is_byte l -> Forall is_byte k ->
  bytes_at m a l -> bytes_at m b k ->
  exists r, memcmp m a b n = Ok r /\ sign_is r (lex l k).
Proof.
  intros Hl Hk Fl Fk Ba Bb. unfold memcmp. pose proof (len_nonneg l).
  apply memcmp_words_ok; try assumption; unfold len in *; lia.
Qed.

(** ** memchr, memrchr, memccpy *)
Lemma ld_bytes_ok l : forall m a, bytes_at m a l -> ld_bytes (length l) m a = Ok l.
Proof.
  induction l as [|b l IH]; intros m a Hb; cbn [length ld_bytes]; [reflexivity|].
  destruct Hb as [Hm Hb]. ldst. rewrite (IH m (a+1) Hb). reflexivity.
Qed.

Lemma index_of_spec c l :
  match index_of c l with
  | None => ~ In c l
  | Some i => exists k, i = Z.of_nat k /\ first_occ c l k
  end.
Proof.
  induction l as [|b l IH]; cbn [index_of]; [auto|].
  destruct (Z.eqb_spec b c) as [->|Hb].
  - exists 0%nat. split; [reflexivity|]. split; [reflexivity|]. intros j Hj. lia.
  - destruct (index_of c l) as [i|]; cbn.
    + destruct IH as [k [-> [H1 H2]]]. exists (S k). split; [lia|]. split; [exact H1|].
      intros [|j] Hj; cbn; [congruence|]. apply H2. lia.
    + intros [H|H]; [congruence|auto].
Qed.

Lemma rindex_of_spec c l :
  match rindex_of c l with
  | None => ~ In c l
  | Some i => exists k, i = Z.of_nat k /\ last_occ c l k
  end.
Proof.
  induction l as [|b l IH]; cbn [rindex_of]; [auto|].
  destruct (rindex_of c l) as [i|].
  - destruct IH as [k [-> [H1 H2]]]. exists (S k). split; [lia|]. split; [exact H1|].
    intros [|j] Hj; cbn; [lia|]. apply H2. lia.
  - destruct (Z.eqb_spec b c) as [->|Hb].
    + exists 0%nat. split; [reflexivity|]. split; [reflexivity|].
      intros [|j] Hj; [lia|]. cbn. intros Q. apply IH. eapply nth_error_In. exact Q.
    + intros [H|H]; [congruence|auto].
Qed.

Lemma memchr_ok l m a c :
  bytes_at m a l -> exists p, memchr m a c (len l) = Ok p /\ finds_first (c mod 256) l a p.
Proof.
  intros Hb. unfold memchr, to_u8. unfold len. rewrite Nat2Z.id, (ld_bytes_ok l) by assumption. cbn [bind].
  pose proof (index_of_spec (c mod 256) l) as H.
  destruct (index_of (c mod 256) l) as [i|]; eexists; (split; [reflexivity|]).
  - destruct H as [k [-> H]]. right. eauto.
  - left. auto.
Qed.

Lemma memrchr_ok l m a c :
  bytes_at m a l -> exists p, memrchr m a c (len l) = Ok p /\ finds_last (c mod 256) l a p.
Proof.
  intros Hb. unfold memrchr, to_u8. unfold len. rewrite Nat2Z.id, (ld_bytes_ok l) by assumption. cbn [bind].
  pose proof (rindex_of_spec (c mod 256) l) as H.
  destruct (rindex_of (c mod 256) l) as [i|]; eexists; (split; [reflexivity|]).
  - destruct H as [k [-> H]]. right. eauto.
  - left. auto.
Qed.

Lemma memccpy_ok l m d s c :
  0 < s -> bytes_at m s l -> mapped m d (len l) -> disjoint d (len l) s (len l) ->
  exists m' r, memccpy m d s c (len l) = Ok (m', r) /\
    ((~ In (c mod 256) l /\ r = NULL /\ stored m m' d l) \/
     (exists i, first_occ (c mod 256) l i /\ r = d + Z.of_nat i + 1 /\ stored m m' d (firstn (S i) l))).
Proof.
  intros Hs Hb Hd Hdis. unfold memccpy.
  destruct (memchr_ok l m s c Hb) as [p [E F]]. rewrite E. cbn [bind].
  destruct F as [[F ->]|[i [F ->]]].
  - cbn [Z.eqb NULL]. destruct (memcpy_ok l m d s Hb Hd Hdis) as [m' [E' S']].
    rewrite E'. cbn. exists m', NULL. split; [reflexivity|]. left. auto.
  - unfold NULL. destruct (Z.eqb_spec (s + Z.of_nat i) 0); [lia|].
    replace (s + Z.of_nat i - s + 1) with (Z.of_nat (S i)) by lia.
    assert (Hi : (S i <= length l)%nat).
    { destruct F as [F _]. assert (i < length l)%nat; [|lia]. apply nth_error_Some. congruence. }
    assert (L : len (firstn (S i) l) = Z.of_nat (S i)) by (unfold len; rewrite firstn_length; lia).
    rewrite <- L.
    destruct (memcpy_ok (firstn (S i) l) m d s) as [m' [E' S']].
    + rewrite <- (firstn_skipn (S i) l) in Hb. apply bytes_at_app in Hb. tauto.
    + eapply mapped_sub; [exact Hd|lia|]. rewrite L. unfold len. lia.
    + rewrite L. unfold disjoint, len in *. lia.
    + rewrite E'. cbn [bind]. exists m'. eexists. split; [reflexivity|]. right.
      exists i. split; [exact F|]. split; [|exact S']. rewrite L. lia.
Qed.

(** ** memmem, strstr *)
Lemma list_eqb_spec l k : list_eqb l k = true <-> l = k.
Proof.
  revert k; induction l as [|a l IH]; intros [|b k]; cbn; try (split; congruence).
  rewrite andb_true_iff, IH, Z.eqb_eq. split; [intros [-> ->]; reflexivity|intros E; injection E; auto].
Qed.

Lemma occurs_at_skip w l i : occurs_at w l i <-> firstn (length w) (skipn i l) = w /\ (i <= length l)%nat.
Proof.
  split.
  - intros [pre [post [-> <-]]]. rewrite skipn_app, skipn_all, Nat.sub_diag. cbn.
    rewrite firstn_app, firstn_all, Nat.sub_diag. cbn. rewrite app_nil_r. split; [reflexivity|].
    rewrite app_length. lia.
  - intros [E Hi]. exists (firstn i l), (skipn (length w) (skipn i l)). split.
    + pose proof (firstn_skipn (length w) (skipn i l)) as Q. rewrite E in Q.
      rewrite Q, firstn_skipn. reflexivity.
    + rewrite firstn_length. lia.
Qed.

Lemma occurs_at_0 w l : occurs_at w l 0 <-> firstn (length w) l = w.
Proof. rewrite occurs_at_skip. cbn. intuition lia. Qed.

Lemma occurs_at_S w b l i : occurs_at w (b :: l) (S i) <-> occurs_at w l i.
Proof. rewrite !occurs_at_skip. cbn. intuition lia. Qed.

Lemma occurs_at_len w l i : occurs_at w l i -> (i + length w <= length l)%nat.
Proof. intros [pre [post [-> <-]]]. rewrite !app_length. lia. Qed.

Lemma find_window_spec w : w <> [] -> forall l,
  match find_window (length w) w l with
  | None => forall i, ~ occurs_at w l i
  | Some i => exists k, i = Z.of_nat k /\ occurs_at w l k /\ forall j, (j < k)%nat -> ~ occurs_at w l j
  end.
Proof.
  intros Hw. induction l as [|b l IH]; unfold find_window; fold find_window.
  - destruct w; [congruence|]. cbn. intros i H. apply occurs_at_len in H. cbn in H. lia.
  - destruct (Nat.ltb_spec (length (b :: l)) (length w)) as [Hlt|Hge].
    + intros i H. apply occurs_at_len in H. lia.
    + destruct (list_eqb (firstn (length w) (b :: l)) w) eqn:E.
      * apply list_eqb_spec in E. exists 0%nat. split; [reflexivity|].
        split; [apply occurs_at_0; exact E|intros; lia].
      * assert (N0 : ~ occurs_at w (b :: l) 0).
        { rewrite occurs_at_0, <- list_eqb_spec. congruence. }
        destruct (find_window (length w) w l) as [i|]; cbn.
        -- destruct IH as [k [-> [H1 H2]]]. exists (S k). split; [lia|].
           split; [apply occurs_at_S; exact H1|].
           intros [|j] Hj; [exact N0|]. rewrite occurs_at_S. apply H2. lia.
        -- intros [|i]; [exact N0|]. rewrite occurs_at_S. apply IH.
Qed.

Lemma memmem_ok h nd m a b :
  bytes_at m a h -> bytes_at m b nd ->
  exists p, memmem m a (len h) b (len nd) = Ok p /\ finds_leftmost nd h a p.
Proof.
  intros Ha Hb. unfold memmem. destruct (Z.eqb_spec (len nd) 0) as [E|E].
  - destruct nd; [|rewrite len_cons in E; pose proof (len_nonneg nd); lia].
    exists a. split; [reflexivity|]. right. exists 0%nat. split.
    + apply occurs_at_0. reflexivity.
    + split; [intros; lia|cbn; lia].
  - unfold len. rewrite !Nat2Z.id, (ld_bytes_ok h), (ld_bytes_ok nd) by assumption. cbn [bind].
    assert (Hne : nd <> []) by (intros ->; apply E; reflexivity).
    pose proof (find_window_spec nd Hne h) as F.
    destruct (find_window (length nd) nd h) as [i|]; eexists; (split; [reflexivity|]).
    + destruct F as [k [-> [F1 F2]]]. right. exists k. auto.
    + left. auto.
Qed.

Lemma land_255 b : is_byte b -> Z.land b 255 = b.
Proof.
  intros H. change 255 with (Z.ones 8). rewrite Z.land_ones by lia. apply Z.mod_small. exact H.
Qed.

(** generic inner matcher: comparison through [mask] of the needle against the haystack *)
Fixpoint mprefix (mask : Z) (w l : list Z) : bool :=
  match w, l with
  | [], _ => true
  | _ :: _, [] => false
  | b :: w', c :: l' => (Z.land c mask =? Z.land b mask) && mprefix mask w' l'
  end.

(** if masking never makes a non-NUL byte of the needle look like NUL, the inner loop
    stops at the haystack's terminator *)
Lemma strstr_inner_ok mask w : forall fuel m h nd i l,
  Forall (fun b => Z.land b mask <> Z.land 0 mask) w ->
  cstr m (nd + i) w -> cstr m (h + i) l -> (length w < fuel)%nat ->
  strstr_inner fuel m h nd mask i = Ok (mprefix mask w l).
Proof.
  induction w as [|b w IH]; intros [|f] m h nd i l Hm Hw Hl Hf; cbn [length] in *; try lia;
    cbn [strstr_inner].
  - apply cstr_nil in Hw. ldst. reflexivity.
  - apply cstr_cons in Hw. destruct Hw as [Hc [Hb Hw]]. ldst. rewrite (char_neq0 b Hc).
    inversion Hm; subst.
    destruct l as [|c l].
    + apply cstr_nil in Hl. ldst. destruct (Z.eqb_spec (Z.land 0 mask) (Z.land b mask)); cbn.
      * congruence.
      * reflexivity.
    + apply cstr_cons in Hl. destruct Hl as [Hcc [Hcb Hl]]. ldst. cbn [mprefix].
      destruct (Z.eqb_spec (Z.land c mask) (Z.land b mask)); cbn [negb andb]; [|reflexivity].
      apply IH; try assumption; try lia.
      * replace (nd + (i + 1)) with (nd + i + 1) by lia. exact Hw.
      * replace (h + (i + 1)) with (h + i + 1) by lia. exact Hl.
Qed.

Lemma mprefix_255 w l : Forall is_char w -> Forall is_char l ->
  mprefix 255 w l = true <-> occurs_at w l 0.
Proof.
  intros Hw Hl. rewrite occurs_at_0. revert l Hl; induction w as [|b w IH]; intros l Hl.
  - cbn. tauto.
  - inversion Hw; subst. destruct l as [|c l]; cbn [mprefix length firstn]; [split; congruence|].
    inversion Hl; subst. unfold is_char in *.
    rewrite !land_255 by (unfold is_byte; lia).
    rewrite andb_true_iff, Z.eqb_eq, IH by assumption.
    split; [intros [-> ->]; reflexivity|intros E; injection E; auto].
Qed.

Lemma strstr_ok w : w <> [] -> forall l fuel m h nd,
  cstr m h l -> cstr m nd w -> (length l < fuel)%nat ->
  forall ifuel, (length w < ifuel)%nat ->
  exists p, inner_strstr fuel ifuel m h nd 255 = Ok p /\ finds_leftmost w l h p.
Proof.
  intros Hne. induction l as [|c l IH]; intros [|f] m h nd Hl Hw Hf ifuel Hif; cbn [length] in *; try lia;
    cbn [inner_strstr].
  - apply cstr_nil in Hl. ldst. exists NULL. split; [reflexivity|]. left. split; [|reflexivity].
    intros i H. apply occurs_at_len in H. destruct w; [congruence|cbn in H; lia].
  - pose proof Hl as Hl0. apply cstr_cons in Hl. destruct Hl as [Hc [Hm Hl]]. ldst. rewrite (char_neq0 c Hc).
    rewrite (strstr_inner_ok 255 w) with (l := c :: l); try assumption.
    2:{ destruct Hw as [Hw _]. eapply Forall_impl; [|exact Hw]. intros b Hb. cbn beta in Hb.
        unfold is_char in Hb. rewrite !land_255 by (unfold is_byte; lia). lia. }
    2:{ rewrite Z.add_0_r. exact Hw. }
    2:{ rewrite Z.add_0_r. exact Hl0. }
    cbn [bind]. pose proof (mprefix_255 w (c :: l) (proj1 Hw) (proj1 Hl0)) as MP.
    destruct (mprefix 255 w (c :: l)).
    + exists h. split; [reflexivity|]. right. exists 0%nat. split; [tauto|]. split; [intros; lia|cbn; lia].
    + assert (N0 : ~ occurs_at w (c :: l) 0) by (rewrite <- MP; congruence).
      destruct (IH f m (h+1) nd Hl Hw ltac:(lia) ifuel Hif) as [p [E F]].
      exists p. split; [exact E|].
      destruct F as [[F ->]|[i [F1 [F2 ->]]]].
      * left. split; [|reflexivity]. intros [|i]; [exact N0|]. rewrite occurs_at_S. apply F.
      * right. exists (S i). split; [apply occurs_at_S; exact F1|]. split; [|lia].
        intros [|j] Hj; [exact N0|]. rewrite occurs_at_S. apply F2. lia.
Qed.

Lemma strstr_empty_needle c l fuel m h nd :
  cstr m h (c :: l) -> cstr m nd [] -> (0 < fuel)%nat -> strstr fuel m h nd = Ok h.
Proof.
  intros Hl Hw Hf. unfold strstr. destruct fuel as [|f]; [lia|]. cbn [inner_strstr].
  apply cstr_cons in Hl. destruct Hl as [Hc [Hm _]]. ldst. rewrite (char_neq0 c Hc).
  cbn [strstr_inner]. rewrite Z.add_0_r. apply cstr_nil in Hw. ldst. reflexivity.
Qed.

(** ** strcpy family *)
Lemma stpcpy_ok s : forall fuel m d a,
  cstr m a s -> mapped m d (len s + 1) -> disjoint d (len s + 1) a (len s + 1) ->
  (length s < fuel)%nat ->
  exists m', stpcpy fuel m d a = Ok (m', d + len s) /\ stored m m' d (s ++ [0]).
Proof.
  induction s as [|c s IH]; intros [|f] m d a Hs Hd Hdis Hf; cbn [length] in *; try lia; cbn [stpcpy].
  - apply cstr_nil in Hs. ldst. rewrite len_nil in *. rewrite st_ok by (apply Hd; lia). cbn [bind].
    rewrite (ld_ok _ _ _ (upd_same m d 0)). cbn. eexists. split; [f_equal; f_equal; lia|].
    apply stored_cons, stored_nil.
  - apply cstr_cons in Hs. destruct Hs as [Hc [Hm Hs]]. ldst. rewrite len_cons in *.
    pose proof (len_nonneg s). rewrite st_ok by (apply Hd; lia). cbn [bind].
    rewrite (ld_ok _ _ _ (upd_same m d c)). cbn [bind]. rewrite (char_neq0 c Hc).
    destruct (IH f (upd m d c) (d+1) (a+1)) as [m' [E S]].
    + eapply cstr_ext; [|exact Hs]. intros x Hx. apply upd_other. unfold disjoint in Hdis. lia.
    + apply mapped_upd. eapply mapped_sub; [exact Hd|lia|lia].
    + unfold disjoint in *. lia.
    + lia.
    + rewrite E. exists m'. split; [f_equal; f_equal; lia|]. cbn [app]. apply stored_cons. exact S.
Qed.

Lemma strcpy_ok s : forall fuel m d a,
  cstr m a s -> mapped m d (len s + 1) -> disjoint d (len s + 1) a (len s + 1) ->
  (length s < fuel)%nat ->
  exists m', strcpy_loop fuel m d a = Ok m' /\ stored m m' d (s ++ [0]).
Proof.
  induction s as [|c s IH]; intros [|f] m d a Hs Hd Hdis Hf; cbn [length] in *; try lia; cbn [strcpy_loop].
  - apply cstr_nil in Hs. ldst. rewrite len_nil in *. rewrite st_ok by (apply Hd; lia). cbn [bind].
    eexists. split; [reflexivity|]. apply stored_cons, stored_nil.
  - apply cstr_cons in Hs. destruct Hs as [Hc [Hm Hs]]. ldst. rewrite len_cons in *.
    pose proof (len_nonneg s). rewrite (char_neq0 c Hc). rewrite st_ok by (apply Hd; lia). cbn [bind].
    destruct (IH f (upd m d c) (d+1) (a+1)) as [m' [E S]].
    + eapply cstr_ext; [|exact Hs]. intros x Hx. apply upd_other. unfold disjoint in Hdis. lia.
    + apply mapped_upd. eapply mapped_sub; [exact Hd|lia|lia].
    + unfold disjoint in *. lia.
    + lia.
    + rewrite E. exists m'. split; [reflexivity|]. cbn [app]. apply stored_cons. exact S.
Qed.

Lemma stpncpy_loop_ok l : forall fuel m d a n,
  bstr m a n l -> mapped m d n -> disjoint d n a (Z.min n (len l + 1)) -> (length l < fuel)%nat ->
  exists m', stpncpy_loop fuel m d a n = Ok (m', d + len l, n - len l) /\
             stored m m' d (l ++ repeat 0 (Z.to_nat (Z.min 1 (n - len l)))).
Proof.
  induction l as [|c s IH]; intros [|f] m d a n Hs Hd Hdis Hf; cbn [length] in *; try lia; cbn [stpncpy_loop].
  - rewrite len_nil in *. apply bstr_nil in Hs. destruct (Z.gtb_spec n 0).
    + destruct Hs as [Hs|[_ Hs]]; [lia|]. ldst. rewrite st_ok by (apply Hd; lia). cbn [bind].
      rewrite (ld_ok _ _ _ (upd_same m d 0)). cbn. eexists. split.
      * rewrite Z.add_0_r, Z.sub_0_r. reflexivity.
      * replace (Z.to_nat (Z.min 1 (n - 0))) with 1%nat by lia. apply stored_cons, stored_nil.
    + exists m. split; [f_equal; f_equal; [f_equal|]; lia|].
      replace (Z.to_nat (Z.min 1 (n - 0))) with 0%nat by lia. apply stored_nil.
  - pose proof (bstr_le _ _ _ _ Hs) as Hn.
    rewrite len_cons in *. pose proof (len_nonneg s). destruct (Z.gtb_spec n 0); [|lia].
    apply bstr_cons in Hs. destruct Hs as [Hc [Hm Hs]]. ldst.
    rewrite st_ok by (apply Hd; lia). cbn [bind].
    rewrite (ld_ok _ _ _ (upd_same m d c)). cbn [bind]. rewrite (char_neq0 c Hc).
    destruct (IH f (upd m d c) (d+1) (a+1) (n-1)) as [m' [E S]].
    + eapply bstr_ext; [|exact Hs]. intros x Hx. apply upd_other. unfold disjoint in Hdis. lia.
    + apply mapped_upd. eapply mapped_sub; [exact Hd|lia|lia].
    + unfold disjoint in *. lia.
    + lia.
    + rewrite E. exists m'. split; [f_equal; f_equal; [f_equal|]; lia|]. cbn [app]. apply stored_cons.
      replace (n - (len s + 1)) with (n - 1 - len s) by lia. exact S.
Qed.

Lemma stored_overlap_last m m1 m2 d s j k : (j <= k)%nat ->
  stored m m1 d (s ++ repeat 0 j) -> stored m1 m2 (d + len s) (repeat 0 k) ->
  stored m m2 d (s ++ repeat 0 k).
Proof.
  intros Hjk H1 H2. destruct H1 as [A B], H2 as [C D]. rewrite !len_app, !len_repeat in *.
  pose proof (len_nonneg s).
  apply bytes_at_app in A. destruct A as [A _]. split.
  - apply bytes_at_app. split; [|exact C].
    eapply bytes_at_ext; [|exact A]. intros x Hx. apply D. lia.
  - intros x Hx. rewrite len_app, len_repeat in Hx. rewrite D by lia. apply B. lia.
Qed.

Lemma stpncpy_ok l fuel m d a n :
  bstr m a n l -> mapped m d n -> disjoint d n a (Z.min n (len l + 1)) ->
  (length l < fuel)%nat ->
  exists m', stpncpy fuel m d a n = Ok (m', d + len l) /\
             stored m m' d (l ++ repeat 0 (Z.to_nat (n - len l))).
Proof.
  intros Hs Hd Hdis Hf. unfold stpncpy. pose proof (len_nonneg l). pose proof (bstr_le _ _ _ _ Hs).
  destruct (stpncpy_loop_ok l fuel m d a n) as [m1 [E1 S1]]; try assumption.
  rewrite E1. cbn [bind].
  destruct (memset_ok m1 (d + len l) 0 (n - len l)) as [m2 [E2 S2]]; [lia| |].
  { eapply stored_mapped; [exact S1|]. eapply mapped_sub; [exact Hd|lia|lia]. }
  rewrite E2. cbn [bind]. exists m2. split; [reflexivity|].
  change (0 mod 256) with 0 in S2.
  eapply stored_overlap_last; [|exact S1|exact S2]. lia.
Qed.

(** ** strcat family *)
Lemma strncat_loop_ok l : forall fuel m d a n i,
  bstr m (a + i) (n - i) l ->
  mapped m (d + i) (len l) ->
  disjoint (d + i) (len l) (a + i) (Z.min (n - i) (len l + 1)) ->
  (length l < fuel)%nat ->
  exists m', strncat_loop fuel m d a n i = Ok (m', i + len l) /\ stored m m' (d + i) l.
Proof.
  induction l as [|c s IH]; intros [|f] m d a n i Hs Hd Hdis Hf; cbn [length] in *; try lia; cbn [strncat_loop].
  - rewrite len_nil, Z.add_0_r in *. apply bstr_nil in Hs. destruct (Z.ltb_spec i n).
    + destruct Hs as [Hs|[_ Hs]]; [lia|]. ldst. cbn. exists m. split; [reflexivity|apply stored_nil].
    + exists m. split; [reflexivity|apply stored_nil].
  - pose proof (bstr_le _ _ _ _ Hs) as Hn. rewrite len_cons in *. pose proof (len_nonneg s).
    destruct (Z.ltb_spec i n); [|lia].
    apply bstr_cons in Hs. destruct Hs as [Hc [Hm Hs]]. ldst. rewrite (char_neq0 c Hc).
    rewrite st_ok by (apply Hd; lia). cbn [bind].
    replace (a + i + 1) with (a + (i + 1)) in Hs by lia.
    replace (n - i - 1) with (n - (i + 1)) in Hs by lia.
    destruct (IH f (upd m (d + i) c) d a n (i+1)) as [m' [E S]].
    + eapply bstr_ext; [|exact Hs]. intros x Hx. apply upd_other. unfold disjoint in Hdis. lia.
    + apply mapped_upd. eapply mapped_sub; [exact Hd|lia|lia].
    + unfold disjoint in *. lia.
    + lia.
    + rewrite E. exists m'. split; [f_equal; f_equal; lia|].
      apply stored_cons. replace (d + i + 1) with (d + (i + 1)) by lia. exact S.
Qed.

Lemma strncat_ok ds l fuel m d a n :
  d <> NULL -> cstr m d ds -> bstr m a n l ->
  mapped m (d + len ds) (len l + 1) ->
  disjoint (d + len ds) (len l + 1) a (Z.min n (len l + 1)) ->
  (length ds < fuel)%nat -> (length l < fuel)%nat ->
  exists m', strncat fuel m d a n = Ok (m', d) /\ stored m m' (d + len ds) (l ++ [0]).
Proof.
  intros Hd0 Hds Hs Hm Hdis Hf1 Hf2. unfold strncat. rewrite (strlen_ok ds) by assumption. cbn [bind].
  pose proof (len_nonneg l).
  destruct (strncat_loop_ok l fuel m (d + len ds) a n 0) as [m1 [E1 S1]]; try assumption.
  - rewrite Z.add_0_r, Z.sub_0_r. exact Hs.
  - rewrite Z.add_0_r. eapply mapped_sub; [exact Hm|lia|lia].
  - rewrite !Z.add_0_r, Z.sub_0_r. unfold disjoint in *. lia.
  - rewrite Z.add_0_r in S1. rewrite E1. cbn [bind]. rewrite Z.add_0_l.
    rewrite st_ok.
    2:{ eapply stored_mapped; [exact S1|exact Hm|lia]. }
    cbn [bind]. eexists. split; [reflexivity|]. eapply stored_snoc; [exact S1|]. reflexivity.
Qed.

Lemma strlcpy_copy_ok : forall t fuel m d a i n,
  Forall is_char t -> bytes_at m (a + i) t -> 0 <= i -> i + len t <= n - 1 ->
  (i + len t = n - 1 /\ (exists b, m (a + i + len t) = Some b) \/ m (a + i + len t) = Some 0) ->
  mapped m (d + i) (len t) ->
  disjoint (d + i) (len t) (a + i) (len t + 1) -> (length t < fuel)%nat ->
  exists m', strlcpy_copy fuel m d a n i = Ok (m', i + len t) /\ stored m m' (d + i) t.
Proof.
  induction t as [|c t IH]; intros [|f] m d a i n Fc Hb Hi Hle Hstop Hd Hdis Hf; cbn [length] in *; try lia;
    cbn [strlcpy_copy].
  - rewrite len_nil, !Z.add_0_r in *. exists m. split; [|apply stored_nil].
    destruct Hstop as [[H1 [b Hb0]]|H0]; ldst.
    + destruct (Z.ltb_spec i (n - 1)); [lia|]. rewrite andb_false_r. reflexivity.
    + reflexivity.
  - rewrite len_cons in *. pose proof (len_nonneg t). destruct Hb as [Hm Hb]. ldst.
    inversion Fc as [|? ? Hc Fc']; subst. rewrite (char_neq0 c Hc).
    destruct (Z.ltb_spec i (n - 1)); [|lia]. cbn [negb andb].
    rewrite st_ok by (apply Hd; lia). cbn [bind].
    destruct (IH f (upd m (d+i) c) d a (i+1) n) as [m' [E S]].
    + exact Fc'.
    + replace (a + (i + 1)) with (a + i + 1) by lia.
      eapply bytes_at_ext; [|exact Hb]. intros x Hx. apply upd_other. unfold disjoint in Hdis. lia.
    + lia.
    + lia.
    + rewrite upd_other by (unfold disjoint in Hdis; lia).
      replace (a + (i + 1) + len t) with (a + i + (len t + 1)) by lia.
      destruct Hstop as [[H1 H2]|H2]; [left; split; [lia|exact H2]|right; exact H2].
    + apply mapped_upd. eapply mapped_sub; [exact Hd|lia|lia].
    + unfold disjoint in *. lia.
    + lia.
    + rewrite E. exists m'. split; [f_equal; f_equal; lia|].
      apply stored_cons. replace (d + i + 1) with (d + (i + 1)) by lia. exact S.
Qed.

Lemma strlcpy_rest_ok s : forall fuel m a i,
  cstr m (a + i) s -> (length s < fuel)%nat -> strlcpy_rest fuel m a i = Ok (i + len s).
Proof.
  induction s as [|c s IH]; intros [|f] m a i Hs Hf; cbn [length] in *; try lia; cbn [strlcpy_rest].
  - rewrite len_nil, Z.add_0_r. apply cstr_nil in Hs. ldst. reflexivity.
  - apply cstr_cons in Hs. destruct Hs as [Hc [Hm Hs]]. ldst. rewrite (char_neq0 _ Hc).
    rewrite (IH f m a (i+1)) by (lia || (replace (a + (i+1)) with (a+i+1) by lia; exact Hs)).
    rewrite len_cons. f_equal. lia.
Qed.

Lemma cstr_skip m a s i : cstr m a s -> (i <= length s)%nat -> cstr m (a + Z.of_nat i) (skipn i s).
Proof.
  intros Hs Hi. rewrite <- (firstn_skipn i s) in Hs.
  assert (Fc : Forall is_char (firstn i s)) by (destruct Hs as [H _]; apply Forall_app in H; tauto).
  apply (cstr_app m a _ _ Fc) in Hs. destruct Hs as [_ Hs].
  unfold len in Hs. rewrite firstn_length, Nat.min_l in Hs by lia. exact Hs.
Qed.

Lemma strlcpy_ok s fuel m d a n :
  cstr m a s -> 0 <= n ->
  mapped m d (Z.min n (len s + 1)) ->
  disjoint d (Z.min n (len s + 1)) a (len s + 1) -> (length s < fuel)%nat ->
  exists m', strlcpy fuel m d a n = Ok (m', len s) /\
    (n = 0 /\ m' = m \/ 0 < n /\ stored m m' d (firstn (Z.to_nat (n - 1)) s ++ [0])).
Proof.
  intros Hs Hn Hd Hdis Hf. unfold strlcpy. pose proof (len_nonneg s).
  destruct (Z.eqb_spec n 0) as [->|Hn0].
  - cbn [bind]. rewrite (strlcpy_rest_ok s); [|rewrite Z.add_0_r; exact Hs|exact Hf].
    cbn. exists m. split; [reflexivity|left; auto].
  - set (t := firstn (Z.to_nat (n - 1)) s).
    assert (Lt : len t = Z.min (n - 1) (len s)) by (unfold t, len in *; rewrite firstn_length; lia).
    pose proof (bstr_of_cstr m a s (n-1) Hs ltac:(lia)) as [Fc [Hb Hstop]]. fold t in Fc, Hb, Hstop.
    assert (Hend : exists b, m (a + len t) = Some b).
    { destruct Hs as [_ Hs]. apply bytes_at_mapped in Hs. apply Hs.
      rewrite len_app, len_cons, len_nil. lia. }
    destruct (strlcpy_copy_ok t fuel m d a 0 n) as [m1 [E1 S1]]; rewrite ?Z.add_0_r; try assumption; try lia.
    + destruct Hstop as [H1|[_ H1]]; [left; split; [lia|exact Hend]|right; exact H1].
    + eapply mapped_sub; [exact Hd|lia|lia].
    + unfold disjoint in *. lia.
    + unfold t. rewrite firstn_length. lia.
    + rewrite Z.add_0_r in S1. rewrite E1. cbn [bind]. rewrite Z.add_0_l.
      rewrite st_ok by (eapply stored_mapped; [exact S1|exact Hd|lia]). cbn [bind].
      pose proof (stored_snoc _ _ _ _ 0 t S1 eq_refl) as S2.
      rewrite (strlcpy_rest_ok (skipn (length t) s)).
      * cbn [bind]. eexists. split; [|right; split; [lia|exact S2]].
        f_equal. f_equal. unfold len in *. rewrite skipn_length. lia.
      * eapply cstr_ext; [|apply cstr_skip; [exact Hs|unfold t; rewrite firstn_length; lia]].
        intros x Hx. destruct S2 as [_ S2]. apply S2. rewrite len_app, len_cons, len_nil.
        unfold disjoint in Hdis. unfold len in *. rewrite skipn_length in Hx. lia.
      * rewrite skipn_length. lia.
Qed.

Lemma strlcat_ok ds s fuel m d a n :
  d <> NULL -> bstr m d n ds -> cstr m a s -> 0 <= n ->
  mapped m (d + len ds) (Z.min (n - len ds) (len s + 1)) ->
  disjoint (d + len ds) (Z.min (n - len ds) (len s + 1)) a (len s + 1) ->
  (length ds < fuel)%nat -> (length s < fuel)%nat ->
  exists m', strlcat fuel m d a n = Ok (m', len ds + len s) /\
    (len ds = n /\ m' = m \/
     len ds < n /\ stored m m' (d + len ds) (firstn (Z.to_nat (n - len ds - 1)) s ++ [0])).
Proof.
  intros Hd0 Hds Hs Hn Hm Hdis Hf1 Hf2. unfold strlcat.
  rewrite (strnlen_ok ds) by assumption. cbn [bind]. pose proof (bstr_le _ _ _ _ Hds).
  destruct (strlcpy_ok s fuel m (d + len ds) a (n - len ds)) as [m' [E R]]; try assumption; [lia|].
  rewrite E. cbn [bind]. destruct (Z.gtb_spec (len ds) n); [lia|].
  exists m'. split; [f_equal; f_equal; lia|].
  destruct R as [[R1 R2]|[R1 R2]]; [left|right]; (split; [lia|exact R2]).
Qed.

(** ** strcmp / strncmp *)
Lemma strncmp_loop_ok l : forall k fuel m a b n i,
  bstr m (a + i) (n - i) l -> bstr m (b + i) (n - i) k -> (length l < fuel)%nat ->
  exists r, strncmp_loop fuel m a b n i = Ok r /\ sign_is r (lex l k).
Proof.
  induction l as [|x l IH]; intros k [|f] m a b n i Hl Hk Hf; cbn [length] in *; try lia; cbn [strncmp_loop].
  - apply bstr_nil in Hl. destruct (Z.ltb_spec i n).
    + destruct Hl as [Hl|[_ Hl]]; [lia|]. ldst. destruct k as [|y k].
      * apply bstr_nil in Hk. destruct Hk as [Hk|[_ Hk]]; [lia|]. ldst. cbn.
        exists 0. split; reflexivity.
      * apply bstr_cons in Hk. destruct Hk as [Hc [Hk _]]. ldst. rewrite orb_true_r.
        eexists. split; [reflexivity|]. cbn. unfold is_char in Hc. lia.
    + exists 0. split; [reflexivity|]. destruct k as [|y k]; [reflexivity|].
      apply bstr_le in Hk. rewrite len_cons in Hk. pose proof (len_nonneg k). lia.
  - pose proof (bstr_le _ _ _ _ Hl) as Hn. rewrite len_cons in Hn. pose proof (len_nonneg l).
    destruct (Z.ltb_spec i n); [|lia].
    apply bstr_cons in Hl. destruct Hl as [Hcx [Hx Hl]]. ldst.
    destruct k as [|y k].
    + apply bstr_nil in Hk. destruct Hk as [Hk|[_ Hk]]; [lia|]. ldst.
      unfold is_char in Hcx. destruct (Z.eqb_spec x 0); [lia|]. cbn.
      eexists. split; [reflexivity|]. cbn. lia.
    + apply bstr_cons in Hk. destruct Hk as [Hcy [Hy Hk]]. ldst.
      rewrite (char_neq0 x Hcx), orb_false_r.
      destruct (Z.eqb_spec x y) as [->|Hxy]; cbn [negb].
      * destruct (IH k f m a b n (i+1)) as [r [E S]]; try lia.
        -- replace (a + (i + 1)) with (a + i + 1) by lia. replace (n - (i + 1)) with (n - i - 1) by lia. exact Hl.
        -- replace (b + (i + 1)) with (b + i + 1) by lia. replace (n - (i + 1)) with (n - i - 1) by lia. exact Hk.
        -- exists r. split; [exact E|]. cbn. rewrite Z.compare_refl. exact S.
      * eexists. split; [reflexivity|]. apply sign_sub_lex. exact Hxy.
Qed.

Lemma strncmp_ok l k fuel m a b n :
  bstr m a n l -> bstr m b n k -> (length l < fuel)%nat ->
  exists r, strncmp fuel m a b n = Ok r /\ sign_is r (lex l k).
Proof.
  intros Hl Hk Hf. apply strncmp_loop_ok; rewrite ?Z.add_0_r, ?Z.sub_0_r; assumption.
Qed.

Lemma bstr_cstr m a s n : cstr m a s -> len s < n -> bstr m a n s.
Proof.
  intros Hs Hn. pose proof (cstr_end _ _ _ Hs). pose proof (cstr_bytes _ _ _ Hs).
  destruct Hs as [Hc _]. repeat split; auto.
Qed.

Lemma strcmp_ok l k fuel m a b :
  cstr m a l -> cstr m b k -> len l < USIZE_MAX -> len k < USIZE_MAX -> (length l < fuel)%nat ->
  exists r, strcmp fuel m a b = Ok r /\ sign_is r (lex l k).
Proof.
  intros Hl Hk L1 L2 Hf. apply strncmp_ok; try assumption; apply bstr_cstr; assumption.
Qed.

Lemma lex_eq_iff l k : lex l k = Eq <-> l = k.
Proof.
  revert k; induction l as [|a l IH]; intros [|b k]; cbn; try (split; congruence).
  destruct (Z.compare_spec a b) as [->|H|H].
  - rewrite IH. split; [intros ->; reflexivity|intros E; injection E; auto].
  - split; [discriminate|]. intros E. injection E as -> ->. lia.
  - split; [discriminate|]. intros E. injection E as -> ->. lia.
Qed.

Lemma lex_antisym l k : lex k l = CompOpp (lex l k).
Proof.
  revert k; induction l as [|a l IH]; intros [|b k]; cbn; try reflexivity.
  rewrite (Z.compare_antisym a b). destruct (a ?= b); cbn; auto.
Qed.

Lemma lex_trans l k j : lex l k <> Gt -> lex k j <> Gt -> lex l j <> Gt.
Proof.
  revert k j; induction l as [|a l IH]; intros [|b k] [|c j]; cbn; try congruence.
  destruct (Z.compare_spec a b), (Z.compare_spec b c), (Z.compare_spec a c); try congruence; try lia; subst.
  - apply IH.
Qed.

(** ** strchr, strchrnul, strrchr *)
Lemma strchr_loop_ok s : forall fuel m p c,
  cstr m p s -> (length s < fuel)%nat ->
  exists r, strchr_loop fuel m p c = Ok r /\ finds_first c (s ++ [0]) p r.
Proof.
  induction s as [|b s IH]; intros [|f] m p c Hs Hf; cbn [length] in *; try lia; cbn [strchr_loop].
  - apply cstr_nil in Hs. ldst. destruct (Z.eqb_spec 0 c) as [<-|Hc].
    + eexists. split; [reflexivity|]. right. exists 0%nat. split; [|lia].
      split; [reflexivity|]. intros; lia.
    + cbn. eexists. split; [reflexivity|]. left. split; [|reflexivity]. cbn. intuition.
  - apply cstr_cons in Hs. destruct Hs as [Hc [Hm Hs]]. ldst. rewrite (char_neq0 b Hc).
    destruct (Z.eqb_spec b c) as [->|Hbc].
    + eexists. split; [reflexivity|]. right. exists 0%nat. split; [|lia].
      split; [reflexivity|]. intros; lia.
    + destruct (IH f m (p+1) c Hs ltac:(lia)) as [r [E F]]. exists r. split; [exact E|].
      destruct F as [[F ->]|[i [[F1 F2] ->]]].
      * left. split; [|reflexivity]. cbn. intros [H|H]; [congruence|auto].
      * right. exists (S i). split; [|lia]. split; [exact F1|].
        intros [|j] Hj; cbn; [congruence|]. apply F2. lia.
Qed.

Lemma strchr_ok s fuel m p c :
  p <> NULL -> cstr m p s -> (length s < fuel)%nat ->
  exists r, strchr fuel m p c = Ok r /\ finds_first (c mod 256) (s ++ [0]) p r.
Proof.
  intros Hp Hs Hf. unfold strchr. rewrite (proj2 (Z.eqb_neq _ _) Hp). apply strchr_loop_ok; assumption.
Qed.

Lemma strchrnul_loop_ok s : forall fuel m p c,
  cstr m p s -> (length s < fuel)%nat ->
  exists r, strchrnul_loop fuel m p c = Ok r /\
    (~ In c (s ++ [0]) /\ r = p + len s \/ exists i, first_occ c (s ++ [0]) i /\ r = p + Z.of_nat i).
Proof.
  induction s as [|b s IH]; intros [|f] m p c Hs Hf; cbn [length] in *; try lia; cbn [strchrnul_loop].
  - apply cstr_nil in Hs. ldst. destruct (Z.eqb_spec 0 c) as [<-|Hc].
    + eexists. split; [reflexivity|]. right. exists 0%nat. split; [|lia].
      split; [reflexivity|]. intros; lia.
    + eexists. split; [reflexivity|]. left. split; [cbn; intuition|rewrite len_nil; lia].
  - apply cstr_cons in Hs. destruct Hs as [Hc [Hm Hs]]. ldst. rewrite (char_neq0 b Hc).
    destruct (Z.eqb_spec b c) as [->|Hbc].
    + eexists. split; [reflexivity|]. right. exists 0%nat. split; [|lia].
      split; [reflexivity|]. intros; lia.
    + destruct (IH f m (p+1) c Hs ltac:(lia)) as [r [E F]]. exists r. split; [exact E|].
      rewrite len_cons.
      destruct F as [[F ->]|[i [[F1 F2] ->]]].
      * left. split; [|lia]. cbn. intros [H|H]; [congruence|auto].
      * right. exists (S i). split; [|lia]. split; [exact F1|].
        intros [|j] Hj; cbn; [congruence|]. apply F2. lia.
Qed.

Lemma strrchr_loop_ok s : forall m p c, bytes_at m p s ->
  exists r, strrchr_loop (length s) m p c = Ok r /\ finds_last c s p r.
Proof.
  induction s as [|b s IH] using rev_ind; intros m p c Hb.
  - exists NULL. split; [reflexivity|]. left. auto.
  - rewrite app_length, Nat.add_comm. cbn [length Nat.add strrchr_loop].
    apply bytes_at_app in Hb. destruct Hb as [Hb [Hm _]]. unfold len in Hm. ldst.
    destruct (Z.eqb_spec b c) as [->|Hbc].
    + eexists. split; [reflexivity|]. right. exists (length s). split; [|reflexivity].
      split; [rewrite nth_error_app2, Nat.sub_diag by lia; reflexivity|].
      intros j Hj. assert (E : nth_error (s ++ [c]) j = None).
      { apply nth_error_None. rewrite app_length. cbn. lia. }
      congruence.
    + destruct (IH m p c Hb) as [r [E F]]. exists r. split; [exact E|].
      destruct F as [[F ->]|[i [[F1 F2] ->]]].
      * left. split; [|reflexivity]. rewrite in_app_iff. cbn. intuition.
      * right. exists i. split; [|reflexivity].
        assert (Hi : (i < length s)%nat) by (apply nth_error_Some; congruence).
        split; [rewrite nth_error_app1 by lia; exact F1|].
        intros j Hj. destruct (Nat.lt_ge_cases j (length s)).
        -- rewrite nth_error_app1 by lia. apply F2. exact Hj.
        -- rewrite nth_error_app2 by lia. destruct (j - length s)%nat as [|k]; cbn; [congruence|].
           destruct k; cbn; congruence.
Qed.

Lemma strrchr_ok s fuel m p c :
  p <> NULL -> cstr m p s -> (length s < fuel)%nat ->
  exists r, strrchr fuel m p c = Ok r /\ finds_last (c mod 256) s p r.
Proof.
  intros Hp Hs Hf. unfold strrchr. rewrite (strlen_ok s) by assumption. cbn [bind].
  unfold len. rewrite Nat2Z.id. apply strrchr_loop_ok. apply cstr_bytes. exact Hs.
Qed.

(** ** strspn and friends *)
Lemma bs_insert_spec s i j : 0 <= i -> 0 <= j ->
  bs_contains (bs_insert s i) j = bs_contains s j || (j =? i).
Proof.
  intros Hi Hj. unfold bs_contains, bs_insert. rewrite Z.lor_spec. f_equal.
  rewrite Z.shiftl_spec by lia. destruct (Z.eqb_spec j i) as [->|Hne].
  - rewrite Z.sub_diag. reflexivity.
  - destruct (Z_lt_dec j i).
    + apply Z.testbit_neg_r. lia.
    + apply Z.bits_above_log2; [lia|]. change (Z.log2 1) with 0. lia.
Qed.

Lemma span_set_ok D : forall fuel m p s,
  cstr m p D -> (length D < fuel)%nat ->
  exists s', span_set fuel m p s = Ok s' /\
    forall b, is_byte b -> bs_contains s' b = bs_contains s b || existsb (Z.eqb b) D.
Proof.
  induction D as [|d D IH]; intros [|f] m p s HD Hf; cbn [length] in *; try lia; cbn [span_set].
  - apply cstr_nil in HD. ldst. cbn. exists s. split; [reflexivity|]. intros. rewrite orb_false_r. reflexivity.
  - apply cstr_cons in HD. destruct HD as [Hc [Hm HD]]. ldst. rewrite (char_neq0 d Hc).
    destruct (IH f m (p+1) (bs_insert s d) HD ltac:(lia)) as [s' [E S]].
    exists s'. split; [exact E|]. intros b Hb. rewrite S by assumption.
    unfold is_char, is_byte in *. rewrite bs_insert_spec by lia. cbn. rewrite orb_assoc. reflexivity.
Qed.

Lemma existsb_eqb b D : existsb (Z.eqb b) D = true <-> In b D.
Proof.
  rewrite existsb_exists. split.
  - intros [x [H1 H2]]. apply Z.eqb_eq in H2. subst. exact H1.
  - intros H. exists b. split; [exact H|apply Z.eqb_refl].
Qed.

Lemma span_loop_ok D (cmp : bool) s : forall fuel m p set i,
  cstr m p s -> (forall b, is_byte b -> bs_contains set b = existsb (Z.eqb b) D) ->
  (length s < fuel)%nat ->
  exists pre post, s = pre ++ post /\ span_loop fuel m p set cmp i = Ok (i + len pre) /\
    Forall (fun b => if cmp then In b D else ~ In b D) pre /\
    match post with [] => True | b :: _ => if cmp then ~ In b D else In b D end.
Proof.
  induction s as [|c s IH]; intros [|f] m p set i Hs Hset Hf; cbn [length] in *; try lia; cbn [span_loop].
  - exists [], []. apply cstr_nil in Hs. ldst. rewrite len_nil, Z.add_0_r. repeat split; auto.
  - apply cstr_cons in Hs. destruct Hs as [Hc [Hm Hs]]. ldst. rewrite (char_neq0 c Hc).
    rewrite Hset by (unfold is_byte, is_char in *; lia).
    pose proof (existsb_eqb c D) as EX.
    destruct (Bool.eqb (existsb (Z.eqb c) D) cmp) eqn:E; cbn [negb].
    + apply Bool.eqb_prop in E.
      destruct (IH f m (p+1) set (i+1) Hs Hset ltac:(lia)) as [pre [post [-> [E1 [F P]]]]].
      exists (c :: pre), post. rewrite len_cons. split; [reflexivity|].
      split; [rewrite E1; f_equal; lia|]. split; [|exact P]. constructor; [|exact F].
      destruct cmp; [tauto|]. intros H. apply EX in H. congruence.
    + apply Bool.eqb_false_iff in E. exists [], (c :: s). rewrite len_nil, Z.add_0_r.
      repeat split; auto. destruct cmp.
      * intros H. apply EX in H. congruence.
      * apply EX. destruct (existsb (Z.eqb c) D); congruence.
Qed.

Lemma inner_strspn_ok D s (cmp : bool) fuel m p q :
  cstr m p s -> cstr m q D -> (length s < fuel)%nat -> (length D < fuel)%nat ->
  exists pre post, s = pre ++ post /\ inner_strspn fuel m p q cmp = Ok (len pre) /\
    Forall (fun b => if cmp then In b D else ~ In b D) pre /\
    match post with [] => True | b :: _ => if cmp then ~ In b D else In b D end.
Proof.
  intros Hs HD Hf1 Hf2. unfold inner_strspn.
  destruct (span_set_ok D fuel m q bs_empty HD Hf2) as [set [E S]]. rewrite E. cbn [bind].
  destruct (span_loop_ok D cmp s fuel m p set 0 Hs) as [pre [post [-> [E1 [F P]]]]].
  - intros b Hb. rewrite S by assumption. unfold bs_contains, bs_empty. rewrite Z.testbit_0_l. reflexivity.
  - exact Hf1.
  - exists pre, post. rewrite E1, Z.add_0_l. auto.
Qed.

Lemma strspn_ok D s fuel m p q :
  cstr m p s -> cstr m q D -> (length s < fuel)%nat -> (length D < fuel)%nat ->
  exists n, strspn fuel m p q = Ok n /\ longest_prefix (fun b => In b D) s n.
Proof.
  intros Hs HD Hf1 Hf2.
  destruct (inner_strspn_ok D s true fuel m p q Hs HD Hf1 Hf2) as [pre [post [-> [E [F P]]]]].
  exists (len pre). split; [exact E|]. exists pre, post. auto.
Qed.

Lemma strcspn_ok D s fuel m p q :
  cstr m p s -> cstr m q D -> (length s < fuel)%nat -> (length D < fuel)%nat ->
  exists n, strcspn fuel m p q = Ok n /\ longest_prefix (fun b => ~ In b D) s n.
Proof.
  intros Hs HD Hf1 Hf2.
  destruct (inner_strspn_ok D s false fuel m p q Hs HD Hf1 Hf2) as [pre [post [-> [E [F P]]]]].
  exists (len pre). split; [exact E|]. exists pre, post. repeat split; auto.
  destruct post; [exact I|]. auto.
Qed.

Lemma strpbrk_aux D s fuel m p q :
  cstr m p s -> cstr m q D -> (length s < fuel)%nat -> (length D < fuel)%nat ->
  exists pre post, s = pre ++ post /\ Forall (fun b => ~ In b D) pre /\
    match post with
    | [] => strpbrk fuel m p q = Ok NULL
    | b :: _ => In b D /\ strpbrk fuel m p q = Ok (p + len pre)
    end.
Proof.
  intros Hs HD Hf1 Hf2. unfold strpbrk, strcspn.
  destruct (inner_strspn_ok D s false fuel m p q Hs HD Hf1 Hf2) as [pre [post [-> [E [F P]]]]].
  exists pre, post. split; [reflexivity|]. split; [exact F|]. rewrite E. cbn [bind].
  assert (Fp : Forall is_char pre) by (destruct Hs as [H _]; apply Forall_app in H; tauto).
  apply (cstr_app m p pre post Fp) in Hs. destruct Hs as [_ Hs].
  destruct post as [|b post].
  - apply cstr_nil in Hs. ldst. reflexivity.
  - apply cstr_cons in Hs. destruct Hs as [Hc [Hm _]]. ldst. rewrite (char_neq0 b Hc). auto.
Qed.
