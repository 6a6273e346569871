From Verif Require Import Base String_model String_spec String_proofs String_proofs2 Wcs_model Wcs_spec.

(* ---- wide strings ---- *)
Lemma nz_eqb c : nz c -> (c =? 0) = false.
Proof. unfold nz. intros H. apply Z.eqb_neq. exact H. Qed.
Lemma wstr_nil m a : wstr m a [] <-> m a = Some 0.
Proof. unfold wstr. cbn. intuition. Qed.
Lemma wstr_cons m a c s : wstr m a (c :: s) <-> nz c /\ m a = Some c /\ wstr m (a + 1) s.
Proof.
  unfold wstr. cbn [app bytes_at]. split.
  - intros [H1 [H2 H3]]. inversion H1; subst. auto.
  - intros [H1 [H2 [H3 H4]]]. auto.
Qed.
Lemma wstr_app m a s t : Forall nz s -> (wstr m a (s ++ t) <-> bytes_at m a s /\ wstr m (a + len s) t).
Proof. intros Hs. unfold wstr. rewrite Forall_app, <- app_assoc, bytes_at_app. tauto. Qed.
Lemma wstr_end m a s : wstr m a s -> m (a + len s) = Some 0.
Proof. intros [_ H]. apply bytes_at_app in H. destruct H as [_ [H _]]. exact H. Qed.
Lemma wstr_bytes m a s : wstr m a s -> bytes_at m a s.
Proof. intros [_ H]. apply bytes_at_app in H. tauto. Qed.
Lemma wstr_ext m m' a s : (forall x, a <= x <= a + len s -> m' x = m x) -> wstr m a s -> wstr m' a s.
Proof.
  intros He [H1 H2]. split; [exact H1|]. eapply bytes_at_ext; [|exact H2].
  intros x Hx. apply He. rewrite len_app, len_cons, len_nil in Hx. lia.
Qed.
Lemma wbstr_nil m a n : wbstr m a n [] -> n = 0 \/ 0 < n /\ m a = Some 0.
Proof. intros (_ & _ & H). rewrite len_nil, Z.add_0_r in H. intuition. Qed.
Lemma wbstr_cons m a n c l : wbstr m a n (c :: l) -> nz c /\ m a = Some c /\ 0 < n /\ wbstr m (a + 1) (n - 1) l.
Proof.
  intros (F & [B0 B] & H). rewrite len_cons in H. pose proof (len_nonneg l).
  split; [exact (Forall_inv F)|]. split; [exact B0|]. split; [lia|].
  split; [exact (Forall_inv_tail F)|]. split; [exact B|]. destruct H as [H|[H E]]; [left; lia|right; split; [lia|]].
  replace (a + 1 + len l) with (a + (len l + 1)) by lia. exact E.
Qed.
Lemma wbstr_ext m m' a n l : (forall x, a <= x < a + Z.min n (len l + 1) -> m' x = m x) -> wbstr m a n l -> wbstr m' a n l.
Proof.
  intros He (F & B & H). split; [exact F|]. split.
  - eapply bytes_at_ext; [|exact B]. intros x Hx. apply He. lia.
  - destruct H as [H|[H E]]; [left; exact H|right; split; [exact H|]]. pose proof (len_nonneg l). rewrite He by lia. exact E.
Qed.
Lemma wstr_wbstr m a s n : wstr m a s -> len s < n -> wbstr m a n s.
Proof. intros H L. split; [apply H|]. split; [apply wstr_bytes, H|]. right. split; [exact L|]. apply wstr_end, H. Qed.
Lemma wbstr_of_wstr m a s n : wstr m a s -> 0 <= n -> wbstr m a n (firstn (Z.to_nat n) s).
Proof.
  intros [F B] N. pose proof (firstn_skipn (Z.to_nat n) s) as E.
  assert (Forall nz (firstn (Z.to_nat n) s)) by (rewrite <- E in F; apply Forall_app in F; tauto).
  split; auto. apply bytes_at_app in B. destruct B as [B1 [B2 _]]. split.
  - rewrite <- E in B1. apply bytes_at_app in B1. tauto.
  - unfold len in *. rewrite firstn_length. destruct (Nat.le_gt_cases (length s) (Z.to_nat n)) as [L|L].
    + rewrite Nat.min_r by lia. destruct (Z.eq_dec (Z.of_nat (length s)) n); [left; auto|right; split; [lia|]]. exact B2.
    + left. rewrite Nat.min_l by lia. lia.
Qed.

(* ---- lengths ---- *)
Lemma wcount_ok s : forall fuel m a i, wstr m a s -> (length s < fuel)%nat -> count_nul fuel m a i = Ok (i + len s).
Proof.
  induction s as [|c s IH]; intros [|f] m a i H F; cbn [length] in F; try lia; cbn [count_nul].
  - apply wstr_nil in H. ldst. rewrite len_nil. cbn. f_equal. lia.
  - apply wstr_cons in H. destruct H as (N & H0 & H). ldst. rewrite (nz_eqb c N), (IH f m (a + 1) (i + 1) H) by lia.
    rewrite len_cons. f_equal. lia.
Qed.
Lemma wcslen_ok s fuel m a : a <> NULL -> wstr m a s -> (length s < fuel)%nat -> wcslen fuel m a = Ok (len s).
Proof. intros N H F. unfold wcslen. rewrite (proj2 (Z.eqb_neq a NULL) N), (wcount_ok s) by assumption. reflexivity. Qed.
Lemma wcsnlen_loop_ok l : forall fuel m a n i, wbstr m a (n - i) l -> (length l < fuel)%nat ->
  wcsnlen_loop fuel m a n i = Ok (i + len l).
Proof.
  induction l as [|c l IH]; intros [|f] m a n i H F; cbn [length] in F; try lia; cbn [wcsnlen_loop].
  - apply wbstr_nil in H. rewrite len_nil, Z.add_0_r. destruct (Z.ltb_spec i n); [|reflexivity].
    destruct H as [H|[_ H]]; [lia|]. ldst. reflexivity.
  - apply wbstr_cons in H. destruct H as (N & H0 & P & H). destruct (Z.ltb_spec i n); [|lia]. ldst. rewrite (nz_eqb c N).
    rewrite (IH f m (a + 1) n (i + 1)) by (try lia; replace (n - (i + 1)) with (n - i - 1) by lia; exact H).
    rewrite len_cons. f_equal. lia.
Qed.
Lemma wcsnlen_ok l fuel m a n : wbstr m a n l -> (length l < fuel)%nat -> wcsnlen fuel m a n = Ok (len l).
Proof. intros H F. unfold wcsnlen. rewrite (wcsnlen_loop_ok l) by (try assumption; rewrite Z.sub_0_r; exact H). reflexivity. Qed.

(* ---- searching ---- *)
Lemma first_occ_S c x l i : x <> c -> first_occ c l i -> first_occ c (x :: l) (S i).
Proof.
  intros N [H1 H2]. split; [exact H1|]. intros [|j] L; cbn; [congruence|]. apply H2. lia.
Qed.
Lemma finds_first_cons c x l a p : x <> c -> finds_first c l (a + 1) p -> finds_first c (x :: l) a p.
Proof.
  intros N [[H ->]|(i & H & ->)]; [left; cbn; tauto|right]. exists (S i). split; [apply first_occ_S; auto|lia].
Qed.
Lemma wcschr_loop_ok s : forall fuel m a c, wstr m a s -> (length s < fuel)%nat ->
  exists p, wcschr_loop fuel m a c = Ok p /\ finds_first c (s ++ [0]) a p.
Proof.
  induction s as [|x s IH]; intros [|f] m a c H F; cbn [length] in F; try lia; cbn [wcschr_loop app].
  - apply wstr_nil in H. ldst. destruct (Z.eqb_spec 0 c) as [<-|N].
    + exists a. split; [reflexivity|]. right. exists O. split; [|lia]. split; [reflexivity|]. intros; lia.
    + exists NULL. split; [reflexivity|]. left. cbn. intuition.
  - apply wstr_cons in H. destruct H as (N & H0 & H). ldst. destruct (Z.eqb_spec x c) as [->|NE].
    + exists a. split; [reflexivity|]. right. exists O. split; [|lia]. split; [reflexivity|]. intros; lia.
    + rewrite (nz_eqb x N). destruct (IH f m (a + 1) c H) as (p & E & P); [lia|]. exists p. split; [exact E|].
      apply finds_first_cons; auto.
Qed.
Lemma wcschr_ok s fuel m a c : a <> NULL -> wstr m a s -> (length s < fuel)%nat ->
  exists p, wcschr fuel m a c = Ok p /\ finds_first c (s ++ [0]) a p.
Proof. intros N H F. unfold wcschr. rewrite (proj2 (Z.eqb_neq a NULL) N). apply wcschr_loop_ok; assumption. Qed.

Lemma wcsrchr_loop_ok s : forall pre fuel m a c last, wstr m (a + len pre) s -> (length s < fuel)%nat ->
  finds_last c pre a last -> exists p, wcsrchr_loop fuel m a c (len pre) last = Ok p /\ finds_last c (pre ++ s) a p.
Proof.
  induction s as [|x s IH]; intros pre [|f] m a c last H F L; cbn [length] in F; try lia; cbn [wcsrchr_loop].
  - apply wstr_nil in H. ldst. exists last. rewrite app_nil_r. auto.
  - apply wstr_cons in H. destruct H as (N & H0 & H). ldst. rewrite (nz_eqb x N).
    replace (len pre + 1) with (len (pre ++ [x])) by (rewrite len_app, len_cons, len_nil; lia).
    destruct (IH (pre ++ [x]) f m a c (if x =? c then a + len pre else last)) as (p & E & P).
    + rewrite len_app, len_cons, len_nil. replace (a + (len pre + (0 + 1))) with (a + len pre + 1) by lia. exact H.
    + lia.
    + destruct (Z.eqb_spec x c) as [->|NE]; [|apply finds_last_snoc; auto].
      right. exists (length pre). split; [|unfold len; lia]. split.
      * rewrite nth_error_app2 by lia. rewrite Nat.sub_diag. reflexivity.
      * intros j Lj. rewrite nth_error_app2 by lia. destruct (j - length pre)%nat as [|k] eqn:Ej; [lia|]. destruct k; discriminate.
    + exists p. split; [exact E|]. rewrite <- app_assoc in P. exact P.
Qed.
Lemma wcsrchr_ok s fuel m a c : c <> 0 -> wstr m a s -> (length s < fuel)%nat ->
  exists p, wcsrchr fuel m a c = Ok p /\ finds_last c (s ++ [0]) a p.
Proof.
  intros N H F. destruct (wcsrchr_loop_ok s [] fuel m a c NULL) as (p & E & P).
  - rewrite len_nil, Z.add_0_r. exact H.
  - exact F.
  - left. cbn. auto.
  - exists p. split; [exact E|]. apply finds_last_snoc; auto.
Qed.

(* ---- copying ---- *)
Lemma wcscpy_loop_ok s : forall fuel m d a i,
  wstr m (a + i) s -> mapped m (d + i) (len s + 1) -> disjoint (d + i) (len s + 1) (a + i) (len s + 1) -> (length s < fuel)%nat ->
  exists m', wcscpy_loop fuel m d a i = Ok m' /\ stored m m' (d + i) (s ++ [0]).
Proof.
  induction s as [|c s IH]; intros [|f] m d a i H M D F; cbn [length] in F; try lia; cbn [wcscpy_loop].
  - apply wstr_nil in H. ldst. rewrite len_nil in *. rewrite st_ok by (apply M; lia). cbn [bind]. eexists. split; [reflexivity|].
    apply stored_cons, stored_nil.
  - apply wstr_cons in H. destruct H as (N & H0 & H). ldst. rewrite len_cons in *. pose proof (len_nonneg s).
    rewrite st_ok by (apply M; lia). cbn [bind]. rewrite (nz_eqb c N).
    destruct (IH f (upd m (d + i) c) d a (i + 1)) as (m' & E & S1).
    + rewrite Z.add_assoc. eapply wstr_ext; [|exact H]. intros x Hx. apply upd_other. unfold disjoint in D. lia.
    + apply mapped_upd. eapply mapped_sub; [exact M|lia|lia].
    + unfold disjoint in *. lia.
    + lia.
    + exists m'. split; [exact E|]. cbn [app]. apply stored_cons. rewrite <- Z.add_assoc. exact S1.
Qed.
Lemma wcscpy_ok s fuel m d a :
  wstr m a s -> mapped m d (len s + 1) -> disjoint d (len s + 1) a (len s + 1) -> (length s < fuel)%nat ->
  exists m', wcscpy fuel m d a = Ok (m', d) /\ stored m m' d (s ++ [0]).
Proof.
  intros H M D F. unfold wcscpy. destruct (wcscpy_loop_ok s fuel m d a 0) as (m' & E & S1); rewrite ?Z.add_0_r; auto.
  rewrite E. cbn [bind]. rewrite Z.add_0_r in S1. eauto.
Qed.
Lemma stored_wstr m m' d l a s : stored m m' d l -> disjoint d (len l) a (len s + 1) -> wstr m a s -> wstr m' a s.
Proof. intros [_ S2] D H. eapply wstr_ext; [|exact H]. intros x Hx. apply S2. unfold disjoint in D. lia. Qed.
Lemma wcpcpy_ok s fuel m d a : a <> NULL ->
  wstr m a s -> mapped m d (len s + 1) -> disjoint d (len s + 1) a (len s + 1) -> (length s < fuel)%nat ->
  exists m', wcpcpy fuel m d a = Ok (m', d + len s) /\ stored m m' d (s ++ [0]).
Proof.
  intros N H M D F. unfold wcpcpy. destruct (wcscpy_ok s fuel m d a H M D F) as (m' & E & S1). rewrite E. cbn [bind].
  rewrite (wcslen_ok s fuel m' a N); [|eapply stored_wstr; [exact S1| |exact H]; rewrite len_app, len_cons, len_nil; exact D|exact F].
  cbn [bind]. eauto.
Qed.

Lemma wcsncpy_loop_ok l : forall fuel m d a n i,
  wbstr m (a + i) (n - i) l -> mapped m (d + i) (n - i) -> disjoint (d + i) (n - i) (a + i) (Z.min (n - i) (len l + 1)) ->
  (length l < fuel)%nat ->
  exists m' k, wcsncpy_loop fuel m d a n i = Ok (m', i + k) /\ i + k <= n /\
    stored m m' (d + i) (l ++ repeat 0 (Z.to_nat (k - len l))) /\ len l <= k.
Proof.
  induction l as [|c l IH]; intros [|f] m d a n i H M D F; cbn [length] in F; try lia; cbn [wcsncpy_loop].
  - apply wbstr_nil in H. destruct (Z.ltb_spec i n) as [L|L].
    + destruct H as [H|[_ H]]; [lia|]. ldst. rewrite st_ok by (apply M; lia). cbn [bind]. change (0 =? 0) with true. cbv iota.
      exists (upd m (d + i) 0), 1. rewrite len_nil. split; [reflexivity|]. split; [lia|]. split; [|lia].
      cbn [app]. change (Z.to_nat (1 - 0)) with 1%nat. cbn [repeat]. apply stored_cons, stored_nil.
    + exists m, 0. rewrite len_nil, Z.add_0_r. split; [reflexivity|]. split; [lia|]. split; [apply stored_nil|lia].
  - apply wbstr_cons in H. destruct H as (N & H0 & P & H). rewrite len_cons in *. pose proof (len_nonneg l).
    destruct (Z.ltb_spec i n) as [L|L]; [|lia]. ldst. rewrite st_ok by (apply M; lia). cbn [bind]. rewrite (nz_eqb c N).
    destruct (IH f (upd m (d + i) c) d a n (i + 1)) as (m' & k & E & K1 & S1 & K2).
    + rewrite Z.add_assoc. replace (n - (i + 1)) with (n - i - 1) by lia. eapply wbstr_ext; [|exact H].
      intros x Hx. apply upd_other. unfold disjoint in D. lia.
    + apply mapped_upd. eapply mapped_sub; [exact M|lia|lia].
    + unfold disjoint in *. lia.
    + lia.
    + exists m', (k + 1). rewrite E. split; [f_equal; f_equal; lia|]. split; [lia|]. split; [|lia].
      cbn [app]. apply stored_cons. rewrite <- Z.add_assoc. replace (k + 1 - (len l + 1)) with (k - len l) by lia. exact S1.
Qed.
Lemma wcsncpy_ok l fuel m d a n :
  wbstr m a n l -> mapped m d n -> disjoint d n a (Z.min n (len l + 1)) -> (length l < fuel)%nat ->
  exists m', wcsncpy fuel m d a n = Ok (m', d) /\ stored m m' d (l ++ repeat 0 (Z.to_nat (n - len l))).
Proof.
  intros H M D F. unfold wcsncpy.
  destruct (wcsncpy_loop_ok l fuel m d a n 0) as (m1 & k & E & K1 & S1 & K2); rewrite ?Z.add_0_r, ?Z.sub_0_r; auto.
  rewrite E. cbn [bind]. rewrite Z.add_0_l in *. rewrite Z.add_0_r in S1. pose proof (len_nonneg l).
  destruct (fill_ok (Z.to_nat (n - k)) m1 (d + k) 0) as (m2 & E2 & S2).
  { eapply stored_mapped; [exact S1|]. eapply mapped_sub; [exact M|lia|lia]. }
  rewrite E2. cbn [bind]. exists m2. split; [reflexivity|].
  replace (Z.to_nat (n - len l)) with (Z.to_nat (k - len l) + Z.to_nat (n - k))%nat by lia.
  rewrite repeat_app, app_assoc. eapply stored_app; [exact S1|].
  rewrite len_app. unfold len at 2. rewrite repeat_length. replace (d + (len l + Z.of_nat (Z.to_nat (k - len l)))) with (d + k) by lia.
  exact S2.
Qed.
Lemma wcpncpy_ok l fuel m d a n :
  wbstr m a n l -> mapped m d n -> disjoint d n a (Z.min n (len l + 1)) -> (length l < fuel)%nat ->
  exists m', wcpncpy fuel m d a n = Ok (m', d + len l) /\ stored m m' d (l ++ repeat 0 (Z.to_nat (n - len l))).
Proof.
  intros H M D F. unfold wcpncpy. destruct (wcsncpy_ok l fuel m d a n H M D F) as (m' & E & S1). rewrite E. cbn [bind].
  assert (NN : len l <= n) by (destruct H as (_ & _ & H); lia). pose proof (len_nonneg l).
  rewrite (wcsnlen_ok l); auto; [cbn [bind]; eauto|].
  eapply wbstr_ext; [|exact H]. destruct S1 as [_ S2]. intros x Hx. apply S2. rewrite len_app. unfold len at 2. rewrite repeat_length.
  unfold disjoint in D. lia.
Qed.

Lemma wcsncat_loop_ok l : forall fuel m d a n i,
  wbstr m (a + i) (n - i) l -> mapped m (d + i) (len l) -> disjoint (d + i) (len l) (a + i) (Z.min (n - i) (len l + 1)) ->
  (length l < fuel)%nat ->
  exists m', wcsncat_loop fuel m d a n i = Ok (m', i + len l) /\ stored m m' (d + i) l.
Proof.
  induction l as [|c l IH]; intros [|f] m d a n i H M D F; cbn [length] in F; try lia; cbn [wcsncat_loop].
  - apply wbstr_nil in H. rewrite len_nil, Z.add_0_r. destruct (Z.ltb_spec i n) as [L|L].
    + destruct H as [H|[_ H]]; [lia|]. ldst. exists m. split; [reflexivity|apply stored_nil].
    + exists m. split; [reflexivity|apply stored_nil].
  - apply wbstr_cons in H. destruct H as (N & H0 & P & H). rewrite len_cons in *. pose proof (len_nonneg l).
    destruct (Z.ltb_spec i n) as [L|L]; [|lia]. ldst. rewrite (nz_eqb c N). rewrite st_ok by (apply M; lia). cbn [bind].
    destruct (IH f (upd m (d + i) c) d a n (i + 1)) as (m' & E & S1).
    + rewrite Z.add_assoc. replace (n - (i + 1)) with (n - i - 1) by lia. eapply wbstr_ext; [|exact H].
      intros x Hx. apply upd_other. unfold disjoint in D. lia.
    + apply mapped_upd. eapply mapped_sub; [exact M|lia|lia].
    + unfold disjoint in *. lia.
    + lia.
    + exists m'. rewrite E. split; [f_equal; f_equal; lia|]. apply stored_cons. rewrite <- Z.add_assoc. exact S1.
Qed.
Lemma wcsncat_ok ds l fuel m d a n : d <> NULL ->
  wstr m d ds -> wbstr m a n l -> mapped m (d + len ds) (len l + 1) ->
  disjoint (d + len ds) (len l + 1) a (Z.min n (len l + 1)) -> (length ds < fuel)%nat -> (length l < fuel)%nat ->
  exists m', wcsncat fuel m d a n = Ok (m', d) /\ stored m m' (d + len ds) (l ++ [0]).
Proof.
  intros N Hd H M D F1 F2. unfold wcsncat. rewrite (wcslen_ok ds) by assumption. cbn [bind]. pose proof (len_nonneg l).
  destruct (wcsncat_loop_ok l fuel m (d + len ds) a n 0) as (m1 & E & S1); rewrite ?Z.add_0_r, ?Z.sub_0_r; auto.
  - eapply mapped_sub; [exact M|lia|lia].
  - unfold disjoint in *. lia.
  - rewrite E. cbn [bind]. rewrite Z.add_0_r in S1. rewrite Z.add_0_l.
    rewrite st_ok. 2:{ eapply stored_mapped; [exact S1|exact M|]. lia. }
    cbn [bind]. eexists. split; [reflexivity|]. eapply stored_snoc; [exact S1|reflexivity].
Qed.
Lemma wcscat_ok ds s fuel m d a : d <> NULL -> len s < USIZE_MAX ->
  wstr m d ds -> wstr m a s -> mapped m (d + len ds) (len s + 1) ->
  disjoint (d + len ds) (len s + 1) a (len s + 1) -> (length ds < fuel)%nat -> (length s < fuel)%nat ->
  exists m', wcscat fuel m d a = Ok (m', d) /\ stored m m' (d + len ds) (s ++ [0]).
Proof.
  intros N L Hd H M D F1 F2. unfold wcscat. apply (wcsncat_ok ds s); auto using wstr_wbstr.
  unfold disjoint in *. lia.
Qed.

(* ---- comparing ---- *)
Lemma diff_sign c d : 0 <= c < 2 ^ 31 -> 0 <= d < 2 ^ 31 -> to_i32 (c - d) = c - d.
Proof. intros Hc Hd. unfold to_i32. rewrite Z.mod_small; lia. Qed.
Lemma wcsncmp_loop_ok l : forall k fuel m a b n i, wchars l -> wchars k ->
  wbstr m (a + i) (n - i) l -> wbstr m (b + i) (n - i) k -> (length l < fuel)%nat ->
  exists r, wcsncmp_loop fuel m a b n i = Ok r /\ sign_is r (lex l k).
Proof.
  induction l as [|c l IH]; intros k [|f] m a b n i Wl Wk Hl Hk F; cbn [length] in F; try lia; cbn [wcsncmp_loop].
  - apply wbstr_nil in Hl. destruct k as [|d k].
    + apply wbstr_nil in Hk. destruct (Z.ltb_spec i n) as [L|L]; [|eexists; split; [reflexivity|reflexivity]].
      destruct Hl as [Hl|[_ Hl]]; [lia|]. destruct Hk as [Hk|[_ Hk]]; [lia|]. ldst. eexists; split; reflexivity.
    + apply wbstr_cons in Hk. destruct Hk as (N & Hd & P & Hk). destruct (Z.ltb_spec i n) as [L|L]; [|lia].
      destruct Hl as [Hl|[_ Hl]]; [lia|]. ldst. pose proof (Forall_inv Wk) as Wd. cbn beta in Wd. unfold nz in N.
      destruct (Z.eqb_spec 0 d); [lia|]. cbn [negb]. eexists. split; [reflexivity|]. rewrite diff_sign by lia. cbn. lia.
  - apply wbstr_cons in Hl. destruct Hl as (N & Hc & P & Hl). destruct (Z.ltb_spec i n) as [L|L]; [|lia].
    pose proof (Forall_inv Wl) as Wc. cbn beta in Wc. destruct k as [|d k].
    + apply wbstr_nil in Hk. destruct Hk as [Hk|[_ Hk]]; [lia|]. ldst. unfold nz in N.
      destruct (Z.eqb_spec c 0); [lia|]. cbn [negb]. eexists. split; [reflexivity|]. rewrite diff_sign by lia. cbn. lia.
    + apply wbstr_cons in Hk. destruct Hk as (N' & Hd & P' & Hk). ldst. pose proof (Forall_inv Wk) as Wd. cbn beta in Wd.
      cbn [lex]. destruct (Z.eqb_spec c d) as [->|NE]; cbn [negb].
      * rewrite (nz_eqb d N), Z.compare_refl. apply IH; [exact (Forall_inv_tail Wl)|exact (Forall_inv_tail Wk)| | |lia];
          rewrite Z.add_assoc; replace (n - (i + 1)) with (n - i - 1) by lia; assumption.
      * eexists. split; [reflexivity|]. rewrite diff_sign by lia. destruct (Z.compare_spec c d); cbn; lia.
Qed.
Lemma wcsncmp_ok l k fuel m a b n : wchars l -> wchars k -> wbstr m a n l -> wbstr m b n k -> (length l < fuel)%nat ->
  exists r, wcsncmp fuel m a b n = Ok r /\ sign_is r (lex l k).
Proof. intros Wl Wk Hl Hk F. apply wcsncmp_loop_ok; rewrite ?Z.add_0_r, ?Z.sub_0_r; auto. Qed.
Lemma wcscmp_ok l k fuel m a b : wchars l -> wchars k -> wstr m a l -> wstr m b k ->
  len l < USIZE_MAX -> len k < USIZE_MAX -> (length l < fuel)%nat ->
  exists r, wcscmp fuel m a b = Ok r /\ sign_is r (lex l k).
Proof. intros. apply wcsncmp_ok; auto using wstr_wbstr. Qed.
Lemma wmemcmp_ok l : forall k m a b n, wchars l -> wchars k -> len l = n -> len k = n -> bytes_at m a l -> bytes_at m b k ->
  exists r, wmemcmp m a b n = Ok r /\ sign_is r (lex l k).
Proof.
  unfold wmemcmp. induction l as [|c l IH]; intros k m a b n Wl Wk Ll Lk Bl Bk.
  - rewrite len_nil in Ll. subst n. destruct k; [|rewrite len_cons in Lk; pose proof (len_nonneg k); lia]. exists 0. split; reflexivity.
  - destruct k as [|d k]; [rewrite len_cons in Ll; rewrite len_nil in Lk; pose proof (len_nonneg l); lia|].
    rewrite len_cons in *. pose proof (len_nonneg l). replace (Z.to_nat n) with (S (Z.to_nat (n - 1))) by lia. cbn [wmemcmp_loop].
    destruct Bl as [B0 Bl]. destruct Bk as [B1 Bk]. ldst.
    pose proof (Forall_inv Wl) as Wc. pose proof (Forall_inv Wk) as Wd. cbn beta in Wc, Wd.
    cbn [lex]. destruct (Z.eqb_spec c d) as [->|NE]; cbn [negb].
    + rewrite Z.compare_refl. apply IH; auto; try lia; [exact (Forall_inv_tail Wl)|exact (Forall_inv_tail Wk)].
    + eexists. split; [reflexivity|]. rewrite diff_sign by lia. destruct (Z.compare_spec c d); cbn; lia.
Qed.
Lemma wmemchr_ok l : forall m a c, bytes_at m a l -> exists p, wmemchr m a c (len l) = Ok p /\ finds_first c l a p.
Proof.
  unfold wmemchr. induction l as [|x l IH]; intros m a c B.
  - exists NULL. split; [reflexivity|left; auto].
  - destruct B as [B0 B]. rewrite len_cons. pose proof (len_nonneg l). replace (Z.to_nat (len l + 1)) with (S (Z.to_nat (len l))) by lia.
    cbn [wmemchr_loop]. ldst. destruct (Z.eqb_spec x c) as [->|N].
    + exists a. split; [reflexivity|]. right. exists O. split; [|lia]. split; [reflexivity|]. intros; lia.
    + destruct (IH m (a + 1) c B) as (p & E & P). exists p. split; [exact E|]. apply finds_first_cons; auto.
Qed.
Lemma cells_id n : 0 <= n < 2 ^ 62 -> cells n = n.
Proof. intros H. unfold cells. rewrite Z.mod_small by lia. apply Z.div_mul. lia. Qed.
Lemma wmemcpy_ok l m d s : len l < 2 ^ 62 -> bytes_at m s l -> mapped m d (len l) -> disjoint d (len l) s (len l) ->
  exists m', wmemcpy m d s (len l) = Ok (m', d) /\ stored m m' d l.
Proof. intros L. unfold wmemcpy. rewrite cells_id by (pose proof (len_nonneg l); lia). apply memcpy_ok. Qed.
Lemma wmemmove_ok l m d s : len l < 2 ^ 62 -> bytes_at m s l -> mapped m d (len l) ->
  exists m', wmemmove m d s (len l) = Ok (m', d) /\ stored m m' d l.
Proof. intros L. unfold wmemmove. rewrite cells_id by (pose proof (len_nonneg l); lia). apply memmove_ok. Qed.
Lemma wmemset_ok m d c n : 0 <= n -> mapped m d n -> exists m', wmemset m d c n = Ok (m', d) /\ stored m m' d (repeat c (Z.to_nat n)).
Proof.
  intros N M. unfold wmemset. destruct (fill_ok (Z.to_nat n) m d c) as (m' & E & S1); [rewrite Z2Nat.id by lia; exact M|].
  rewrite E. cbn [bind]. eauto.
Qed.

(* ---- sets of characters ---- *)
Lemma in_set_ok D fuel m q c : 0 < q -> nz c -> wstr m q D -> (length D < fuel)%nat ->
  exists p, wcschr fuel m q c = Ok p /\ ((p =? NULL) = false <-> In c D).
Proof.
  intros Q N H F. destruct (wcschr_ok D fuel m q c) as (p & E & P); auto; [unfold NULL; lia|]. exists p. split; [exact E|].
  destruct P as [[P ->]|(i & [P _] & ->)].
  - cbn. split; [discriminate|]. intros I. exfalso. apply P. apply in_or_app. auto.
  - assert (I : In c (D ++ [0])) by (eapply nth_error_In; exact P). apply in_app_or in I. unfold nz in N. cbn in I.
    destruct (Z.eqb_spec (q + Z.of_nat i) NULL) as [E0|E0]; [unfold NULL in E0; lia|]. intuition congruence.
Qed.
Lemma wspn_ok D s : forall fuel ifuel m a q reject count, 0 < q -> wstr m a s -> wstr m q D ->
  (length s < fuel)%nat -> (length D < ifuel)%nat ->
  exists pre post, s = pre ++ post /\ inner_wcsspn fuel ifuel m a q reject count = Ok (count + len pre) /\
    Forall (fun c => if reject then ~ In c D else In c D) pre /\
    match post with [] => True | c :: _ => if reject then In c D else ~ In c D end.
Proof.
  induction s as [|c s IH]; intros [|f] ifuel m a q reject count Q Hs HD F1 F2; cbn [length] in F1; try lia; cbn [inner_wcsspn].
  - apply wstr_nil in Hs. ldst. exists [], []. rewrite len_nil. cbn. rewrite Z.add_0_r. auto.
  - apply wstr_cons in Hs. destruct Hs as (N & H0 & Hs). ldst. rewrite (nz_eqb c N).
    destruct (in_set_ok D ifuel m q c Q N HD F2) as (p & E & I). rewrite E. cbn [bind].
    destruct (p =? NULL) eqn:EP, reject; cbn [eqb].
    + destruct (IH f ifuel m (a + 1) q true (count + 1) Q Hs HD) as (pre & post & -> & E1 & F & P); try lia.
      exists (c :: pre), post. rewrite E1, len_cons. split; [reflexivity|]. split; [f_equal; lia|]. split; [|exact P].
      constructor; auto. intros X. apply I in X. discriminate.
    + exists [], (c :: s). rewrite len_nil, Z.add_0_r. split; [reflexivity|]. split; [reflexivity|]. split; [constructor|].
      intros X. apply I in X. discriminate.
    + exists [], (c :: s). rewrite len_nil, Z.add_0_r. split; [reflexivity|]. split; [reflexivity|]. split; [constructor|].
      apply I. reflexivity.
    + destruct (IH f ifuel m (a + 1) q false (count + 1) Q Hs HD) as (pre & post & -> & E1 & F & P); try lia.
      exists (c :: pre), post. rewrite E1, len_cons. split; [reflexivity|]. split; [f_equal; lia|]. split; [|exact P].
      constructor; auto. apply I. reflexivity.
Qed.
Lemma wcsspn_ok D s fuel m a q : 0 < q -> wstr m a s -> wstr m q D -> (length s < fuel)%nat -> (length D < fuel)%nat ->
  exists n, wcsspn fuel m a q = Ok n /\ longest_prefix (fun c => In c D) s n.
Proof.
  intros Q Hs HD F1 F2. destruct (wspn_ok D s fuel fuel m a q false 0 Q Hs HD F1 F2) as (pre & post & -> & E & F & P).
  exists (len pre). split; [exact E|]. exists pre, post. auto.
Qed.
Lemma wcscspn_ok D s fuel m a q : 0 < q -> wstr m a s -> wstr m q D -> (length s < fuel)%nat -> (length D < fuel)%nat ->
  exists n, wcscspn fuel m a q = Ok n /\ longest_prefix (fun c => ~ In c D) s n.
Proof.
  intros Q Hs HD F1 F2. destruct (wspn_ok D s fuel fuel m a q true 0 Q Hs HD F1 F2) as (pre & post & -> & E & F & P).
  exists (len pre). split; [exact E|]. exists pre, post. repeat split; auto. destruct post; auto.
Qed.
Lemma wpbrk_aux D s fuel m a q : 0 < q -> wstr m a s -> wstr m q D -> (length s < fuel)%nat -> (length D < fuel)%nat ->
  exists pre post, s = pre ++ post /\ Forall (fun c => ~ In c D) pre /\
    match post with [] => wcspbrk fuel m a q = Ok NULL | c :: _ => In c D /\ wcspbrk fuel m a q = Ok (a + len pre) end.
Proof.
  intros Q Hs HD F1 F2. destruct (wspn_ok D s fuel fuel m a q true 0 Q Hs HD F1 F2) as (pre & post & -> & E & F & P).
  exists pre, post. split; [reflexivity|]. split; [exact F|]. unfold wcspbrk, wcscspn. rewrite E, Z.add_0_l. cbn [bind].
  assert (Fp : Forall nz pre) by (destruct Hs as [H _]; apply Forall_app in H; tauto).
  apply (wstr_app m a pre post Fp) in Hs. destruct Hs as [_ Hs]. destruct post as [|c post].
  - apply wstr_nil in Hs. ldst. reflexivity.
  - apply wstr_cons in Hs. destruct Hs as (N & H0 & _). ldst. rewrite (nz_eqb c N). auto.
Qed.
Lemma wcspbrk_ok D s fuel m a q : 0 < q -> wstr m a s -> wstr m q D -> (length s < fuel)%nat -> (length D < fuel)%nat ->
  exists r, wcspbrk fuel m a q = Ok r /\
    (r = NULL /\ Forall (fun c => ~ In c D) s \/
     exists pre d post, s = pre ++ d :: post /\ Forall (fun c => ~ In c D) pre /\ In d D /\ r = a + len pre).
Proof.
  intros Q Hs HD F1 F2. destruct (wpbrk_aux D s fuel m a q Q Hs HD F1 F2) as (pre & post & -> & F & P). destruct post as [|c post].
  - exists NULL. split; [exact P|]. left. rewrite app_nil_r. auto.
  - destruct P as [I P]. exists (a + len pre). split; [exact P|]. right. exists pre, c, post. auto.
Qed.
Lemma wcsstr_ok w l fuel m h nd : h <> NULL -> nd <> NULL -> wstr m h l -> wstr m nd w -> (length l < fuel)%nat -> (length w < fuel)%nat ->
  exists p, wcsstr fuel m h nd = Ok p /\ finds_leftmost w l h p.
Proof.
  intros N1 N2 Hl Hw F1 F2. unfold wcsstr. rewrite (wcslen_ok w) by assumption. cbn [bind].
  destruct (memmem_ok l w m h nd (wstr_bytes _ _ _ Hl) (wstr_bytes _ _ _ Hw)) as (p & E & P). unfold memmem in E.
  exists p. split; [|exact P]. destruct (len w =? 0); [exact E|]. rewrite (wcslen_ok l) by assumption. exact E.
Qed.

(* ---- wcstok ---- *)
Lemma wtok_end D s fuel m s0 state q h :
  h = (if s0 =? NULL then state else s0) -> h <> NULL -> 0 < q -> wstr m h s -> wstr m q D ->
  (length s < fuel)%nat -> (length D < fuel)%nat -> Forall (fun b => In b D) s ->
  wcstok fuel m s0 q state = Ok (m, NULL, NULL).
Proof.
  intros Hh Hh0 Q Hs HD F1 F2 Hall. unfold wcstok.
  assert (Hcond : (s0 =? NULL) && (state =? NULL) = false).
  { destruct (Z.eqb_spec s0 NULL); [|reflexivity]. subst h. cbn. apply Z.eqb_neq. exact Hh0. }
  rewrite Hcond, <- Hh. unfold wcsspn.
  destruct (wspn_ok D s fuel fuel m h q false 0 Q Hs HD F1 F2) as (pre & post & E0 & E & F & P).
  rewrite E, Z.add_0_l. cbn [bind].
  assert (post = []).
  { destruct post as [|b post]; [reflexivity|]. exfalso. subst s. apply Forall_app in Hall.
    destruct Hall as [_ Hall]. apply Forall_cons_iff in Hall. tauto. }
  subst post. rewrite app_nil_r in E0. subst pre. pose proof (wstr_end _ _ _ Hs). ldst. reflexivity.
Qed.
Lemma wtok_tok D sep t rest fuel m s0 state q h :
  h = (if s0 =? NULL then state else s0) -> 0 < h -> 0 < q -> wstr m h (sep ++ t ++ rest) -> wstr m q D ->
  (length (sep ++ t ++ rest) < fuel)%nat -> (length D < fuel)%nat ->
  Forall (fun b => In b D) sep -> t <> [] -> Forall (fun b => ~ In b D) t ->
  match rest with [] => True | b :: _ => In b D end ->
  wcstok fuel m s0 q state =
    match rest with
    | [] => Ok (m, NULL, h + len sep)
    | _ :: _ => Ok (upd m (h + len sep + len t) 0, h + len sep + len t + 1, h + len sep)
    end.
Proof.
  intros Hh Hh0 Q Hs HD F1 F2 Hsep Ht0 Ht Hrest. unfold wcstok.
  assert (Hcond : (s0 =? NULL) && (state =? NULL) = false).
  { destruct (Z.eqb_spec s0 NULL); [|reflexivity]. subst h. cbn. apply Z.eqb_neq. unfold NULL. lia. }
  rewrite Hcond, <- Hh. unfold wcsspn.
  destruct (wspn_ok D _ fuel fuel m h q false 0 Q Hs HD F1 F2) as (pre & post & E0 & E & F & P).
  assert (pre = sep /\ post = t ++ rest) as [-> ->].
  { destruct t as [|c t]; [congruence|].
    apply (split_unique (fun b => ~ In b D) sep c (t ++ rest) pre post).
    - eapply Forall_impl; [|exact Hsep]. cbn. tauto.
    - apply Forall_cons_iff in Ht. tauto.
    - exact E0.
    - eapply Forall_impl; [|exact F]. cbn. tauto.
    - exact P. }
  rewrite E, Z.add_0_l. cbn [bind].
  assert (Fs : Forall nz sep) by (destruct Hs as [H _]; apply Forall_app in H; tauto).
  apply (wstr_app m h sep _ Fs) in Hs. destruct Hs as [_ Hs].
  pose proof (len_nonneg sep). pose proof (len_nonneg t).
  assert (exists c, m (h + len sep) = Some c /\ nz c) as (c & Hc & Hcc).
  { destruct t as [|c t]; [congruence|]. cbn [app] in Hs. apply wstr_cons in Hs. exists c. tauto. }
  ldst. rewrite (nz_eqb c Hcc). rewrite !app_length in F1.
  destruct (wpbrk_aux D (t ++ rest) fuel m (h + len sep) q Q Hs HD) as (pre & post & E1 & F' & P').
  { rewrite app_length. lia. }
  { exact F2. }
  destruct rest as [|d rest].
  - rewrite app_nil_r in *.
    assert (pre = t /\ post = []) as [-> ->].
    { apply (split_unique_end (fun b => In b D)); auto. destruct post; tauto. }
    rewrite P'. reflexivity.
  - assert (pre = t /\ post = d :: rest) as [-> ->].
    { apply (split_unique (fun b => In b D)); auto. destruct post; tauto. }
    destruct P' as [_ P']. rewrite P'. cbn [bind]. destruct (Z.eqb_spec (h + len sep + len t) NULL) as [X|X]; [unfold NULL in X; lia|].
    assert (Ft : Forall nz t) by (destruct Hs as [H1 _]; apply Forall_app in H1; tauto).
    apply (wstr_app m _ t _ Ft) in Hs. destruct Hs as [_ Hs]. apply wstr_cons in Hs. destruct Hs as (_ & Hm & _).
    rewrite st_ok by eauto. reflexivity.
Qed.

Lemma wtok_null fuel q n : forall m, next_calls (fun m s state => wcstok fuel m s q state) n m NULL = Ok (m, NULL, repeat NULL n).
Proof.
  induction n as [|n IH]; intros m; cbn [next_calls repeat]; [reflexivity|].
  unfold wcstok at 1. cbn [Z.eqb NULL andb bind]. change 0 with NULL. rewrite IH. reflexivity.
Qed.
Lemma wtok_run D fuel q : forall k s ts, (length s <= k)%nat -> tokens D s ts -> forall n m a,
  0 < a -> 0 < q -> wstr m a s -> wstr m q D -> disjoint a (len s + 1) q (len D + 1) ->
  (length s < fuel)%nat -> (length D < fuel)%nat ->
  exists m' state' ps,
    next_calls (fun m s state => wcstok fuel m s q state) n m a = Ok (m', state', ps ++ repeat NULL (n - length ts)) /\
    Forall2 (fun p t => wstr m' p t) ps (firstn n ts) /\
    (forall x, ~ (a <= x < a + len s) -> m' x = m x).
Proof.
  induction k as [k IHk] using (well_founded_induction lt_wf).
  intros s ts Hk Hts. destruct Hts as [s Hall|sep t rest ts Hsep Ht0 Ht Hr Hts]; intros n m a Ha Q Hs HD Hdis F1 F2.
  - destruct n as [|n]; [exists m, a, []; cbn; repeat split; auto|]. cbn [next_calls].
    rewrite (wtok_end D s fuel m NULL a q a); auto; [|unfold NULL; lia]. cbn [bind]. rewrite wtok_null. cbn [bind].
    exists m, NULL, []. cbn [length Nat.sub firstn app repeat]. split; [reflexivity|]. split; [constructor|auto].
  - destruct n as [|n]; [exists m, a, []; cbn; repeat split; auto|]. cbn [next_calls].
    rewrite (wtok_tok D sep t rest fuel m NULL a q a) by auto.
    assert (Fs : Forall nz sep) by (destruct Hs as [H _]; apply Forall_app in H; tauto).
    apply (wstr_app m a sep _ Fs) in Hs. destruct Hs as [Hbs Hs].
    assert (Ft : Forall nz t) by (destruct Hs as [H _]; apply Forall_app in H; tauto).
    apply (wstr_app m _ t _ Ft) in Hs. destruct Hs as [Hbt Hs].
    rewrite !len_app in *. rewrite !app_length in F1, Hk.
    pose proof (len_nonneg sep). pose proof (len_nonneg t).
    destruct rest as [|d rest].
    + cbn [bind]. rewrite wtok_null. cbn [bind].
      assert (ts = []).
      { remember [] as e eqn:Ee. destruct Hts as [|sp tt rr tts ? Hne]; [reflexivity|].
        destruct sp, tt; try discriminate. congruence. }
      subst ts. exists m, NULL, [a + len sep]. cbn [length Nat.sub app firstn]. rewrite Nat.sub_0_r, firstn_nil.
      split; [reflexivity|]. split; [|auto]. constructor; [|constructor]. split; [exact Ft|]. apply bytes_at_app. split; [exact Hbt|].
      apply wstr_nil in Hs. cbn. auto.
    + cbn [bind]. rewrite len_cons in *. cbn [length] in F1, Hk. pose proof (len_nonneg rest).
      apply wstr_cons in Hs. destruct Hs as (Hcd & Hmd & Hs). apply tokens_drop_delim in Hts; [|exact Hr].
      assert (Lt : (0 < length t)%nat) by (destruct t; [congruence|cbn; lia]).
      destruct (IHk (length rest) ltac:(lia) rest ts (le_n _) Hts n
                 (upd m (a + len sep + len t) 0) (a + len sep + len t + 1)) as (m' & st' & ps & ER & FF & Fr).
      * lia.
      * exact Q.
      * eapply wstr_ext; [|exact Hs]. intros x Hx. apply upd_other. lia.
      * eapply wstr_ext; [|exact HD]. intros x Hx. apply upd_other. unfold disjoint in Hdis. lia.
      * unfold disjoint in *. lia.
      * lia.
      * exact F2.
      * rewrite ER. cbn [bind]. exists m', st', ((a + len sep) :: ps).
        cbn [length Nat.sub app]. split; [reflexivity|]. split.
        -- cbn [firstn]. constructor; [|exact FF]. split; [exact Ft|]. apply bytes_at_app. split.
           ++ eapply bytes_at_ext; [|exact Hbt]. intros x Hx. rewrite Fr by lia. apply upd_other. lia.
           ++ cbn. split; [|exact I]. rewrite Fr by lia. apply upd_same.
        -- intros x Hx. rewrite Fr by lia. apply upd_other. lia.
Qed.
Lemma wcstok_ok D fuel q s ts : tokens D s ts -> forall n m a state,
  0 < a -> 0 < q -> wstr m a s -> wstr m q D -> disjoint a (len s + 1) q (len D + 1) ->
  (length s < fuel)%nat -> (length D < fuel)%nat ->
  exists m' state' ps,
    all_calls (fun m s state => wcstok fuel m s q state) n m a state = Ok (m', state', ps ++ repeat NULL (n - length ts)) /\
    Forall2 (fun p t => wstr m' p t) ps (firstn n ts) /\
    (forall x, ~ (a <= x < a + len s) -> m' x = m x).
Proof.
  intros Hts n m a state Ha Q Hs HD Hdis F1 F2. destruct n as [|n]; [exists m, state, []; cbn; repeat split; auto|].
  destruct (wtok_run D fuel q (length s) s ts (le_n _) Hts (S n) m a Ha Q Hs HD Hdis F1 F2) as (m' & st' & ps & E & H).
  exists m', st', ps. split; [|exact H]. cbn [all_calls next_calls] in *. rewrite <- E.
  replace (wcstok fuel m a q state) with (wcstok fuel m NULL q a); [reflexivity|].
  unfold wcstok. change (NULL =? NULL) with true. rewrite !(proj2 (Z.eqb_neq a NULL)) by (unfold NULL; lia). reflexivity.
Qed.
Lemma wcstok_full D s fuel q : exists ts, tokens D s ts /\ forall n m a state,
  0 < a -> 0 < q -> wstr m a s -> wstr m q D -> disjoint a (len s + 1) q (len D + 1) ->
  (length s < fuel)%nat -> (length D < fuel)%nat ->
  exists m' state' ps,
    all_calls (fun m s state => wcstok fuel m s q state) n m a state = Ok (m', state', ps ++ repeat NULL (n - length ts)) /\
    Forall2 (fun p t => wstr m' p t) ps (firstn n ts) /\
    (forall x, ~ (a <= x < a + len s) -> m' x = m x).
Proof. destruct (tokens_total D s) as [ts H]. exists ts. split; [exact H|]. apply wcstok_ok. exact H. Qed.

(* ---- wrong answers ---- *)
Lemma wcsrchr_wrong : exists m p, p <> NULL /\ wstr m p [97; 98] /\ wcsrchr 9 m p 0 = Ok NULL /\
  ~ finds_last 0 ([97; 98] ++ [0]) p NULL.
Proof.
  exists (mem_of 1000 [97; 98; 0]), 1000. split; [discriminate|]. split.
  { split; [repeat constructor; discriminate|apply mem_of_bytes]. }
  split; [reflexivity|]. intros [[H _]|(i & _ & H)]; [apply H; cbn; auto|unfold NULL in H; lia].
Qed.
Lemma wcscmp_wrong : exists m a b l k, wstr m a l /\ wstr m b k /\
  Forall (fun c => - 2 ^ 31 <= c < 2 ^ 31) (l ++ k) /\ lex l k = Lt /\ wcscmp 9 m a b = Ok 2147483647.
Proof.
  exists (mem_of 1000 [-2; 0; 2147483647; 0]), 1000, 1002, [-2], [2147483647].
  split; [split; [repeat constructor; discriminate|cbn; auto]|]. split; [split; [repeat constructor; discriminate|cbn; auto]|].
  split; [repeat constructor; lia|]. split; reflexivity.
Qed.
Lemma wmemcmp_wrong : exists m a b l k, bytes_at m a l /\ bytes_at m b k /\ len l = 1 /\ len k = 1 /\
  Forall (fun c => - 2 ^ 31 <= c < 2 ^ 31) (l ++ k) /\ lex l k = Lt /\ wmemcmp m a b 1 = Ok 2147483647.
Proof.
  exists (mem_of 1000 [-2; 0; 2147483647; 0]), 1000, 1002, [-2], [2147483647].
  split; [cbn; auto|]. split; [cbn; auto|]. split; [reflexivity|]. split; [reflexivity|].
  split; [repeat constructor; lia|]. split; reflexivity.
Qed.
