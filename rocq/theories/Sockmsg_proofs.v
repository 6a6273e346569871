From Coq Require Import ZArith List Bool Lia.
From Verif Require Import Base Sort_model Sort_proofs String_model Word_mem Uio_model Uio_spec Uio_proofs Inet_model Inet_proofs Sockaddr_model Sockmsg_model Sockmsg_spec.
Import ListNotations.
Open Scope Z_scope.

Lemma num_le k : forall x, num k x = le_bytes k x.
Proof. induction k as [|k IH]; intro x; cbn; [reflexivity|]. rewrite IH. reflexivity. Qed.
Lemma num_map l : map (num 4) l = map (le_bytes 4) l.
Proof. apply map_ext. apply num_le. Qed.
Lemma ints_len l : len (concat (map (le_bytes 4) l)) = 4 * len l.
Proof. induction l as [|x l IH]; [reflexivity|]. cbn [map concat]. rewrite len_app, IH, le_bytes_len, len_cons. lia. Qed.
Lemma space_pos l : 16 + 4 * len l <= space l <= 23 + 4 * len l.
Proof. unfold space. pose proof (len_nonneg l). Z.div_mod_to_equations. lia. Qed.
Lemma total_pos l : 0 <= total l.
Proof. induction l as [|x l IH]; cbn; [lia|]. pose proof (space_pos x). pose proof (len_nonneg x). fold (total l). lia. Qed.
Lemma needed_pos x l : 16 <= needed (x :: l) <= total (x :: l).
Proof.
  revert x. induction l as [|y l IH]; intro x; [cbn|change (needed (x :: y :: l)) with (space x + needed (y :: l)); change (total (x :: y :: l)) with (space x + total (y :: l))].
  - pose proof (space_pos x). pose proof (len_nonneg x). lia.
  - specialize (IH y). pose proof (space_pos x). pose proof (len_nonneg x). lia.
Qed.
Lemma align_space k : 0 <= k -> k + 64 < 2 ^ 64 -> CMSG_ALIGN (16 + k) = 16 + (k + 7) / 8 * 8.
Proof. intros K L. unfold CMSG_ALIGN. rewrite Z.mod_small by lia. Z.div_mod_to_equations. lia. Qed.
Lemma align_16 : CMSG_ALIGN 16 = 16.
Proof. reflexivity. Qed.

Lemma ld_ints_ok l : forall m p, Forall descriptor l -> bytes_at m p (concat (map (le_bytes 4) l)) -> ld_ints (length l) m p = Ok l.
Proof.
  induction l as [|x l IH]; intros m p D B; [reflexivity|]. inversion D as [|? ? DX DL]; subst.
  cbn [map concat] in B. apply bytes_at_app in B. destruct B as (B1 & B2). rewrite le_bytes_len in B2. change (Z.of_nat 4) with 4 in B2.
  cbn [length ld_ints]. rewrite (ld_le_bytes 4 m p x B1) by (unfold descriptor in DX; change (256 ^ Z.of_nat 4) with (2 ^ 32); lia).
  cbn [bind]. rewrite IH by assumption. reflexivity.
Qed.

(* ---- sending ---- *)
Lemma next_ok m control clen a x : bytes_at m a (le_bytes 8 (16 + 4 * len x)) -> 0 < a -> a + space x + 64 < 2 ^ 64 ->
  CMSG_NXTHDR m control clen a = Ok (if control + clen <? a + space x + 16 then 0 else a + space x).
Proof.
  intros B A W. pose proof (space_pos x) as SP. pose proof (len_nonneg x) as LX. unfold CMSG_NXTHDR.
  destruct (Z.eqb_spec a 0); [lia|]. rewrite (ld_le_bytes 8 m a (16 + 4 * len x) B) by (change (256 ^ Z.of_nat 8) with (2 ^ 64); lia).
  cbn [bind]. rewrite align_space by lia. fold (space x). rewrite align_16. rewrite !Z.mod_small by lia.
  destruct (Z.ltb_spec (control + clen) (a + space x + 16)); reflexivity.
Qed.

Lemma header_parts m a x : bytes_at m a (num 8 (16 + 4 * len x) ++ num 4 1 ++ num 4 1 ++ concat (map (num 4) x)) ->
  bytes_at m a (le_bytes 8 (16 + 4 * len x)) /\ bytes_at m (a + 8) (le_bytes 4 1) /\ bytes_at m (a + 12) (le_bytes 4 1) /\
  bytes_at m (a + 16) (concat (map (le_bytes 4) x)).
Proof.
  rewrite !num_le, num_map. intro B.
  apply bytes_at_app in B; destruct B as (B1 & B); rewrite le_bytes_len in B; change (Z.of_nat 8) with 8 in B.
  apply bytes_at_app in B; destruct B as (B2 & B); rewrite le_bytes_len in B; change (Z.of_nat 4) with 4 in B.
  apply bytes_at_app in B; destruct B as (B3 & B4); rewrite le_bytes_len in B4; change (Z.of_nat 4) with 4 in B4.
  replace (a + 12) with (a + 8 + 4) by lia. replace (a + 16) with (a + 8 + 4 + 4) by lia. auto.
Qed.

Lemma ser_step f m a control clen q x : bytes_at m a (num 8 (16 + 4 * len x) ++ num 4 1 ++ num 4 1 ++ concat (map (num 4) x)) ->
  Forall descriptor x -> 0 < a -> a + space x + 64 < 2 ^ 64 ->
  ser_control (S f) m control clen a q =
  (' (q', r) <- ser_control f m control clen (if control + clen <? a + space x + 16 then 0 else a + space x) (q ++ x) ;;
   Ok (q', match r with inl s => inl ((num 4 1 ++ num 4 1 ++ num 8 8 ++ num 8 (len x)) ++ s) | inr e => inr e end)).
Proof.
  intros B D A W. pose proof (space_pos x) as SP. pose proof (len_nonneg x) as LX.
  destruct (header_parts _ _ _ B) as (B1 & B2 & B3 & B4). cbn [ser_control].
  destruct (Z.eqb_spec a 0); [lia|].
  rewrite (ld_le_bytes 8 m a (16 + 4 * len x) B1) by (change (256 ^ Z.of_nat 8) with (2 ^ 64); lia).
  cbn [bind]. rewrite align_16. destruct (Z.ltb_spec (16 + 4 * len x) 16); [lia|].
  rewrite (ld_le_bytes 4 m (a + 8) 1 B2) by (cbn; lia). cbn [bind].
  rewrite (ld_le_bytes 4 m (a + 12) 1 B3) by (cbn; lia). cbn [bind].
  change ((1 =? SOL_SOCKET) && (1 =? SCM_RIGHTS)) with true. cbv iota.
  replace (16 + 4 * len x - 16) with (len x * 4) by lia. rewrite Z.mod_mul, Z.div_mul by lia. change (negb (0 =? 0)) with false. cbv iota.
  unfold CMSG_DATA. rewrite align_16. replace (Z.to_nat (len x)) with (length x) by (unfold len; lia).
  rewrite ld_ints_ok by assumption. cbn [bind]. rewrite (next_ok m control clen a x B1 A W). cbn [bind].
  destruct (ser_control f m control clen _ (q ++ x)) as [(q' & r)| | |]; [|reflexivity..]. cbn [bind].
  destruct r; [|reflexivity]. repeat rewrite num_le. repeat rewrite <- app_assoc. reflexivity.
Qed.

Lemma ser_control_ok l : forall x fuel m a control clen q, controls m a (x :: l) -> Forall (Forall descriptor) (x :: l) ->
  0 < a -> a + needed (x :: l) <= control + clen < a + total (x :: l) + 16 -> a + total (x :: l) + 64 < 2 ^ 64 -> (length (x :: l) < fuel)%nat ->
  ser_control fuel m control clen a q = Ok (q ++ concat (x :: l), inl (rights_stream (x :: l))).
Proof.
  induction l as [|y l IH]; intros x fuel m a control clen q C D A N W F; (destruct fuel as [|f]; [lia|]);
    cbn [controls] in C; destruct C as (B & C); inversion D as [|? ? DX DL]; subst.
  - change (total [x]) with (space x + 0) in *. rewrite (ser_step f m a control clen q x B DX A) by lia.
    destruct (Z.ltb_spec (control + clen) (a + space x + 16)); [|lia].
    destruct f; [cbn in F; lia|]. cbn [ser_control]. change (0 =? 0) with true. cbv iota. cbn [bind].
    unfold rights_stream. cbn [map concat]. rewrite !app_nil_r. reflexivity.
  - change (total (x :: y :: l)) with (space x + total (y :: l)) in *. change (needed (x :: y :: l)) with (space x + needed (y :: l)) in N.
    pose proof (needed_pos y l) as NP. pose proof (space_pos x) as SP. pose proof (len_nonneg x) as LX. rewrite (ser_step f m a control clen q x B DX A) by lia.
    destruct (Z.ltb_spec (control + clen) (a + space x + 16)); [lia|].
    rewrite (IH y f m (a + space x) control clen (q ++ x)); [|exact C|exact DL|lia|lia|lia|cbn [length] in *; lia]. cbn [bind].
    rewrite <- app_assoc. reflexivity.
Qed.

Lemma area_range a n : area a n = range a (Z.to_nat n).
Proof. reflexivity. Qed.
Lemma ser_iovs_ok m : forall iovs d, Forall (fun v => snd v <= 0 \/ fst v <> 0) iovs -> holds m (spots iovs) d -> ser_iovs m iovs = Ok (inl d).
Proof.
  induction iovs as [|(a, n) iovs IH]; intros d NZ H.
  - inversion H. reflexivity.
  - inversion NZ as [|? ? Z0 ZF]; subst. cbn [fst snd] in Z0. cbn [spots flat_map fst snd] in H. apply Forall2_app_inv_l in H. destruct H as (b1 & b2 & H1 & H2 & ->).
    cbn [ser_iovs]. destruct (Z.ltb_spec 0 n).
    + destruct (Z.eqb_spec a 0); [lia|]. rewrite area_range in H1. rewrite (load_ok _ _ _ _ H1). cbn [bind]. rewrite (IH b2 ZF H2). reflexivity.
    + rewrite area_range in H1. replace (Z.to_nat n) with 0%nat in H1 by lia. inversion H1; subst. apply IH; assumption.
Qed.
Lemma whole_len : forall iovs, Forall (fun v => 0 <= snd v) iovs -> whole iovs = len (spots iovs).
Proof.
  induction iovs as [|(a, n) iovs IH]; intro P; [reflexivity|]. inversion P as [|? ? P0 PF]; subst. cbn [snd] in P0.
  cbn [whole fold_right spots flat_map fst snd]. fold (whole iovs) (spots iovs). rewrite len_app, IH by assumption.
  rewrite area_range. unfold len. rewrite range_len. lia.
Qed.

Lemma good_1 iovs : good_iovs iovs -> Forall (fun v => snd v <= 0 \/ fst v <> 0) iovs.
Proof. apply Forall_impl. intros v (A & B). destruct (Z.le_gt_cases (snd v) 0); [left|right]; auto. Qed.
Lemma good_2 iovs : good_iovs iovs -> Forall (fun v => 0 <= snd v) iovs.
Proof. apply Forall_impl. tauto. Qed.

Lemma sendmsg_ok fuel m name namelen iovs d control clen l q : iovs <> [] -> good_iovs iovs -> holds m (spots iovs) d ->
  controls m control l -> Forall (Forall descriptor) l -> 0 < control -> needed l <= clen < total l + 16 -> (l = [] -> clen = 0) ->
  control + total l + 64 < 2 ^ 64 -> (length l < fuel)%nat ->
  sendmsg fuel m name namelen iovs control clen q = Ok (q ++ concat l, inl (len d, payload_stream d ++ rights_stream l)).
Proof.
  intros NE G H C D A N E0 W F. unfold sendmsg.
  rewrite (ser_iovs_ok m iovs d (good_1 _ G) H).
  assert (WL : whole iovs = len d) by (rewrite whole_len by (apply good_2; exact G); unfold len; rewrite (holds_len _ _ _ H); reflexivity).
  destruct iovs as [|v iovs]; [congruence|]. cbn [bind]. rewrite WL.
  unfold payload_stream.
  destruct l as [|x l].
  - rewrite E0 by reflexivity. cbn [Z.ltb Z.compare]. cbn [concat]. unfold rights_stream. cbn [map concat]. rewrite !app_nil_r. reflexivity.
  - pose proof (needed_pos x l). destruct (Z.ltb_spec 0 clen); [|lia]. destruct (Z.eqb_spec control 0); [lia|].
    unfold CMSG_FIRSTHDR. destruct (Z.leb_spec 16 clen); [|lia].
    rewrite (ser_control_ok l x fuel m control control clen q C D A ltac:(lia) W F). reflexivity.
Qed.

(* ---- receiving ---- *)
Lemma space_eq x : len x < 2 ^ 28 -> CMSG_SPACE (4 * len x) = space x /\ CMSG_LEN (4 * len x) = 16 + 4 * len x /\ CMSG_ALIGN (16 + 4 * len x) = space x.
Proof.
  intro L. pose proof (len_nonneg x) as LX. assert (A : CMSG_ALIGN (4 * len x) = (4 * len x + 7) / 8 * 8) by (unfold CMSG_ALIGN; rewrite Z.mod_small by lia; reflexivity).
  split; [|split].
  - unfold CMSG_SPACE. rewrite A, align_16. unfold space. rewrite Z.mod_small; [lia|]. Z.div_mod_to_equations. lia.
  - unfold CMSG_LEN. rewrite align_16. apply Z.mod_small. lia.
  - rewrite align_space by lia. reflexivity.
Qed.

Lemma firstn_len (l k : list Z) : firstn (length l) (l ++ k) = l.
Proof. rewrite firstn_app, Nat.sub_diag, firstn_all. cbn. apply app_nil_r. Qed.
Lemma skipn_len (l k : list Z) : skipn (length l) (l ++ k) = k.
Proof. rewrite skipn_app, Nat.sub_diag, skipn_all. reflexivity. Qed.

Lemma deser_step f m control clen cmsg rem wr x rest q' : len x < 2 ^ 28 -> 
  deser_control (S f) m control clen cmsg rem wr ((num 4 1 ++ num 4 1 ++ num 8 8 ++ num 8 (len x)) ++ rest) (x ++ q') =
  if negb (cmsg =? 0) && (space x <=? rem) then
    m <- st_bytes m cmsg (le_bytes 8 (16 + 4 * len x) ++ le_bytes 4 1 ++ le_bytes 4 1) ;;
    m <- st_bytes m (cmsg + 16) (concat (map (le_bytes 4) x)) ;;
    next <- CMSG_NXTHDR m control clen cmsg ;;
    deser_control f m control clen next (rem - space x) (wr + space x) rest q'
  else Ok (m, q', inl (8, wr)).
Proof.
  intro L. pose proof (len_nonneg x) as LX. destruct (space_eq x L) as (S1 & S2 & S3).
  remember (num 8 (len x)) as d eqn:ED. rewrite num_le in ED.
  change (num 4 1 ++ num 4 1 ++ num 8 8 ++ d) with ([1; 0; 0; 0; 1; 0; 0; 0; 8; 0; 0; 0; 0; 0; 0; 0] ++ d). rewrite <- app_assoc.
  assert (LD : len d = 8) by (rewrite ED; apply le_bytes_len).
  cbn [deser_control]. cbn [app].
  assert (LS : len (1 :: 0 :: 0 :: 0 :: 1 :: 0 :: 0 :: 0 :: 8 :: 0 :: 0 :: 0 :: 0 :: 0 :: 0 :: 0 :: d ++ rest) = 16 + 8 + len rest) by (rewrite !len_cons, len_app; lia).
  rewrite LS. pose proof (len_nonneg rest). destruct (Z.ltb_spec (16 + 8 + len rest) 16); [lia|].
  cbn [firstn skipn]. change (of_le [1; 0; 0; 0]) with 1. change (of_le [8; 0; 0; 0; 0; 0; 0; 0]) with 8.
  rewrite len_app, LD. destruct (Z.ltb_spec (8 + len rest) 8); [lia|].
  change ((1 =? SOL_SOCKET) && (1 =? SCM_RIGHTS)) with true. cbv iota. change (negb (8 =? 8)) with false. cbv iota.
  assert (D8 : length d = Z.to_nat 8) by (unfold len in LD; lia).
  rewrite <- D8, firstn_len, skipn_len. rewrite ED, of_le_le by (change (256 ^ Z.of_nat 8) with (2 ^ 64); lia).
  replace (Z.to_nat (len x)) with (length x) by (unfold len; lia). rewrite app_length. destruct (Nat.ltb_spec (length x + length q') (length x)); [lia|].
  rewrite firstn_len, skipn_len. rewrite ints_len. cbv zeta. rewrite S1, S2, S3. unfold CMSG_DATA. rewrite align_16. reflexivity.
Qed.

Lemma fitting_total n l : 0 <= n -> total (fitting n l) <= n.
Proof.
  revert n. induction l as [|x l IH]; intros n N; cbn [fitting]; [exact N|]. destruct (Z.leb_spec (space x) n); [|exact N].
  change (total (x :: fitting (n - space x) l)) with (space x + total (fitting (n - space x) l)). specialize (IH (n - space x) ltac:(lia)). lia.
Qed.

Lemma fitting_length n l : (length (fitting n l) <= length l)%nat.
Proof. revert n. induction l as [|x l IH]; intro n; cbn [fitting]; [lia|]. destruct (space x <=? n); cbn [length]; [specialize (IH (n - space x))|]; lia. Qed.
Lemma all_fit_cons n x l : space x <= n -> all_fit n (x :: l) = all_fit (n - space x) l.
Proof. intro H. unfold all_fit. cbn [fitting]. destruct (Z.leb_spec (space x) n); [|lia]. reflexivity. Qed.

Lemma controls_ext m m' : forall l a, (forall x, a <= x < a + total l -> m' x = m x) -> controls m a l -> controls m' a l.
Proof.
  induction l as [|y l IH]; intros a E C; cbn [controls] in *; [exact I|]. destruct C as (B & C).
  change (total (y :: l)) with (space y + total l) in E. pose proof (space_pos y) as SP. pose proof (total_pos l) as TP. pose proof (len_nonneg y) as LY. split.
  - apply (bytes_at_ext m); [|exact B]. intros z Z0. apply E. rewrite !num_le, num_map, !len_app, !le_bytes_len, ints_len in Z0. lia.
  - apply IH; [|exact C]. intros z Z0. apply E. lia.
Qed.

Lemma deser_control_ok l : forall fuel m control clen a rem wr q', Forall (fun x => len x < 2 ^ 28) l ->
  0 < a -> 0 <= rem -> control + clen = a + rem -> a + rem + 64 < 2 ^ 64 -> mapped m a rem -> (length l < fuel)%nat ->
  exists m', deser_control fuel m control clen (if 16 <=? rem then a else 0) rem wr (rights_stream l) (concat l ++ q') =
    Ok (m', concat (skipn (S (length (fitting rem l))) l) ++ q', inl (if all_fit rem l then 0 else 8, wr + total (fitting rem l))) /\
    controls m' a (fitting rem l) /\ (forall x, ~ a <= x < a + total (fitting rem l) -> m' x = m x).
Proof.
  induction l as [|x l IH]; intros fuel m control clen a rem wr q' LB A R E W M F; (destruct fuel as [|f]; [lia|]).
  - exists m. split; [|split; [exact I|reflexivity]]. cbn [fitting total fold_right]. rewrite Z.add_0_r. reflexivity.
  - inversion LB as [|? ? LX LL]; subst. pose proof (space_pos x) as SP. pose proof (len_nonneg x) as LX0.
    unfold rights_stream. cbn [map concat]. fold (rights_stream l). rewrite <- (app_assoc x).
    rewrite (deser_step f m control clen _ rem wr x (rights_stream l) (concat l ++ q') LX).
    cbn [fitting]. destruct (Z.leb_spec (space x) rem) as [FT|FT].
    + destruct (Z.leb_spec 16 rem); [|lia]. destruct (Z.eqb_spec a 0); [lia|]. cbn [negb andb].
      set (hdr := le_bytes 8 (16 + 4 * len x) ++ le_bytes 4 1 ++ le_bytes 4 1).
      assert (LH : len hdr = 16) by (unfold hdr; rewrite !len_app, !le_bytes_len; reflexivity).
      destruct (st_bytes_ok hdr m a) as (m1 & E1 & S1); [eapply mapped_sub; [exact M|lia|lia]|]. rewrite E1. cbn [bind].
      assert (MM : forall m m' a l b k, stored m m' a l -> mapped m b k -> mapped m' b k).
      { intros u u' a0 l0 b0 k0 (B & FF) X y Y. destruct (Z.le_gt_cases a0 y); [destruct (Z.lt_ge_cases y (a0 + len l0))|].
        - apply bytes_at_mapped in B. apply B. lia.
        - rewrite FF by lia. apply X. exact Y.
        - rewrite FF by lia. apply X. exact Y. }
      destruct (st_bytes_ok (concat (map (le_bytes 4) x)) m1 (a + 16)) as (m2 & E2 & S2); [eapply MM; [exact S1|]; rewrite ints_len; eapply mapped_sub; [exact M|lia|lia]|].
      rewrite E2. cbn [bind].
      assert (S12 : stored m m2 a (hdr ++ concat (map (le_bytes 4) x))) by (eapply stored_app; [exact S1|]; rewrite LH; exact S2).
      destruct S12 as (B12 & F12). rewrite len_app, LH, ints_len in F12.
      assert (B0 : bytes_at m2 a (le_bytes 8 (16 + 4 * len x))).
      { unfold hdr in B12. rewrite <- !app_assoc in B12. apply bytes_at_app in B12. tauto. }
      rewrite (next_ok m2 control clen a x B0 A) by lia. cbn [bind].
      replace (if control + clen <? a + space x + 16 then 0 else a + space x) with (if 16 <=? rem - space x then a + space x else 0)
        by (destruct (Z.leb_spec 16 (rem - space x)), (Z.ltb_spec (control + clen) (a + space x + 16)); lia).
      destruct (IH f m2 control clen (a + space x) (rem - space x) (wr + space x) q') as (m' & EQ & C & FR); [exact LL|lia|lia|lia|lia| |cbn [length] in F; lia|].
      { intros y Y. assert (X : exists b, m y = Some b) by (apply M; lia). rewrite F12 by lia. exact X. }
      exists m'. rewrite EQ. change (total (x :: fitting (rem - space x) l)) with (space x + total (fitting (rem - space x) l)).
      rewrite all_fit_cons by exact FT. cbn [length skipn]. split; [|split].
      * do 3 f_equal. f_equal. lia.
      * cbn [controls]. split; [|exact C]. apply (bytes_at_ext m2).
        -- intros y Y. apply FR. rewrite !num_le, num_map, !len_app, !le_bytes_len, ints_len in Y. lia.
        -- rewrite !num_le, num_map. unfold hdr in B12. rewrite <- !app_assoc in B12. exact B12.
      * intros y Y. pose proof (total_pos (fitting (rem - space x) l)). rewrite FR by lia. apply F12. lia.
    + exists m. destruct (Z.leb_spec 16 rem).
      * destruct (Z.eqb_spec a 0); [lia|]. cbn [negb andb]. destruct (Z.leb_spec (space x) rem); [lia|].
        unfold all_fit. cbn [fitting]. destruct (Z.leb_spec (space x) rem); [lia|]. cbn [length Nat.leb skipn total fold_right]. rewrite Z.add_0_r. split; [reflexivity|]. split; [exact I|reflexivity].
      * change (0 =? 0) with true. cbn [negb andb].
        unfold all_fit. cbn [fitting]. destruct (Z.leb_spec (space x) rem); [lia|]. cbn [length Nat.leb skipn total fold_right]. rewrite Z.add_0_r. split; [reflexivity|]. split; [exact I|reflexivity].
Qed.

Lemma sts_firstn vs : forall ps m, sts m ps vs = sts m (firstn (length vs) ps) vs.
Proof.
  induction vs as [|v vs IH]; intros [|p ps] m; try reflexivity. cbn [length firstn sts]. destruct (st m p v); [|reflexivity..]. cbn [bind]. apply IH.
Qed.
Lemma range_firstn n : forall k a, (k <= n)%nat -> firstn k (range a n) = range a k.
Proof.
  induction n as [|n IH]; intros k a L; (destruct k as [|k]; [reflexivity|]); [lia|]. rewrite !range_S. cbn [firstn]. rewrite IH by lia. reflexivity.
Qed.
Lemma fill_nil m : forall iovs, good_iovs iovs -> fill m iovs [] = Ok (m, None).
Proof.
  induction iovs as [|(a, n) r IH]; intro G; [reflexivity|]. inversion G as [|? ? (G0 & G1) GF]; subst. cbn [fst snd] in *. cbn [fill].
  destruct (Z.eqb_spec n 0); [apply IH; exact GF|]. destruct (Z.eqb_spec a 0); [exfalso; apply G1; lia|reflexivity].
Qed.
Lemma fill_sts : forall iovs m data, good_iovs iovs -> fill m iovs data = (m' <- sts m (spots iovs) data ;; Ok (m', None)).
Proof.
  induction iovs as [|(a, n) r IH]; intros m data G; [destruct data; reflexivity|]. inversion G as [|? ? (G0 & G1) GF]; subst. cbn [fst snd] in *.
  cbn [fill spots flat_map fst snd]. fold (spots r). rewrite area_range. destruct (Z.eqb_spec n 0) as [->|NZ].
  - rewrite IH by exact GF. reflexivity.
  - destruct (Z.eqb_spec a 0); [exfalso; apply G1; lia|]. destruct data as [|c data]; [destruct (range a (Z.to_nat n) ++ spots r); reflexivity|].
    remember (c :: data) as dd. clear Heqdd. destruct (Nat.le_gt_cases (Z.to_nat n) (length dd)) as [L|L].
    + assert (FL : length (firstn (Z.to_nat n) dd) = Z.to_nat n) by (apply firstn_length_le; exact L).
      replace (sts m (range a (Z.to_nat n) ++ spots r) dd) with (sts m (range a (Z.to_nat n) ++ spots r) (firstn (Z.to_nat n) dd ++ skipn (Z.to_nat n) dd)) by (rewrite firstn_skipn; reflexivity).
      rewrite sts_app by (rewrite range_len; lia). rewrite sts_st_bytes, FL. destruct (sts m (range a (Z.to_nat n)) (firstn (Z.to_nat n) dd)); [|reflexivity..].
      cbn [bind]. apply IH. exact GF.
    + rewrite (firstn_all2 dd), (skipn_all2 dd) by lia. rewrite sts_st_bytes. rewrite (sts_firstn dd (range a (Z.to_nat n) ++ spots r)).
      rewrite firstn_app, range_len. replace (length dd - Z.to_nat n)%nat with 0%nat by lia. cbn [firstn]. rewrite app_nil_r, range_firstn by lia.
      destruct (sts m (range a (length dd)) dd); [|reflexivity..]. cbn [bind]. apply fill_nil. exact GF.
Qed.

Lemma NoDup_firstn n (l : list Z) : NoDup l -> NoDup (firstn n l).
Proof.
  revert n. induction l as [|x l IH]; intros n N; [destruct n; constructor|]. destruct n as [|n]; [constructor|]. cbn [firstn]. inversion N as [|? ? NI N']; subst. constructor; [|apply IH; exact N'].
  intro I. apply NI. rewrite <- (firstn_skipn n l). apply in_or_app. left. exact I.
Qed.

Lemma fill_ok iovs m data : good_iovs iovs -> NoDup (spots iovs) -> (forall p, In p (spots iovs) -> exists b, m p = Some b) ->
  (length data <= length (spots iovs))%nat -> exists m', fill m iovs data = Ok (m', None) /\ spread m m' (spots iovs) data.
Proof.
  intros G N M L. rewrite fill_sts by exact G. rewrite sts_firstn.
  destruct (sts_ok (firstn (length data) (spots iovs)) data m) as (m' & E & H & F).
  - apply firstn_length_le. exact L.
  - apply NoDup_firstn, N.
  - intros p P. apply M. rewrite <- (firstn_skipn (length data) (spots iovs)). apply in_or_app. left. exact P.
  - exists m'. rewrite E. split; [reflexivity|]. split; assumption.
Qed.

Lemma read_num_ok v rest : 0 <= v < 2 ^ 64 -> read_num 8 (num 8 v ++ rest) = Some (v, rest).
Proof.
  intro V. unfold read_num. rewrite (num_le 8 v). assert (L : length (le_bytes 8 v) = 8%nat) by apply le_bytes_length.
  rewrite app_length, L. destruct (Nat.leb_spec 8 (8 + length rest)); [|lia].
  assert (A1 : firstn 8 (le_bytes 8 v ++ rest) = le_bytes 8 v) by (pose proof (firstn_len (le_bytes 8 v) rest) as X; rewrite L in X; exact X).
  assert (A2 : skipn 8 (le_bytes 8 v ++ rest) = rest) by (pose proof (skipn_len (le_bytes 8 v) rest) as X; rewrite L in X; exact X).
  rewrite A1, A2. rewrite of_le_le by (change (256 ^ Z.of_nat 8) with (2 ^ 64); lia). reflexivity.
Qed.

Lemma payload_ok iovs m d tail : good_iovs iovs -> NoDup (spots iovs) -> (forall p, In p (spots iovs) -> exists b, m p = Some b) -> len d < 2 ^ 64 ->
  exists m', deser_payload m iovs (num 8 (len d) ++ firstn (length (spots iovs)) d ++ tail) =
    Ok (m', inl (Z.min (len d) (len (spots iovs)), if len (spots iovs) <? len d then 32 else 0, tail)) /\
    spread m m' (spots iovs) (firstn (length (spots iovs)) d).
Proof.
  intros G N M D. pose proof (len_nonneg d). unfold deser_payload. rewrite read_num_ok by lia. rewrite whole_len by (apply good_2; exact G).
  set (w := spots iovs) in *. set (d' := firstn (length w) d).
  assert (LD : len d' = Z.min (len d) (len w)) by (unfold d', len; rewrite firstn_length; lia).
  rewrite <- LD. rewrite len_app. pose proof (len_nonneg tail). destruct (Z.ltb_spec (len d' + len tail) (len d')); [lia|].
  assert (NL : Z.to_nat (len d') = length d') by (unfold len; lia). rewrite NL, firstn_len, skipn_len.
  destruct (fill_ok iovs m d' G N M) as (m' & E & S); [unfold d', w; rewrite firstn_length; lia|].
  exists m'. split; [|exact S]. clear S. clearbody d' w. destruct iovs as [|v iovs].
  - cbn in E. injection E as <-. reflexivity.
  - destruct (Z.ltb_spec 0 (len d')).
    + rewrite E. reflexivity.
    + assert (D0 : d' = []) by (clear - H2; destruct d' as [|z d']; [reflexivity|rewrite len_cons in *; pose proof (len_nonneg d'); lia]). rewrite D0 in E.
      rewrite fill_nil in E by exact G. injection E as <-. reflexivity.
Qed.

Lemma recvmsg_ok fuel m name np iovs control clen d l q' :
  good_iovs iovs -> NoDup (spots iovs) -> (forall p, In p (spots iovs) -> exists b, m p = Some b) -> len d < 2 ^ 64 ->
  mapped m np 4 -> 0 < control -> 0 < clen -> control + clen + 64 < 2 ^ 64 -> mapped m control clen ->
  (forall p, In p (spots iovs) -> ~ control <= p < control + clen /\ ~ np <= p < np + 4) -> disjoint np 4 control clen ->
  Forall (fun x => len x < 2 ^ 28) l -> (length l < fuel)%nat ->
  exists m', recvmsg fuel m name np iovs control clen (num 8 0 ++ num 8 (len d) ++ firstn (length (spots iovs)) d ++ rights_stream l) (concat l ++ q') =
    Ok (m', concat (skipn (S (length (fitting clen l))) l) ++ q',
        inl (Z.min (len d) (len (spots iovs)), Z.lor (if len (spots iovs) <? len d then 32 else 0) (if all_fit clen l then 0 else 8), total (fitting clen l))) /\
    holds m' (firstn (length d) (spots iovs)) (firstn (length (spots iovs)) d) /\ controls m' control (fitting clen l) /\
    bytes_at m' np [0; 0; 0; 0] /\
    (forall x, ~ In x (firstn (length d) (spots iovs)) -> ~ control <= x < control + total (fitting clen l) -> ~ np <= x < np + 4 -> m' x = m x).
Proof.
  intros G N M D MN A C0 W MC DJ DN LB F. unfold recvmsg, deser_name. rewrite read_num_ok by lia.
  assert (LN : exists v, ld32 m np = Ok v /\ 0 <= Z.min 0 v \/ ld32 m np = Ok v).
  { destruct (MN np ltac:(lia)) as (b0 & E0). destruct (MN (np + 1) ltac:(lia)) as (b1 & E1). destruct (MN (np + 1 + 1) ltac:(lia)) as (b2 & E2). destruct (MN (np + 1 + 1 + 1) ltac:(lia)) as (b3 & E3).
    unfold ld32. cbn [ld_le]. rewrite (ld_ok _ _ _ E0), (ld_ok _ _ _ E1), (ld_ok _ _ _ E2), (ld_ok _ _ _ E3). cbn [bind]. eexists. right. reflexivity. }
  destruct LN as (v & LN). assert (LN' : ld32 m np = Ok v) by (destruct LN as [(LN & _)|LN]; exact LN). clear LN.
  rewrite LN'. cbn [bind]. destruct (Z.ltb_spec 0 (Z.min 0 v)); [lia|].
  destruct (st32_ok m np 0 MN) as (m0 & E0 & B0 & F0). rewrite E0. cbn [bind]. rewrite le_bytes_len in F0. change (Z.of_nat 4) with 4 in F0.
  destruct (payload_ok iovs m0 d (rights_stream l) G N) as (m1 & E1 & H1 & F1).
  { intros p P. destruct (M p P) as (b & B). exists b. rewrite F0; [exact B|]. apply DJ in P. tauto. }
  { exact D. }
  rewrite E1. cbn [bind].
  assert (FD : firstn (length (firstn (length (spots iovs)) d)) (spots iovs) = firstn (length d) (spots iovs)).
  { rewrite firstn_length. destruct (Nat.le_gt_cases (length (spots iovs)) (length d)).
    - rewrite Nat.min_l by lia. rewrite !firstn_all2 by lia. reflexivity.
    - rewrite Nat.min_r by lia. reflexivity. }
  rewrite FD in H1, F1.
  assert (IN : forall p, In p (firstn (length d) (spots iovs)) -> In p (spots iovs)).
  { intros p P. rewrite <- (firstn_skipn (length d) (spots iovs)). apply in_or_app. left. exact P. }
  assert (MC1 : mapped m1 control clen).
  { intros x X. destruct (MC x X) as (b & B). exists b. rewrite F1 by (intro P; apply IN, DJ in P; tauto). rewrite F0 by (unfold disjoint in DN; lia). exact B. }
  assert (BN : forall m', (forall x, np <= x < np + 4 -> m' x = m1 x) -> bytes_at m' np [0; 0; 0; 0]).
  { intros m' X. apply (bytes_at_ext m0); [|exact B0]. intros x Y. rewrite X by exact Y. apply F1. intro P. apply IN, DJ in P. destruct P as (_ & P). apply P. exact Y. }
  destruct l as [|x l].
  - exists m1. destruct (Z.eqb_spec control 0); [lia|]. destruct (Z.ltb_spec 0 clen); [|lia]. cbn [negb andb rights_stream map concat].
    split; [|split; [|split; [|split]]].
    + cbn [fitting length skipn concat app total fold_right]. unfold all_fit. cbn [fitting length Nat.leb]. rewrite Z.lor_0_r. reflexivity.
    + exact H1.
    + exact I.
    + apply BN. reflexivity.
    + intros z Z1 Z2 Z3. rewrite F1 by exact Z1. apply F0. exact Z3.
  - destruct (Z.eqb_spec control 0); [lia|]. destruct (Z.ltb_spec 0 clen); [|lia].
    replace (negb match rights_stream (x :: l) with [] => true | _ :: _ => false end) with true by reflexivity. cbn [negb andb].
    unfold CMSG_FIRSTHDR.
    destruct (deser_control_ok (x :: l) fuel m1 control clen control clen 0 q' LB A ltac:(lia) eq_refl W MC1 F) as (m2 & E2 & C2 & F2).
    rewrite E2. cbn [bind]. exists m2. pose proof (fitting_total clen (x :: l) ltac:(lia)) as FT.
    split; [|split; [|split; [|split]]].
    + reflexivity.
    + clear - H1 F2 DJ IN FT. unfold holds in *. revert H1 IN. generalize (firstn (length (spots iovs)) d) as bs. generalize (firstn (length d) (spots iovs)) as ps.
      induction ps as [|p ps IH]; intros bs H IN; inversion H; subst; constructor.
      * rewrite F2; [assumption|]. destruct (DJ p (IN p (or_introl eq_refl))). lia.
      * apply IH; [assumption|]. intros q Q. apply IN. right. exact Q.
    + exact C2.
    + apply BN. intros z Z. apply F2. unfold disjoint in DN. lia.
    + intros z Z1 Z2 Z3. rewrite F2 by exact Z2. rewrite F1 by exact Z1. apply F0. exact Z3.
Qed.
