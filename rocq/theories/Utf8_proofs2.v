From Verif Require Import Base String_model String_spec Utf8_model Utf8_spec Utf8_proofs.
Ltac Zify.zify_post_hook ::= Z.div_mod_to_equations.

Lemma ok3_eq (a a' : mem) (b b' c c' : Z) : a = a' -> b = b' -> c = c' -> Ok (a, b, c) = Ok (a', b', c').
Proof. intros; subst; reflexivity. Qed.
Ltac ok3 := apply ok3_eq; [reflexivity|lia|lia].

Lemma from_utf8_hd m s k l : from_utf8 m s k = Ok (Some l) -> m s = Some (hd 0 l).
Proof.
  unfold from_utf8, ld. destruct (m s) as [b0|] eqn:E0; [|discriminate]. cbn [bind].
  destruct (k =? 1). { destruct (b0 <=? 127); [|discriminate]. intros [= <-]. reflexivity. }
  destruct (k =? 2). { destruct (m (s + 1)); [|discriminate]. cbn [bind]. destruct (is_cont _); [|discriminate]. intros [= <-]. reflexivity. }
  destruct (k =? 3).
  - destruct (m (s + 1)); [|discriminate]. cbn [bind].
    match goal with |- (if negb ?t then _ else _) = _ -> _ => destruct t; [|discriminate] end. cbn [negb].
    destruct (m (s + 2)); [|discriminate]. cbn [bind]. destruct (is_cont _); [|discriminate]. intros [= <-]. reflexivity.
  - destruct (m (s + 1)); [|discriminate]. cbn [bind].
    match goal with |- (if negb ?t then _ else _) = _ -> _ => destruct t; [|discriminate] end. cbn [negb].
    destruct (m (s + 2)); [|discriminate]. cbn [bind]. destruct (is_cont _); [|discriminate]. cbn [negb].
    destruct (m (s + 3)); [|discriminate]. cbn [bind]. destruct (is_cont _); [|discriminate]. intros [= <-]. reflexivity.
Qed.
Lemma from_utf8_total m s k : 1 <= k <= 4 -> mapped m s k -> exists r, from_utf8 m s k = Ok r.
Proof.
  intros Hk Hm. unfold from_utf8.
  destruct (Hm s ltac:(lia)) as [b0 E0]. rewrite (ld_ok _ _ _ E0). cbn [bind].
  destruct (Z.eqb_spec k 1); [eauto|].
  destruct (Hm (s + 1) ltac:(lia)) as [b1 E1]. rewrite (ld_ok _ _ _ E1). cbn [bind].
  destruct (Z.eqb_spec k 2); [eauto|].
  destruct (Hm (s + 2) ltac:(lia)) as [b2 E2]. rewrite (ld_ok _ _ _ E2). cbn [bind].
  destruct (Z.eqb_spec k 3); [match goal with |- context [if negb ?t then _ else _] => destruct t end; cbn [negb]; eauto|].
  destruct (Hm (s + 3) ltac:(lia)) as [b3 E3]. rewrite (ld_ok _ _ _ E3). cbn [bind].
  match goal with |- context [if negb ?t then _ else _] => destruct t end; cbn [negb]; eauto.
  match goal with |- context [if negb ?t then _ else _] => destruct t end; cbn [negb]; eauto.
Qed.

Lemma bytes_at_len_eq m a : forall l k, bytes_at m a l -> bytes_at m a k -> (length l <= length k)%nat -> exists post, k = l ++ post.
Proof.
  intros l; revert a. induction l as [|x l IH]; intros a k Hl Hk HL; [exists k; reflexivity|].
  destruct k as [|y k]; cbn [length] in HL; [inversion HL|]. destruct Hl as [H1 H2], Hk as [H3 H4].
  destruct (IH _ k H2 H4 ltac:(lia)) as [post E]. exists post. cbn. congruence.
Qed.

Lemma width_bounds b : utf8_char_width b = 0 \/ 1 <= utf8_char_width b <= 4.
Proof. unfold utf8_char_width. bd; lia. Qed.

(** What mbrtowc does on an arbitrary non-empty byte sequence. *)
Lemma mbrtowc_cases m s bs : s <> NULL -> bs <> [] -> Forall is_byte bs -> bytes_at m s bs ->
  exists r wc e, mbrtowc m s (len bs) = Ok (r, wc, e) /\
    ((exists c, starts_with_char bs c /\ r = mb_ret c /\ wc = Some c /\ e = None) \/
     ((forall c, ~ starts_with_char bs c) /\ wc = None /\ e = Some EILSEQ /\
      ((r = SZ_M1 /\ utf8_char_width (hd 0 bs) <= len bs) \/ (r = SZ_M2 /\ len bs < utf8_char_width (hd 0 bs))))).
Proof.
  intros Hs Hne Hby Hb.
  assert (NS : forall c, starts_with_char bs c -> len (utf8 c) <= len bs /\ utf8_char_width (hd 0 bs) = len (utf8 c) /\ bytes_at m s (utf8 c)).
  { intros c [Hc [post E]]. subst bs. rewrite len_app. pose proof (len_nonneg post). apply bytes_at_app in Hb.
    repeat split; [lia| |tauto]. rewrite <- (width_utf8 c Hc). pose proof (utf8_ne c). destruct (utf8 c); [congruence|reflexivity]. }
  unfold mbrtowc. destruct (Z.eqb_spec s NULL); [contradiction|]. unfold utf8_mbrtowc.
  destruct bs as [|b0 bt] eqn:Ebs; [congruence|]. rewrite <- Ebs in *. assert (Hh : m s = Some (hd 0 bs)) by (rewrite Ebs in *; apply Hb).
  rewrite (ld_ok _ _ _ Hh). cbn [bind].
  destruct (Z.ltb_spec (len bs) (utf8_char_width (hd 0 bs))).
  { eexists _, _, _. split; [reflexivity|]. right. repeat split; [|right; split; [reflexivity|assumption]].
    intros c Hc. apply NS in Hc. lia. }
  destruct (Z.eqb_spec (utf8_char_width (hd 0 bs)) 0) as [E0|E0].
  { eexists _, _, _. split; [reflexivity|]. right. repeat split; [|left; split; [reflexivity|assumption]].
    intros c Hc. apply NS in Hc. pose proof (utf8_len_bounds c). lia. }
  destruct (from_utf8_total m s (utf8_char_width (hd 0 bs))) as [r Er].
  { destruct (width_bounds (hd 0 bs)); lia. }
  { intros x Hx. apply (bytes_at_mapped _ _ _ Hb). lia. }
  rewrite Er. cbn [bind]. destruct r as [l|].
  - pose proof (from_utf8_hd _ _ _ _ Er) as Hl. assert (Hq : hd 0 l = hd 0 bs) by congruence.
    rewrite <- Hq in Er, E0. destruct (from_utf8_sound m s l) as [c [Hc [Ec Hlb]]]; [|exact Er|exact E0|].
    { rewrite Hq. rewrite Ebs in Hby |- *. inversion Hby; assumption. }
    eexists _, _, _. split; [reflexivity|]. left. exists c. subst l. rewrite decode_utf8 by exact Hc.
    rewrite <- Hq, width_utf8 by exact Hc. repeat split; [exact Hc|].
    apply (bytes_at_len_eq m s); [exact Hlb|exact Hb|]. rewrite <- Hq, width_utf8 in H by exact Hc. unfold len in H. lia.
  - eexists _, _, _. split; [reflexivity|]. right. repeat split; [|left; split; [reflexivity|assumption]].
    intros c Hc. destruct (NS c Hc) as [N1 [N2 N3]]. rewrite N2 in Er. rewrite from_utf8_ok in Er; [discriminate| |exact N3].
    apply Hc.
Qed.

Lemma truncated_width bs : bs <> [] -> truncated_char bs -> len bs < utf8_char_width (hd 0 bs).
Proof.
  intros Hne [c [post [Hc [Hp E]]]]. destruct bs as [|b bt]; [congruence|].
  pose proof (width_utf8 c Hc) as W. rewrite E in W. cbn [app hd] in W. cbn [hd]. rewrite W.
  change (b :: bt ++ post) with ((b :: bt) ++ post). rewrite len_app. destruct post; [congruence|]. rewrite (len_cons z post). pose proof (len_nonneg post). lia.
Qed.

Lemma mbrtowc_decodes m s bs : s <> NULL -> bs <> [] -> Forall is_byte bs -> bytes_at m s bs ->
  exists r wc e, mbrtowc m s (len bs) = Ok (r, wc, e) /\
    (forall c, starts_with_char bs c -> r = (if c =? 0 then 0 else len (utf8 c)) /\ wc = Some c /\ e = None) /\
    ((forall c, ~ starts_with_char bs c) -> (r = SZ_M1 \/ r = SZ_M2) /\ wc = None /\ e = Some EILSEQ).
Proof.
  intros Hs Hne Hby Hb. destruct (mbrtowc_cases m s bs Hs Hne Hby Hb) as [r [wc [e [E [[c [Hc [Hr [Hw He]]]]|[Hn [Hw [He Hr]]]]]]]].
  - exists r, wc, e. split; [exact E|]. split; [|intros N; destruct (N c Hc)].
    intros c' Hc'. assert (Q : mbrtowc m s (len bs) = Ok (mb_ret c', Some c', None)).
    { apply mbrtowc_char; [exact Hs|apply Hc'| |]; destruct Hc' as [_ [post Ep]]; rewrite Ep in *.
      - apply bytes_at_app in Hb. tauto.
      - rewrite len_app. pose proof (len_nonneg post). lia. }
    rewrite E in Q. injection Q as -> -> ->. auto.
  - exists r, wc, e. split; [exact E|]. split; [intros c Hc; destruct (Hn c Hc)|]. intros _. intuition.
Qed.

Lemma mbrtowc_classify m s bs : s <> NULL -> bs <> [] -> Forall is_byte bs -> bytes_at m s bs ->
  (forall c, ~ starts_with_char bs c) ->
  exists r, mbrtowc m s (len bs) = Ok (r, None, Some EILSEQ) /\
    (truncated_char bs -> r = SZ_M2) /\ (4 <= len bs -> r = SZ_M1).
Proof.
  intros Hs Hne Hby Hb Hno. destruct (mbrtowc_cases m s bs Hs Hne Hby Hb) as [r [wc [e [E [[c [Hc _]]|[Hn [Hw [He Hr]]]]]]]].
  - destruct (Hno c Hc).
  - subst. exists r. split; [exact E|]. pose proof (width_bounds (hd 0 bs)). split.
    + intros Ht. apply truncated_width in Ht; [|exact Hne]. destruct Hr as [[_ ?]|[-> _]]; [lia|reflexivity].
    + intros H4. destruct Hr as [[-> _]|[_ ?]]; [reflexivity|lia].
Qed.

Lemma mbrtowc_null m n : mbrtowc m NULL n = Ok (0, Some 0, None).
Proof. reflexivity. Qed.
Lemma wcrtomb_null m wc : wcrtomb m NULL wc = Ok (m, 1, None).
Proof. reflexivity. Qed.

Lemma roundtrip m s wc n : s <> NULL -> scalar wc -> mapped m s (len (utf8 wc)) -> len (utf8 wc) <= n ->
  exists m' r, wcrtomb m s wc = Ok (m', r, None) /\
    mbrtowc m' s n = Ok (if wc =? 0 then 0 else r, Some wc, None).
Proof.
  intros Hs Hc Hm Hn. destruct (wcrtomb_ok m s wc Hs Hc Hm) as [m' [E [S _]]].
  exists m', (len (utf8 wc)). split; [exact E|]. apply mbrtowc_char; assumption.
Qed.

Lemma to_i32_small r : -2147483648 <= r < 2147483648 -> to_i32 r = r.
Proof. unfold to_i32. lia. Qed.

Lemma mblen_ok m s bs : s <> NULL -> bs <> [] -> Forall is_byte bs -> bytes_at m s bs ->
  exists r, mblen m s (len bs) = Ok r /\
    (forall c, starts_with_char bs c -> r = if c =? 0 then 0 else len (utf8 c)) /\
    ((forall c, ~ starts_with_char bs c) -> r = -1).
Proof.
  intros Hs Hne Hby Hb. destruct (mbrtowc_decodes m s bs Hs Hne Hby Hb) as [r [wc [e [E [H1 H2]]]]].
  unfold mblen. rewrite E. cbn [bind]. eexists. split; [reflexivity|]. split.
  - intros c Hc. destruct (H1 c Hc) as [-> _]. pose proof (utf8_len_bounds c).
    assert (0 <= (if c =? 0 then 0 else len (utf8 c)) <= 4) by (destruct (c =? 0); lia).
    unfold SZ_M1, SZ_M2, USIZE_MAX. match goal with |- (if ?t then _ else _) = _ => replace t with false by lia end.
    apply to_i32_small. lia.
  - intros N. destruct (H2 N) as [[-> | ->] _]; reflexivity.
Qed.

Lemma btowc_wctob c : -1 <= c < 256 -> btowc c = Ok (if (0 <=? c) && (c <=? 127) then c else WEOF).
Proof.
  intros H. destruct (Z.eq_dec c (-1)) as [->|]; [reflexivity|].
  assert (B : is_byte c) by (unfold is_byte; lia).
  generalize (byte_sweep (fun c => match btowc c with Ok r => r =? (if (0 <=? c) && (c <=? 127) then c else WEOF) | _ => false end) ltac:(vm_compute; reflexivity) c B).
  destruct (btowc c); intros; try discriminate. f_equal. lia.
Qed.

(** ** Strings *)
Lemma utf8_str_cons c cs : utf8_str (c :: cs) = utf8 c ++ utf8_str cs.
Proof. reflexivity. Qed.
Lemma firstn_cons_pos {A} (n : Z) (x : A) l : 0 < n -> firstn (Z.to_nat n) (x :: l) = x :: firstn (Z.to_nat (n - 1)) l.
Proof. intros. replace (Z.to_nat n) with (S (Z.to_nat (n - 1))) by lia. reflexivity. Qed.
Lemma firstn_nonpos {A} (n : Z) (l : list A) : n <= 0 -> firstn (Z.to_nat n) l = [].
Proof. intros. replace (Z.to_nat n) with O by lia. reflexivity. Qed.

Lemma mbsn_ok dst src dst_len m cs : dst <> NULL -> 0 < src -> wide cs ->
  forall fuel wm doff soff, 0 <= soff -> bytes_at m (src + soff) (utf8_str cs ++ [0]) ->
  soff + len (utf8_str cs) + 4 <= USIZE_MAX -> (length cs < fuel)%nat -> 0 <= doff <= dst_len ->
  mapped wm (dst + doff) (Z.min (len cs + 1) (dst_len - doff)) ->
  exists wm', mbsn_loop fuel m wm dst src USIZE_MAX dst_len doff soff =
      Ok (wm', Z.min dst_len (doff + len cs),
          if doff + len cs <? dst_len then NULL else src + soff + len (utf8_str (firstn (Z.to_nat (dst_len - doff)) cs))) /\
    stored wm wm' (dst + doff) (firstn (Z.to_nat (dst_len - doff)) (cs ++ [0])).
Proof.
  intros Hd Hsrc Hw. induction Hw as [|c cs Hc Hw IH]; intros fuel wm doff soff Hso Hb Hsz Hf Hdo Hm;
    (destruct fuel as [|f]; [cbn [length] in Hf; lia|]); cbn [mbsn_loop]; replace (dst =? NULL) with false by lia; cbn [orb].
  - cbn [utf8_str flat_map app] in Hb. rewrite len_nil in *. destruct (Z.ltb_spec doff dst_len).
    + cbn [utf8_str flat_map] in Hsz. rewrite len_nil in Hsz. replace (soff <? USIZE_MAX) with true by lia. cbn [andb].
      rewrite (mbrtowc_char m _ _ 0); [|unfold NULL; lia|unfold scalar; lia|exact Hb|change (len (utf8 0)) with 1; lia].
      change (mb_ret 0) with 0. change (0 =? SZ_M1) with false. change (0 =? SZ_M2) with false. cbn [bind].
      rewrite st_ok by (apply Hm; lia). cbn [bind]. change (0 =? 0) with true. cbv iota.
      eexists. split; [replace (Z.min dst_len (doff + 0)) with doff by lia; replace (doff + 0 <? dst_len) with true by lia; reflexivity|].
      cbn [app]. rewrite firstn_cons_pos by lia. rewrite firstn_nil. apply stored_cons, stored_nil.
    + cbn [andb]. eexists. rewrite firstn_nil, firstn_nonpos by lia. cbn [utf8_str flat_map]. rewrite len_nil.
      split; [|apply stored_nil]. replace (doff + 0 <? dst_len) with false by lia. ok3.
  - rewrite utf8_str_cons, <- app_assoc in Hb. apply bytes_at_app in Hb. destruct Hb as [Hb1 Hb2].
    rewrite utf8_str_cons, len_app in Hsz. pose proof (utf8_len_bounds c). pose proof (len_nonneg (utf8_str cs)). pose proof (len_nonneg cs).
    rewrite len_cons in *. destruct (Z.ltb_spec doff dst_len).
    + replace (soff <? USIZE_MAX) with true by lia. cbn [andb].
      rewrite (mbrtowc_char m _ _ c); [|unfold NULL; lia|apply Hc|exact Hb1|lia]. cbn [bind].
      destruct Hc as [Hc Hc0]. unfold mb_ret. replace (c =? 0) with false by lia.
      unfold SZ_M1, SZ_M2. assert (100 < USIZE_MAX) by reflexivity. replace (len (utf8 c) =? USIZE_MAX) with false by lia. replace (len (utf8 c) =? USIZE_MAX - 1) with false by lia.
      rewrite st_ok by (apply Hm; lia). cbn [bind].
      destruct (IH f (upd wm (dst + doff) c) (doff + 1) (soff + len (utf8 c))) as [wm' [E S]]; [lia| |lia|cbn [length] in Hf; lia|lia| |].
      * replace (src + (soff + len (utf8 c))) with (src + soff + len (utf8 c)) by lia. exact Hb2.
      * apply mapped_upd. eapply mapped_sub; [exact Hm|lia|lia].
      * exists wm'. rewrite E. split.
        -- rewrite firstn_cons_pos by lia. rewrite utf8_str_cons, len_app.
           replace (dst_len - (doff + 1)) with (dst_len - doff - 1) by lia.
           replace (doff + 1 + len cs <? dst_len) with (doff + (len cs + 1) <? dst_len) by lia.
           destruct (doff + (len cs + 1) <? dst_len); ok3.
        -- cbn [app]. rewrite firstn_cons_pos by lia. apply stored_cons.
           replace (dst + doff + 1) with (dst + (doff + 1)) by lia. replace (dst_len - doff - 1) with (dst_len - (doff + 1)) by lia. exact S.
    + cbn [andb]. eexists. rewrite !firstn_nonpos by lia. cbn [utf8_str flat_map]. rewrite len_nil.
      split; [|apply stored_nil]. replace (doff + (len cs + 1) <? dst_len) with false by lia. ok3.
Qed.

Lemma mbsrtowcs_ok fuel m wm dst src n cs : dst <> NULL -> 0 < src -> wide cs -> 0 <= n ->
  bytes_at m src (utf8_str cs ++ [0]) -> len (utf8_str cs) + 4 <= USIZE_MAX -> (length cs < fuel)%nat ->
  mapped wm dst (Z.min (len cs + 1) n) ->
  exists wm', mbsrtowcs fuel m wm dst src n =
      Ok (wm', Z.min n (len cs),
          if len cs <? n then NULL else src + len (utf8_str (firstn (Z.to_nat n) cs))) /\
    stored wm wm' dst (firstn (Z.to_nat n) (cs ++ [0])).
Proof.
  intros Hd Hs Hw Hn Hb Hsz Hf Hm.
  destruct (mbsn_ok dst src n m cs Hd Hs Hw fuel wm 0 0) as [wm' [E S]]; try lia.
  - rewrite Z.add_0_r. exact Hb.
  - rewrite Z.add_0_r, Z.sub_0_r. exact Hm.
  - exists wm'. unfold mbsrtowcs, mbsnrtowcs. rewrite E. rewrite !Z.add_0_r, Z.sub_0_r, Z.add_0_l in *. split; [reflexivity|exact S].
Qed.

Lemma mbsn_null src m cs wm : 0 < src -> wide cs ->
  forall fuel doff soff n, 0 <= soff -> bytes_at m (src + soff) (utf8_str cs ++ [0]) ->
  soff + len (utf8_str cs) + 4 <= USIZE_MAX -> (length cs < fuel)%nat ->
  mbsn_loop fuel m wm NULL src USIZE_MAX n doff soff = Ok (wm, doff + len cs, NULL).
Proof.
  intros Hsrc Hw. induction Hw as [|c cs Hc Hw IH]; intros fuel doff soff n Hso Hb Hsz Hf;
    (destruct fuel as [|f]; [cbn [length] in Hf; lia|]); cbn [mbsn_loop]; change (NULL =? NULL) with true; cbn [orb].
  - cbn [utf8_str flat_map] in Hsz. rewrite len_nil in *. replace (soff <? USIZE_MAX) with true by lia. cbn [andb].
    rewrite (mbrtowc_char m _ _ 0); [|unfold NULL; lia|unfold scalar; lia|exact Hb|change (len (utf8 0)) with 1; lia].
    cbn [bind]. change (Ok (wm, doff, NULL) = Ok (wm, doff + 0, NULL)). ok3.
  - rewrite utf8_str_cons, <- app_assoc in Hb. apply bytes_at_app in Hb. destruct Hb as [Hb1 Hb2].
    rewrite utf8_str_cons, len_app in Hsz. pose proof (utf8_len_bounds c). pose proof (len_nonneg (utf8_str cs)).
    rewrite len_cons. replace (soff <? USIZE_MAX) with true by lia. cbn [andb].
    rewrite (mbrtowc_char m _ _ c); [|unfold NULL; lia|apply Hc|exact Hb1|lia]. cbn [bind].
    destruct Hc as [Hc Hc0]. unfold mb_ret. replace (c =? 0) with false by lia.
    unfold SZ_M1, SZ_M2. assert (100 < USIZE_MAX) by reflexivity. replace (len (utf8 c) =? USIZE_MAX) with false by lia. replace (len (utf8 c) =? USIZE_MAX - 1) with false by lia.
    cbn [bind]. rewrite (IH f (doff + 1) (soff + len (utf8 c)) n); [ok3|lia| |lia|cbn [length] in Hf; lia].
    replace (src + (soff + len (utf8 c))) with (src + soff + len (utf8 c)) by lia. exact Hb2.
Qed.
Lemma mbstowcs_count fuel m wm src n cs : 0 < src -> wide cs ->
  bytes_at m src (utf8_str cs ++ [0]) -> len (utf8_str cs) + 4 <= USIZE_MAX -> (length cs < fuel)%nat ->
  mbstowcs fuel m wm NULL src n = Ok (wm, len cs).
Proof.
  intros. unfold mbstowcs, mbsrtowcs, mbsnrtowcs. rewrite (mbsn_null src m cs wm); try assumption; try lia.
  - cbn [bind]. repeat f_equal.
  - rewrite Z.add_0_r. assumption.
Qed.

(** wcsrtombs; [p] = dest + written throughout *)
Lemma wcsn_ok dest0 wm n cs tail : 0 < dest0 -> wide cs ->
  forall fuel m src written read, 0 <= written <= n -> 0 <= read -> bytes_at wm src (cs ++ tail) ->
  read + len cs + 4 <= USIZE_MAX -> (length cs < fuel)%nat ->
  mapped m (dest0 + written) (Z.min (len (utf8_str cs)) (n - written)) ->
  exists pre post m', cs = pre ++ post /\
    stored m m' (dest0 + written) (utf8_str pre) /\ written + len (utf8_str pre) <= n /\
    match post with
    | [] => exists f', (fuel = length cs + f')%nat /\
        wcsn_loop fuel m wm (dest0 + written) src USIZE_MAX n written read =
        wcsn_loop f' m' wm (dest0 + written + len (utf8_str cs)) (src + len cs) USIZE_MAX n (written + len (utf8_str cs)) (read + len cs)
    | c :: _ => n < written + len (utf8_str pre) + len (utf8 c) /\
        wcsn_loop fuel m wm (dest0 + written) src USIZE_MAX n written read = Ok (m', written + len (utf8_str pre), src + len pre)
    end.
Proof.
  intros Hd Hw. induction Hw as [|c cs Hc Hw IH]; intros fuel m src written read Hwr Hre Hb Hsz Hf Hm.
  - exists [], [], m. cbn [utf8_str flat_map app length]. rewrite !len_nil. repeat split; try lia.
    exists fuel. repeat split. rewrite !Z.add_0_r. reflexivity.
  - destruct Hb as [Hb0 Hb]. destruct fuel as [|f]; [cbn [length] in Hf; lia|]. rewrite len_cons in Hsz. pose proof (len_nonneg cs).
    rewrite utf8_str_cons, len_app in Hm. pose proof (len_nonneg (utf8_str cs)). pose proof (utf8_len_bounds c). destruct Hc as [Hc Hc0].
    assert (Step : wcsn_loop (S f) m wm (dest0 + written) src USIZE_MAX n written read =
      if n <? written + len (utf8 c) then Ok (m, written, src) else
      m1 <- st_list m (dest0 + written) (utf8 c) ;; wcsn_loop f m1 wm (dest0 + written + len (utf8 c)) (src + 1) USIZE_MAX n (written + len (utf8 c)) (read + 1)).
    { cbn [wcsn_loop]. replace (read <? USIZE_MAX) with true by lia. rewrite (ld_ok _ _ _ Hb0). cbn [bind].
      rewrite Z.mod_small by (unfold scalar in Hc; lia). rewrite from_u32_some, <- utf8_len, encode_eq by exact Hc.
      replace (dest0 + written =? NULL) with false by (unfold NULL; lia). cbn [negb andb]. replace (c =? 0) with false by lia. reflexivity. }
    destruct (Z.ltb_spec n (written + len (utf8 c))).
    + exists [], (c :: cs), m. cbn [utf8_str flat_map app]. rewrite len_nil. repeat split; try lia. rewrite Step, !Z.add_0_r. reflexivity.
    + destruct (st_list_ok (utf8 c) m (dest0 + written)) as [m1 [E1 S1]]; [eapply mapped_sub; [exact Hm|lia|lia]|].
      rewrite E1 in Step. cbn [bind] in Step.
      destruct (IH f m1 (src + 1) (written + len (utf8 c)) (read + 1)) as [pre [post [m' [E [S [L P]]]]]]; try lia; [exact Hb|cbn [length] in Hf; lia| |].
      { eapply stored_mapped; [exact S1|]. eapply mapped_sub; [exact Hm|lia|lia]. }
      exists (c :: pre), post, m'. rewrite utf8_str_cons, len_app. split; [rewrite E; reflexivity|].
      split; [eapply stored_app; [exact S1|]; replace (dest0 + written + len (utf8 c)) with (dest0 + (written + len (utf8 c))) by lia; exact S|].
      split; [lia|]. destruct post as [|c' post].
      * destruct P as [f' [Ef P]]. exists f'. split; [cbn [length]; lia|].
        rewrite Step, utf8_str_cons, len_app, (len_cons c cs). replace (dest0 + written + len (utf8 c)) with (dest0 + (written + len (utf8 c))) by lia.
        rewrite P. f_equal; lia.
      * destruct P as [P1 P]. split; [lia|]. rewrite Step. replace (dest0 + written + len (utf8 c)) with (dest0 + (written + len (utf8 c))) by lia.
        rewrite P, (len_cons c pre). ok3.
Qed.

Lemma wcsrtombs_ok fuel m wm dest src n cs : 0 < dest -> wide cs -> 0 <= n ->
  bytes_at wm src (cs ++ [0]) -> len cs + 4 <= USIZE_MAX -> (length cs < fuel)%nat ->
  mapped m dest (Z.min (len (utf8_str cs) + 1) n) ->
  exists m' pre, fits cs n pre /\
    ((len (utf8_str cs) < n /\ wcsrtombs fuel m wm dest src n = Ok (m', len (utf8_str cs), NULL) /\ stored m m' dest (utf8_str cs ++ [0])) \/
     (n <= len (utf8_str cs) /\ wcsrtombs fuel m wm dest src n = Ok (m', len (utf8_str pre), src + len pre) /\ stored m m' dest (utf8_str pre))).
Proof.
  intros Hd Hw Hn Hb Hsz Hf Hm. pose proof (len_nonneg (utf8_str cs)). pose proof (len_nonneg cs).
  destruct (wcsn_ok dest wm n cs [0] Hd Hw fuel m src 0 0) as [pre [post [m' [E [S [L P]]]]]]; try lia; [exact Hb| |].
  { rewrite Z.add_0_r, Z.sub_0_r. eapply mapped_sub; [exact Hm|lia|lia]. }
  rewrite !Z.add_0_r, !Z.add_0_l in *. unfold wcsrtombs, wcsnrtombs. destruct post as [|c post].
  - rewrite app_nil_r in E. subst pre. destruct P as [f' [Ef P]]. rewrite P. destruct f' as [|f']; [lia|].
    apply bytes_at_app in Hb. destruct Hb as [_ [Hb _]]. cbn [wcsn_loop]. replace (len cs <? USIZE_MAX) with true by lia.
    rewrite (ld_ok _ _ _ Hb). cbn [bind]. change (from_u32 (0 mod 4294967296)) with (Some 0). cbv iota.
    change (len_utf8 0) with 1. change (encode_utf8 0) with [0]. replace (dest + len (utf8_str cs) =? NULL) with false by (unfold NULL; lia). cbn [negb andb].
    destruct (Z.ltb_spec n (len (utf8_str cs) + 1)).
    + exists m', cs. split; [exists []; rewrite app_nil_r; auto|]. right. split; [lia|]. split; [reflexivity|exact S].
    + cbn [st_list]. rewrite st_ok; [|eapply stored_mapped in Hm; [apply Hm|exact S]; lia]. cbn [bind]. change (0 =? 0) with true. cbv iota.
      eexists _, cs. split; [exists []; rewrite app_nil_r; auto|]. left. split; [lia|]. split; [reflexivity|].
      eapply stored_snoc; [exact S|reflexivity].
  - destruct P as [P1 P]. exists m', pre. split; [exists (c :: post); repeat split; [exact E|lia|lia]|]. right.
    split; [|split; [exact P|exact S]]. rewrite E. unfold utf8_str in *. rewrite flat_map_app, len_app. cbn [flat_map]. rewrite len_app. pose proof (len_nonneg (flat_map utf8 post)). lia.
Qed.

Lemma wcsn_bad wm m n cs c : wide cs -> i32 c -> ~ scalar c ->
  forall fuel src written read, 0 <= read -> bytes_at wm src (cs ++ [c]) ->
  read + len cs + 4 <= USIZE_MAX -> (length cs < fuel)%nat ->
  wcsn_loop fuel m wm NULL src USIZE_MAX n written read = Ok (m, SZ_M1, src + len cs).
Proof.
  intros Hw Hi Hb. induction Hw as [|x cs Hx Hw IH]; intros fuel src written read Hre Hby Hsz Hf;
    (destruct fuel as [|f]; [cbn [length] in Hf; lia|]); destruct Hby as [Hb0 Hby]; cbn [wcsn_loop].
  - rewrite len_nil in *. replace (read <? USIZE_MAX) with true by lia. rewrite (ld_ok _ _ _ Hb0). cbn [bind].
    rewrite from_u32_none; [rewrite Z.add_0_r; reflexivity| |]; unfold i32, scalar in *; lia.
  - rewrite len_cons in *. pose proof (len_nonneg cs). replace (read <? USIZE_MAX) with true by lia. rewrite (ld_ok _ _ _ Hb0). cbn [bind]. destruct Hx as [Hx Hx0].
    rewrite Z.mod_small by (unfold scalar in Hx; lia). rewrite from_u32_some by exact Hx. change (NULL =? NULL) with true. cbn [negb andb bind].
    replace (x =? 0) with false by lia. rewrite IH; try lia; [ok3|exact Hby|cbn [length] in Hf; lia].
Qed.
Lemma wcsn_count wm m n cs : wide cs ->
  forall fuel src written read, 0 <= read -> bytes_at wm src (cs ++ [0]) ->
  read + len cs + 4 <= USIZE_MAX -> (length cs < fuel)%nat ->
  wcsn_loop fuel m wm NULL src USIZE_MAX n written read = Ok (m, written + len (utf8_str cs), NULL).
Proof.
  intros Hw. induction Hw as [|x cs Hx Hw IH]; intros fuel src written read Hre Hby Hsz Hf;
    (destruct fuel as [|f]; [cbn [length] in Hf; lia|]); destruct Hby as [Hb0 Hby]; cbn [wcsn_loop].
  - rewrite len_nil in *. replace (read <? USIZE_MAX) with true by lia. rewrite (ld_ok _ _ _ Hb0). cbn [bind].
    change (from_u32 (0 mod 4294967296)) with (Some 0). cbn [utf8_str flat_map]. rewrite len_nil, Z.add_0_r. reflexivity.
  - rewrite len_cons in *. pose proof (len_nonneg cs). replace (read <? USIZE_MAX) with true by lia. rewrite (ld_ok _ _ _ Hb0). cbn [bind]. destruct Hx as [Hx Hx0].
    rewrite Z.mod_small by (unfold scalar in Hx; lia). rewrite from_u32_some by exact Hx. change (NULL =? NULL) with true. cbn [negb andb bind].
    replace (x =? 0) with false by lia. rewrite IH; try lia; [|exact Hby|cbn [length] in Hf; lia].
    rewrite utf8_str_cons, len_app, utf8_len by exact Hx. ok3.
Qed.

Lemma wctob_ok c : 0 <= c < 2 ^ 32 ->
  (forall b, scalar c -> utf8 c = [b] -> wctob c = b) /\ (scalar c -> 1 < len (utf8 c) -> wctob c = -1) /\ (~ scalar c -> wctob c = -1).
Proof.
  intro R. unfold wctob, utf8, EOF. split; [|split].
  - intros b S. destruct (Z.ltb_spec c 128); [intro H0; injection H0 as <-; destruct (Z.leb_spec c 127); lia|].
    repeat match goal with |- context [if ?x then _ else _] => destruct x end; intro H0; discriminate.
  - intros S. destruct (Z.ltb_spec c 128) as [L|L]; [change (len [c]) with 1; lia|]. intros _. destruct (Z.leb_spec c 127); lia.
  - intro S. unfold scalar in S. destruct (Z.leb_spec c 127); lia.
Qed.
