(* Lemmas for C117. *)
From Verif Require Import Base Ctype_model Ctype_spec Ctype_proofs Strto_model Strto_spec Strto_proofs Wcs_spec Wcsto_model.

Lemma isspace_wide c : negb (isspace c =? 0) = existsb (Z.eqb c) spaces.
Proof.
  unfold isspace. cbn [existsb spaces]. rewrite orb_false_r.
  destruct (c =? 32), (c =? 9), (c =? 10), (c =? 13), (c =? 11), (c =? 12); reflexivity.
Qed.

Lemma skipws_ok rest ws : forall fuel m p,
  bytes_at m p (ws ++ rest) -> rest <> [] ->
  Forall (fun c => In c spaces) ws -> ends (fun c => In c spaces) rest -> (length ws < fuel)%nat ->
  skipws fuel m p = Ok (p + len ws).
Proof.
  induction ws as [|c ws IH]; intros fuel m p B Hr F E Hf; destruct fuel as [|fuel]; try (cbn in Hf; lia);
    cbn [skipws].
  - destruct rest as [|c rest]; [contradiction|]. destruct B as [B _]. rewrite (ld_ok _ _ _ B). cbn [bind].
    rewrite isspace_wide. cbn [ends] in E. rewrite in_map_bool in E.
    destruct (existsb (Z.eqb c) spaces); [congruence|]. rewrite len_nil, Z.add_0_r. reflexivity.
  - destruct B as [B B']. rewrite (ld_ok _ _ _ B). cbn [bind].
    apply Forall_cons_iff in F. destruct F as [D F].
    rewrite isspace_wide. rewrite (proj1 (in_map_bool _ _) D).
    rewrite (IH fuel m (p + 1)); auto.
    + f_equal. rewrite len_cons. lia.
    + cbn in Hf. lia.
Qed.

Lemma lookup_scalar c : 0 <= lookup c -> scalar_value c = true.
Proof. unfold lookup, scalar_value. bdes; lia. Qed.

Lemma to_digit_ok c b : 2 <= b <= 36 ->
  (is_digit b c -> to_digit c b = Ok (Some (lookup c))) /\ (~ is_digit b c -> to_digit c b = Ok None).
Proof.
  intros Hb. unfold to_digit. rewrite is_digit_iff.
  replace ((2 <=? b) && (b <=? 36)) with true by (symmetry; bdes; lia). cbn [negb]. split.
  - intros H. rewrite lookup_scalar by lia. cbn [negb].
    replace ((lookup c =? -1) || (lookup c >=? b)) with false by (symmetry; apply orb_false_iff; split; lia).
    reflexivity.
  - intros H. destruct (scalar_value c); [|reflexivity]. cbn [negb].
    pose proof (lookup_range c).
    replace ((lookup c =? -1) || (lookup c >=? b)) with true; [reflexivity|].
    symmetry. apply orb_true_iff. destruct (Z.eq_dec (lookup c) (-1)); [left|right]; lia.
Qed.

(* The largest magnitude that can be built up with this sign. *)
Definition bound (lo hi : Z) (minus : bool) : Z := if minus && negb (lo =? 0) then - lo else hi.
Definition signed (lo : Z) (minus : bool) (n : Z) : Z := if minus && negb (lo =? 0) then - n else n.

Lemma digit_step_ok lo hi minus base n d : lo <= 0 <= hi -> 2 <= base -> 0 <= n -> 0 <= d ->
  digit_step lo hi minus base (signed lo minus n) d =
    if n * base + d <=? bound lo hi minus then Some (signed lo minus (n * base + d)) else None.
Proof.
  intros Hl Hb Hn Hd. unfold digit_step, checked, signed, bound.
  assert (0 <= n * base) by nia.
  destruct (minus && negb (lo =? 0)) eqn:G.
  - replace (- n * base) with (- (n * base)) by lia. set (t := n * base) in *. clearbody t.
    destruct ((lo <=? - t) && (- t <=? hi)) eqn:A.
    + destruct ((lo <=? - t - d) && (- t - d <=? hi)) eqn:C, (t + d <=? - lo) eqn:D; try (f_equal; lia); exfalso; lia.
    + destruct (t + d <=? - lo) eqn:D; [exfalso; lia|reflexivity].
  - set (t := n * base) in *. clearbody t.
    destruct ((lo <=? t) && (t <=? hi)) eqn:A.
    + destruct ((lo <=? t + d) && (t + d <=? hi)) eqn:C, (t + d <=? hi) eqn:D; try reflexivity; exfalso; lia.
    + destruct (t + d <=? hi) eqn:D; [exfalso; lia|reflexivity].
Qed.

Lemma wcsto_loop_ok lo hi minus base rest : lo <= 0 <= hi -> 2 <= base <= 36 -> forall ds fuel m p n,
  bytes_at m p (ds ++ rest) -> rest <> [] -> Forall (is_digit base) ds -> ends (is_digit base) rest ->
  (length ds < fuel)%nat -> 0 <= n <= bound lo hi minus ->
  wcsto_loop fuel m lo hi minus base p (signed lo minus n) =
    Ok (if acc base ds n <=? bound lo hi minus then Some (signed lo minus (acc base ds n), p + len ds) else None).
Proof.
  intros Hl Hb. induction ds as [|c ds IH]; intros fuel m p n B Hr F E Hf Hn; destruct fuel as [|fuel];
    try (cbn in Hf; lia); cbn [wcsto_loop].
  - destruct rest as [|c rest]; [contradiction|]. destruct B as [B _]. rewrite (ld_ok _ _ _ B). cbn [bind].
    cbn [ends] in E. rewrite (proj2 (to_digit_ok c base Hb) E). cbn [bind].
    unfold acc. cbn [fold_left]. replace (n <=? bound lo hi minus) with true by lia.
    rewrite len_nil, Z.add_0_r. reflexivity.
  - destruct B as [B B']. rewrite (ld_ok _ _ _ B). cbn [bind].
    apply Forall_cons_iff in F. destruct F as [D F]. rewrite (proj1 (to_digit_ok c base Hb) D). cbn [bind].
    apply is_digit_iff in D. rewrite digit_step_ok by lia.
    assert (0 <= n * base) by nia.
    change (acc base (c :: ds) n) with (acc base ds (n * base + lookup c)).
    destruct (n * base + lookup c <=? bound lo hi minus) eqn:G.
    + rewrite IH; auto; [|cbn in Hf; lia|lia].
      rewrite len_cons. replace (p + 1 + len ds) with (p + (len ds + 1)) by lia. reflexivity.
    + pose proof (acc_ge base ds ltac:(lia) F (n * base + lookup c) ltac:(lia)).
      destruct (acc base ds (n * base + lookup c) <=? bound lo hi minus) eqn:Q; [exfalso; lia|reflexivity].
Qed.

Lemma not_x base body t : (base = 0 \/ base = 16) -> ~ hex_prefixed body -> ~ bare_body body -> body = 48 :: t ->
  match t with x :: _ => ((x =? 120) || (x =? 88)) = false | [] => True end.
Proof.
  intros Hb NH NB ->. destruct t as [|x t]; [exact I|].
  destruct ((x =? 120) || (x =? 88)) eqn:G; [exfalso|reflexivity].
  assert (Hx : x = 120 \/ x = 88) by lia.
  destruct t as [|h t].
  - apply NB. exists x, []. repeat split; auto.
  - destruct (is_digit_dec 16 h).
    + apply NH. exists x, h, t. auto.
    + apply NB. exists x, (h :: t). auto.
Qed.

Lemma wcsto_base_ok base m p pfx body b : valid_base base -> bytes_at m p (body ++ [0]) ->
  radix base body pfx b -> (base = 0 \/ base = 16 -> ~ bare_body body) ->
  wcsto_base m p base = Ok (p + len pfx, b).
Proof.
  intros Hv B Rx NB. unfold wcsto_base.
  assert (HD : exists c t, body ++ [0] = c :: t /\ ld m p = Ok c /\ bytes_at m (p + 1) t).
  { destruct (body ++ [0]) as [|c t] eqn:E; [destruct body; discriminate|].
    destruct B as [B1 B2]. exists c, t. split; [reflexivity|]. split; [apply ld_ok; exact B1|exact B2]. }
  destruct HD as (c & t & E & L & B'). rewrite L. cbn [bind].
  inversion Rx as [x t' H E' Hb|t' NH Hb E'|Hb E'|Hb NH]; subst.
  - (* hexadecimal prefix *)
    cbn [app] in E. injection E as <- <-.
    replace (((base =? 16) || (base =? 0)) && (48 =? 48)) with true by (symmetry; rewrite Z.eqb_refl; lia).
    cbn in B'. destruct B' as [B1 _]. rewrite (ld_ok _ _ _ B1). cbn [bind].
    destruct H as (x' & h & t'' & E'' & Hx & _). injection E'' as <- _.
    replace ((x =? 120) || (x =? 88)) with true by lia. cbv iota. reflexivity.
  - cbn [app] in E. injection E as <- <-.
    replace (((0 =? 16) || (0 =? 0)) && (48 =? 48)) with true by reflexivity.
    pose proof (not_x 0 (48 :: t') t' (or_introl eq_refl) NH (NB (or_introl eq_refl)) eq_refl) as N.
    destruct t' as [|x t'].
    + cbn in B'. destruct B' as [B1 _]. rewrite (ld_ok _ _ _ B1). cbn. rewrite Z.add_0_r. reflexivity.
    + cbn in B'. destruct B' as [B1 _]. rewrite (ld_ok _ _ _ B1). cbn [bind]. rewrite N.
      rewrite len_nil, Z.add_0_r. reflexivity.
  - assert (C48 : c =? 48 = false).
    { destruct body as [|c' body]; cbn in E; injection E as <- _; [reflexivity|]. cbn in E'. lia. }
    rewrite C48, andb_false_r. cbn [bind]. rewrite len_nil, Z.add_0_r. reflexivity.
  - assert (PF : (if ((b =? 16) || (b =? 0)) && (c =? 48) then x <- ld m (p + 1) ;; Ok ((x =? 120) || (x =? 88)) else Ok false) = Ok false).
    { destruct (((b =? 16) || (b =? 0)) && (c =? 48)) eqn:G; [|reflexivity].
      assert (b = 16 /\ c = 48) as [-> ->] by lia.
      destruct body as [|c' body]; [cbn in E; injection E as E _; discriminate|].
      cbn [app] in E. injection E as -> <-.
      assert (NH' : ~ hex_prefixed (48 :: body)) by (intros H; apply NH; auto).
      pose proof (not_x 16 (48 :: body) body (or_intror eq_refl) NH' (NB (or_intror eq_refl)) eq_refl) as N.
      destruct body as [|x body]; cbn in B'; destruct B' as [B1 _]; rewrite (ld_ok _ _ _ B1); cbn [bind]; [reflexivity|].
      rewrite N. reflexivity. }
    rewrite PF. cbn [bind]. replace (b =? 0) with false by lia. rewrite len_nil, Z.add_0_r. reflexivity.
Qed.

(* What a call delivers, as a function of the number read and the characters used. *)
Definition wfinish (lo hi : Z) (neg : bool) (n e : Z) : wcsto_out :=
  if n <=? bound lo hi neg
  then {| wvalue := if neg then (if lo =? 0 then (- n) mod (hi + 1) else - n) else n; wend := Some e; werr := None |}
  else {| wvalue := if lo =? 0 then hi else -1; wend := None; werr := Some ERANGE |}.

Lemma wcsto_impl_ok lo hi fuel m s base text neg n used ds :
  lo <= 0 <= hi -> valid_base base -> wstr m s text -> (length text < fuel)%nat ->
  subject base text neg n used ds -> (base = 0 \/ base = 16 -> ~ bare_0x text) ->
  wcsto_impl lo hi fuel m s base = Ok (wfinish lo hi neg n (s + used)).
Proof.
  intros Hl Hv [Hc B] Hf [Sub] Q16.
  destruct Sub as [ws [sg [pfx [rest [b [-> [Fw [Ew [Sg [Es [Rx [Nm [Er ->]]]]]]]]]]]]].
  destruct (numeral_acc _ _ _ Nm) as [Fd ->].
  rewrite <- app_assoc in B. pose proof B as B'. apply bytes_at_app in B'. destruct B' as [_ B'].
  rewrite !app_length in Hf. unfold wcsto_impl.
  rewrite (skipws_ok ((sg ++ pfx ++ ds ++ rest) ++ [0]) ws); auto; try lia.
  2:{ destruct (sg ++ pfx ++ ds ++ rest); discriminate. }
  2:{ destruct (sg ++ pfx ++ ds ++ rest); [cbn; intuition lia|exact Ew]. }
  cbn [bind]. rewrite <- app_assoc in B'. apply bytes_at_app in B'. destruct B' as [Bsg Bbody].
  assert (Hb : 2 <= b <= 36) by (inversion Rx; subst; unfold valid_base in Hv; lia).
  (* the character deciding the sign *)
  assert (CH : exists ch, ld m (s + len ws) = Ok ch /\ (ch =? 45) = neg /\
     (if (ch =? 45) || (ch =? 43) then s + len ws + 1 else s + len ws) = s + len ws + len sg).
  { destruct Sg.
    - assert (exists c t', (pfx ++ ds ++ rest) ++ [0] = c :: t') as [c [t' Eq]].
      { destruct (pfx ++ ds ++ rest); cbn; eauto. }
      rewrite len_nil, Z.add_0_r, Eq in Bbody. destruct Bbody as [Bc _].
      exists c. split; [apply ld_ok; exact Bc|].
      specialize (Es eq_refl). rewrite len_nil, Z.add_0_r.
      assert (c <> 43 /\ c <> 45) as [N1 N2].
      { destruct (pfx ++ ds ++ rest) as [|c' t'']; cbn in Eq; injection Eq as <- _; [lia|]. cbn in Es. lia. }
      destruct (Z.eqb_spec c 45); [contradiction|]. destruct (Z.eqb_spec c 43); [contradiction|]. auto.
    - destruct Bsg as [Bsg _]. exists 43. split; [apply ld_ok; exact Bsg|]. auto.
    - destruct Bsg as [Bsg _]. exists 45. split; [apply ld_ok; exact Bsg|]. auto. }
  destruct CH as (ch & L & Neg & P). rewrite L. cbn [bind]. rewrite P, Neg.
  rewrite (wcsto_base_ok base m _ pfx (pfx ++ ds ++ rest) b Hv Bbody Rx).
  2:{ intros H [x [t [Hb' [Hx Ht]]]]. apply (Q16 H). exists ws, sg, neg, x, t. rewrite Hb'. auto 6. }
  cbn [bind]. rewrite <- !app_assoc in Bbody. apply bytes_at_app in Bbody. destruct Bbody as [_ Bd].
  assert (SZ : signed lo neg 0 = 0) by (unfold signed; destruct (neg && negb (lo =? 0)); reflexivity).
  rewrite <- SZ at 1.
  rewrite (wcsto_loop_ok lo hi neg b (rest ++ [0]) Hl Hb ds); auto; try lia.
  - cbn [bind]. unfold wfinish. destruct (acc b ds 0 <=? bound lo hi neg) eqn:G; [|reflexivity].
    replace (s + len ws + len sg + len pfx + len ds) with (s + (len ws + len sg + len pfx + len ds)) by lia.
    f_equal. f_equal. unfold signed. destruct neg; cbn [andb]; [|reflexivity].
    destruct (lo =? 0) eqn:L0; cbn [negb]; [|reflexivity].
    replace (hi - acc b ds 0 + 1) with (- acc b ds 0 + 1 * (hi + 1)) by lia.
    apply Z_mod_plus_full.
  - destruct rest; discriminate.
  - destruct rest; [cbn; rewrite is_digit_iff; cbn; lia|exact Er].
  - unfold bound. destruct (neg && negb (lo =? 0)); lia.
Qed.

Lemma wcstol_ok fuel m s base text neg n used ds v :
  valid_base base -> wstr m s text -> (length text < fuel)%nat ->
  subject base text neg n used ds -> ds <> [] -> (base = 0 \/ base = 16 -> ~ bare_0x text) ->
  signed_result (- 2 ^ 63) (2 ^ 63 - 1) neg n = (v, None) ->
  wcstol fuel m s base = Ok {| wvalue := v; wend := Some (s + used); werr := None |}.
Proof.
  intros Hv Hs Hf Sub _ Q E. unfold wcstol. rewrite (wcsto_impl_ok _ _ fuel m s base text neg n used ds); auto.
  2:{ unfold LONG_MIN, LONG_MAX. lia. }
  pose proof (subject_nonneg _ _ _ _ _ _ Hv Sub) as Hn.
  unfold signed_result in E. unfold wfinish, bound. change (LONG_MIN =? 0) with false. cbn [negb]. rewrite andb_true_r.
  change (- 2 ^ 63) with LONG_MIN in E. change (2 ^ 63 - 1) with LONG_MAX in E.
  destruct neg.
  - destruct (- n <? LONG_MIN) eqn:A; [discriminate|]. destruct (LONG_MAX <? - n) eqn:C; [discriminate|].
    injection E as <-. replace (n <=? - LONG_MIN) with true by lia. reflexivity.
  - destruct (n <? LONG_MIN) eqn:A; [discriminate|]. destruct (LONG_MAX <? n) eqn:C; [discriminate|].
    injection E as <-. replace (n <=? LONG_MAX) with true by lia. reflexivity.
Qed.

Lemma wcstol_range fuel m s base text neg n used ds v :
  valid_base base -> wstr m s text -> (length text < fuel)%nat ->
  subject base text neg n used ds -> (base = 0 \/ base = 16 -> ~ bare_0x text) ->
  signed_result (- 2 ^ 63) (2 ^ 63 - 1) neg n = (v, Some 34) ->
  wcstol fuel m s base = Ok {| wvalue := -1; wend := None; werr := Some 34 |}.
Proof.
  intros Hv Hs Hf Sub Q E. unfold wcstol. rewrite (wcsto_impl_ok _ _ fuel m s base text neg n used ds); auto.
  2:{ unfold LONG_MIN, LONG_MAX. lia. }
  pose proof (subject_nonneg _ _ _ _ _ _ Hv Sub) as Hn.
  unfold signed_result in E. unfold wfinish, bound. change (LONG_MIN =? 0) with false. cbn [negb]. rewrite andb_true_r.
  change (- 2 ^ 63) with LONG_MIN in E. change (2 ^ 63 - 1) with LONG_MAX in E.
  destruct neg.
  - replace (n <=? - LONG_MIN) with false; [reflexivity|].
    destruct (- n <? LONG_MIN) eqn:A; [lia|]. destruct (LONG_MAX <? - n) eqn:C; [|discriminate].
    unfold LONG_MAX in C. lia.
  - replace (n <=? LONG_MAX) with false; [reflexivity|].
    destruct (n <? LONG_MIN) eqn:A; [unfold LONG_MIN in A; lia|]. destruct (LONG_MAX <? n) eqn:C; [lia|discriminate].
Qed.

Lemma wcstoul_ok fuel m s base text neg n used ds v :
  valid_base base -> wstr m s text -> (length text < fuel)%nat ->
  subject base text neg n used ds -> ds <> [] -> (base = 0 \/ base = 16 -> ~ bare_0x text) ->
  unsigned_result neg n = (v, None) ->
  wcstoul fuel m s base = Ok {| wvalue := v; wend := Some (s + used); werr := None |}.
Proof.
  intros Hv Hs Hf Sub _ Q E. unfold wcstoul. rewrite (wcsto_impl_ok _ _ fuel m s base text neg n used ds); auto.
  2:{ unfold ULONG_MAX. lia. }
  unfold unsigned_result in E. unfold wfinish, bound. change (0 =? 0) with true. cbn [negb]. rewrite andb_false_r.
  change (2 ^ 64 - 1) with ULONG_MAX in E. change (ULONG_MAX + 1) with (2 ^ 64).
  pose proof (subject_nonneg _ _ _ _ _ _ Hv Sub) as Hn.
  destruct (ULONG_MAX <? n) eqn:A; [discriminate|]. injection E as <-.
  replace (n <=? ULONG_MAX) with true by lia. destruct neg; [reflexivity|].
  rewrite Z.mod_small; [reflexivity|]. change (2 ^ 64) with (ULONG_MAX + 1). lia.
Qed.

Lemma wcstoul_range fuel m s base text neg n used ds v :
  valid_base base -> wstr m s text -> (length text < fuel)%nat ->
  subject base text neg n used ds -> (base = 0 \/ base = 16 -> ~ bare_0x text) ->
  unsigned_result neg n = (v, Some 34) ->
  wcstoul fuel m s base = Ok {| wvalue := v; wend := None; werr := Some 34 |}.
Proof.
  intros Hv Hs Hf Sub Q E. unfold wcstoul. rewrite (wcsto_impl_ok _ _ fuel m s base text neg n used ds); auto.
  2:{ unfold ULONG_MAX. lia. }
  unfold unsigned_result in E. unfold wfinish, bound. change (0 =? 0) with true. cbn [negb]. rewrite andb_false_r.
  change (2 ^ 64 - 1) with ULONG_MAX in E.
  destruct (ULONG_MAX <? n) eqn:A; [|discriminate]. injection E as <-.
  replace (n <=? ULONG_MAX) with false by lia. reflexivity.
Qed.

Lemma wcsto_none lo hi fuel m s base text neg n used :
  lo <= 0 <= hi -> valid_base base -> wstr m s text -> (length text < fuel)%nat ->
  subject base text neg n used [] -> (base = 0 \/ base = 16 -> ~ bare_0x text) ->
  exists e, wcsto_impl lo hi fuel m s base = Ok {| wvalue := 0; wend := Some e; werr := None |}.
Proof.
  intros Hl Hv Hs Hf Sub Q. exists (s + used). rewrite (wcsto_impl_ok _ _ fuel m s base text neg n used []); auto.
  destruct Sub as [(ws & sg & pfx & rest & b & _ & _ & _ & _ & _ & _ & Nm & _)].
  destruct (numeral_acc _ _ _ Nm) as [_ ->]. change (acc b [] 0) with 0. unfold wfinish, bound.
  replace (0 <=? (if neg && negb (lo =? 0) then - lo else hi)) with true
    by (destruct (neg && negb (lo =? 0)); lia).
  destruct neg, (lo =? 0); try reflexivity; rewrite Zmod_0_l; reflexivity.
Qed.
