From Verif Require Import Base String_model String_proofs Inet_model Inet_proofs Fnmatch_model Fnmatch_spec.

(* ---- the tokens of a pattern ---- *)
Definition item_chars (i : sitem) : list Z := match i with SOne c => [c] | SRange a b => char_range a b end.
Fixpoint toks (flags : Z) (lead col : bool) (es : list elem) : list (token * bool) :=
  match es with
  | [] => []
  | ELit c :: es => (TChar c, false) :: toks flags (is_leading flags c) false es
  | EEsc c :: es => []
  | EAny :: es => (any lead flags, false) :: toks flags false false es
  | EStar :: es => if col then toks flags false true es else (any lead flags, true) :: toks flags false true es
  | ESet neg l :: es =>
      (TOneOf neg (filter (can_push lead flags) (concat (map item_chars l))), false) :: toks flags false false es
  end.

Lemma item_step m i p flags wl rest c0 t0 :
  item_ok i -> item_text i = c0 :: t0 -> hd 0 rest <> 45 -> rest <> [] -> bytes_at m p (t0 ++ rest) ->
  bracket_item m c0 p flags wl = Ok (filter (can_push wl flags) (item_chars i), p + len t0).
Proof.
  intros OK T H45 NE B. unfold bracket_item. destruct i as [c|a b]; cbn [item_text item_chars item_ok] in *; injection T as <- <-.
  - destruct rest as [|r0 rest]; [congruence|]. cbn [app bytes_at hd] in B, H45. destruct B as [B0 _].
    rewrite (ld_ok _ _ _ B0). cbn [bind]. destruct (Z.eqb_spec r0 45); [congruence|]. cbn [bind].
    rewrite len_nil, Z.add_0_r. reflexivity.
  - cbn [app bytes_at] in B. destruct B as (B0 & B1 & _). rewrite (ld_ok _ _ _ B0). cbn [bind].
    change (45 =? 45) with true. cbv iota. rewrite (ld_ok _ _ _ B1). cbn [bind].
    destruct OK as (_ & OK & _). unfold plain_in in OK. destruct (Z.eqb_spec b 0); [lia|]. cbn [negb bind].
    rewrite !len_cons, len_nil. f_equal; f_equal; lia.
Qed.

Lemma item_text_head i : item_ok i -> exists c t, item_text i = c :: t /\ plain_in c.
Proof. destruct i as [c|a b]; cbn; intros H; eauto. destruct H as (H & _). eauto. Qed.

Lemma rest_head l rest : Forall item_ok l -> hd 0 (concat (map item_text l) ++ 93 :: rest) <> 45.
Proof.
  destruct l as [|i l]; cbn [map concat app hd]; [lia|]. intros F. apply Forall_inv in F. destruct (item_text_head i F) as (c & t & -> & P).
  cbn [app hd]. unfold plain_in in P. lia.
Qed.

Lemma bracket_ok l : forall fuel m p flags wl acc rest,
  Forall item_ok l -> bytes_at m p (concat (map item_text l) ++ 93 :: rest) -> (length l < fuel)%nat ->
  bracket fuel m p flags wl acc
  = Ok (acc ++ filter (can_push wl flags) (concat (map item_chars l)), p + len (concat (map item_text l)) + 1).
Proof.
  induction l as [|i l IH]; intros fuel m p flags wl acc rest OK B F; (destruct fuel as [|f]; [cbn [length] in F; lia|]); cbn [bracket].
  - cbn [map concat app bytes_at] in B. destruct B as [B0 _]. rewrite (ld_ok _ _ _ B0). cbn [bind].
    change (93 =? 0) with false. change (93 =? 93) with true. cbv iota. cbn [map concat filter]. rewrite app_nil_r, len_nil. f_equal; f_equal; lia.
  - cbn [map concat length] in *. pose proof (Forall_inv OK) as Oi. pose proof (Forall_inv_tail OK) as Ol.
    destruct (item_text_head i Oi) as (c & t & E & P). rewrite E in *. cbn [app] in B. destruct B as [B0 B1].
    rewrite (ld_ok _ _ _ B0). cbn [bind]. unfold plain_in in P.
    destruct (Z.eqb_spec c 0); [lia|]. destruct (Z.eqb_spec c 93); [lia|]. destruct (Z.eqb_spec c 92); [lia|].
    rewrite <- app_assoc in B1.
    rewrite (item_step m i (p + 1) flags wl (concat (map item_text l) ++ 93 :: rest) c t Oi E (rest_head l rest Ol)).
    + cbn [bind]. apply bytes_at_app in B1. destruct B1 as [_ B1].
      rewrite (IH f m _ flags wl _ rest Ol B1) by lia. rewrite filter_app, <- app_assoc. rewrite len_app, len_cons. f_equal; f_equal; lia.
    + destruct (concat (map item_text l)); discriminate.
    + exact B1.
Qed.

Lemma set_len l : Forall item_ok l -> (length l <= length (concat (map item_text l)))%nat.
Proof.
  induction l as [|i l IH]; cbn; [lia|]. intros F. rewrite app_length. specialize (IH (Forall_inv_tail F)).
  destruct (item_text_head i (Forall_inv F)) as (c & t & -> & _). cbn. lia.
Qed.

Lemma tokenize_ok es : forall fuel m p flags lead col acc,
  Forall elem_ok es -> Forall no_escape es -> bytes_at m p (text es ++ [0]) -> (length (text es) < fuel)%nat ->
  tokenize fuel m p flags lead col acc = Ok (acc ++ toks flags lead col es).
Proof.
  induction es as [|e es IH]; intros fuel m p flags lead col acc OK NE B F; (destruct fuel as [|f]; [cbn [length] in F; lia|]).
  - cbn in B. destruct B as [B _]. cbn [tokenize]. rewrite (ld_ok _ _ _ B). cbn. rewrite app_nil_r. reflexivity.
  - unfold text in *. cbn [map concat] in *. pose proof (Forall_inv OK) as Oe. pose proof (Forall_inv NE) as Ne.
    pose proof (Forall_inv_tail OK) as Oes. pose proof (Forall_inv_tail NE) as Nes.
    destruct e as [c|c| | |neg l]; cbn [elem_text app length elem_ok no_escape toks] in *; try tauto.
    + destruct B as [B0 B]. cbn [tokenize]. rewrite (ld_ok _ _ _ B0). cbn [bind]. unfold plain in Oe.
      destruct (Z.eqb_spec c 0); [lia|]. destruct (Z.eqb_spec c 42); [lia|]. destruct (Z.eqb_spec c 92); [lia|].
      destruct (Z.eqb_spec c 63); [lia|]. destruct (Z.eqb_spec c 91); [lia|]. cbn [andb].
      rewrite IH by (auto; lia). rewrite <- app_assoc. reflexivity.
    + destruct B as [B0 B]. cbn [tokenize]. rewrite (ld_ok _ _ _ B0). cbn [bind].
      change (63 =? 0) with false. change (63 =? 42) with false. change (63 =? 92) with false. change (63 =? 63) with true. cbn [andb].
      rewrite IH by (auto; lia). rewrite <- app_assoc. reflexivity.
    + destruct B as [B0 B]. cbn [tokenize]. rewrite (ld_ok _ _ _ B0). cbn [bind].
      change (42 =? 0) with false. change (42 =? 42) with true. change (42 =? 92) with false. change (42 =? 63) with false. cbn [andb].
      destruct col; rewrite IH by (auto; lia); [|rewrite <- app_assoc]; reflexivity.
    + rewrite <- app_assoc in B. cbn [app] in B. destruct B as [B0 B]. cbn [tokenize]. rewrite (ld_ok _ _ _ B0). cbn [bind].
      change (91 =? 0) with false. change (91 =? 42) with false. change (91 =? 92) with false. change (91 =? 63) with false.
      change (91 =? 91) with true. cbn [andb]. destruct Oe as [NEl Ol].
      pose proof (set_len l Ol) as SL.
      assert (LT : (length l < S f)%nat) by (cbn [app] in F; rewrite !app_length in F; cbn [length] in F; lia).
      rewrite !app_length in F. cbn [length] in F.
      set (tl := concat (map item_text l)) in *. set (te := concat (map elem_text es)) in *.
      rewrite <- !app_assoc in B. cbn [app] in B.
      destruct neg.
      * cbn [app] in B. destruct B as [B1 B]. rewrite (ld_ok _ _ _ B1). cbn [bind]. change (33 =? 33) with true. cbv iota.
        replace (p + 1 + 1) with (p + 2) in B by lia.
        rewrite (bracket_ok l (S f) m (p + 2) flags lead [] (te ++ [0]) Ol B LT). cbn [bind app].
        apply bytes_at_app in B. destruct B as [_ [_ B]]. fold tl. rewrite IH by (auto; lia). rewrite <- app_assoc. reflexivity.
      * cbn [app] in B. destruct l as [|i l]; [congruence|].
        destruct (item_text_head i (Forall_inv Ol)) as (c & t & E & P).
        assert (Etl : tl = c :: t ++ concat (map item_text l)) by (unfold tl; cbn [map concat]; rewrite E; reflexivity).
        assert (B1 : m (p + 1) = Some c) by (rewrite Etl in B; cbn [app bytes_at] in B; tauto).
        rewrite (ld_ok _ _ _ B1). cbn [bind]. unfold plain_in in P. destruct (Z.eqb_spec c 33); [lia|].
        rewrite (bracket_ok (i :: l) (S f) m (p + 1) flags lead [] (te ++ [0]) Ol B LT). cbn [bind app].
        apply bytes_at_app in B. destruct B as [_ [_ B]]. fold tl. rewrite IH by (auto; lia). rewrite <- app_assoc. reflexivity.
Qed.

(* ---- what the tokens match ---- *)
Section Match.
Context (flags : Z).
Let pathname := flag flags FNM_PATHNAME.
Let period := flag flags FNM_PERIOD.
Definition okc (c : Z) : Prop := flag flags FNM_PERIOD = true -> c <> 46.
Definition Wc (c : Z) : Prop := flag flags FNM_PATHNAME = true -> c <> 47.

Lemma wild_W lead c : okc c -> (wild pathname period lead c <-> Wc c).
Proof. unfold wild, okc, Wc, pathname, period. tauto. Qed.

Lemma any_ok lead c : okc c -> (accepts (any lead flags) c = true <-> Wc c).
Proof.
  unfold okc, Wc, any, accepts. destruct (flag flags FNM_PATHNAME), (flag flags FNM_PERIOD), lead; cbn [andb app existsb eqb];
    intros H; destruct (Z.eqb_spec c 47), (Z.eqb_spec c 46); cbn; intuition (try congruence).
Qed.

Lemma upto_in k : forall a c, In c (upto k a) <-> a <= c < a + Z.of_nat k.
Proof. induction k as [|k IH]; intros a c; cbn [upto In]; [lia|]. rewrite IH. lia. Qed.
Lemma item_chars_ok c i : In c (item_chars i) <-> in_item c i.
Proof.
  destruct i as [d|a b]; cbn [item_chars in_item In]; [intuition congruence|]. unfold char_range. rewrite upto_in. lia.
Qed.
Lemma chars_ok c l : In c (concat (map item_chars l)) <-> Exists (in_item c) l.
Proof.
  rewrite in_concat. rewrite Exists_exists. split.
  - intros (x & I & H). apply in_map_iff in I. destruct I as (i & <- & I). exists i. split; auto. apply item_chars_ok, H.
  - intros (i & I & H). exists (item_chars i). split; [apply in_map, I|]. apply item_chars_ok, H.
Qed.
Lemma push_ok lead c : okc c -> (can_push lead flags c = true <-> Wc c).
Proof.
  unfold okc, Wc, can_push. destruct (flag flags FNM_PATHNAME), (flag flags FNM_PERIOD), lead;
    destruct (Z.eqb_spec c 47), (Z.eqb_spec c 46); cbn; intuition (try congruence).
Qed.
Lemma set_ok lead neg l c : okc c -> (flag flags FNM_PATHNAME = true -> neg = false) ->
  (accepts (TOneOf neg (filter (can_push lead flags) (concat (map item_chars l)))) c = true <-> Wc c /\ in_set c neg l).
Proof.
  intros O N. unfold accepts, in_set.
  assert (E : existsb (Z.eqb c) (filter (can_push lead flags) (concat (map item_chars l))) = true <-> Wc c /\ Exists (in_item c) l).
  { rewrite existsb_exists. rewrite <- chars_ok, <- (push_ok lead c O). split.
    - intros (x & I & X). apply Z.eqb_eq in X. subst x. apply filter_In in I. tauto.
    - intros [P I]. exists c. split; [apply filter_In; tauto|apply Z.eqb_refl]. }
  destruct neg.
  - assert (W : Wc c) by (intros P; specialize (N P); discriminate).
    destruct (existsb _ _) eqn:X; cbn [eqb negb].
    + pose proof (proj1 E eq_refl). intuition congruence.
    + assert (~ Exists (in_item c) l) by (intros Y; pose proof (proj2 E (conj W Y)); congruence). intuition.
  - destruct (existsb _ _); cbn [eqb negb]; intuition.
Qed.

Definition split_at (P : list Z -> Prop) (s : list Z) : Prop := exists s1 s2, s = s1 ++ s2 /\ Forall Wc s1 /\ P s2.
Lemma split_ext P Q s : Forall okc s -> (forall s2, Forall okc s2 -> (P s2 <-> Q s2)) -> (split_at P s <-> split_at Q s).
Proof.
  intros O H. split; intros (s1 & s2 & -> & W & X); exists s1, s2; repeat split; auto; apply Forall_app in O; apply H; tauto.
Qed.

Lemma star_ok lead r s : Forall okc s ->
  (matches ((any lead flags, true) :: r) s = true <-> split_at (fun s => matches r s = true) s).
Proof.
  cbn [matches]. induction s as [|c s IH]; intros O.
  - rewrite orb_false_r. split.
    + intros H. exists [], []. auto.
    + intros (s1 & s2 & E & _ & H). symmetry in E. apply app_eq_nil in E. destruct E; subst. exact H.
  - rewrite orb_true_iff, andb_true_iff. rewrite (any_ok lead c (Forall_inv O)), (IH (Forall_inv_tail O)). split.
    + intros [H|(W & s1 & s2 & -> & F & H)]; [exists [], (c :: s)|exists (c :: s1), s2]; auto.
    + intros (s1 & s2 & E & F & H). destruct s1 as [|c1 s1]; cbn [app] in E.
      * subst. auto.
      * injection E as <- ->. right. split; [exact (Forall_inv F)|]. exists s1, s2. split; auto. split; [exact (Forall_inv_tail F)|auto].
Qed.

Lemma pstar_ok es : forall s lead, Forall okc s ->
  (forall l1 l2 s2, Forall okc s2 -> pmatch pathname period l1 es s2 -> pmatch pathname period l2 es s2) ->
  (pmatch pathname period lead (EStar :: es) s <-> split_at (pmatch pathname period lead es) s).
Proof.
  induction s as [|c s IH]; intros lead O L.
  - split.
    + intros H. inversion H; subst. exists [], []. auto.
    + intros (s1 & s2 & E & _ & H). symmetry in E. apply app_eq_nil in E. destruct E; subst. apply pm_star0. exact H.
  - split.
    + intros H. inversion H as [ | | | | |? ? ? H0|? ? ? ? W H0]; subst.
      * exists [], (c :: s). auto.
      * apply IH in H0; [|exact (Forall_inv_tail O)|exact L]. destruct H0 as (s1 & s2 & -> & F & H0). exists (c :: s1), s2. split; auto.
        split. { constructor; auto. apply (wild_W lead c (Forall_inv O)). exact W. }
        apply (L _ lead _) in H0; auto. apply Forall_inv_tail in O. apply Forall_app in O. tauto.
    + intros (s1 & s2 & E & F & H). destruct s1 as [|c1 s1]; cbn [app] in E.
      * subst s2. apply pm_star0. exact H.
      * injection E as <- ->. apply pm_star; [apply (wild_W lead c (Forall_inv O)); exact (Forall_inv F)|].
        pose proof (Forall_inv_tail O) as O2. apply IH; auto. exists s1, s2. split; auto. split; [exact (Forall_inv_tail F)|].
        apply (L lead _); auto. apply Forall_app in O2. tauto.
Qed.

Lemma pm_lead es : forall s l1 l2, Forall okc s -> pmatch pathname period l1 es s -> pmatch pathname period l2 es s.
Proof.
  intros s l1 l2 O H. revert l2 O. induction H as [|? ? ? ? ? IH|? ? ? ? ? IH|? ? ? ? W ? IH|? ? ? ? ? ? W S0 ? IH|? ? ? ? IH|? ? ? ? W ? IH]; intros l2 O.
  - apply pm_nil.
  - apply pm_lit. apply IH. exact (Forall_inv_tail O).
  - apply pm_esc. apply IH. exact (Forall_inv_tail O).
  - apply pm_any; [|apply IH; exact (Forall_inv_tail O)]. apply (wild_W _ _ (Forall_inv O)) in W. apply (wild_W _ _ (Forall_inv O)). exact W.
  - apply pm_set; [|exact S0|apply IH; exact (Forall_inv_tail O)]. apply (wild_W _ _ (Forall_inv O)) in W. apply (wild_W _ _ (Forall_inv O)). exact W.
  - apply pm_star0. apply IH. exact O.
  - apply pm_star; [|apply IH; exact (Forall_inv_tail O)]. apply (wild_W _ _ (Forall_inv O)) in W. apply (wild_W _ _ (Forall_inv O)). exact W.
Qed.

Lemma split_idem P s : split_at (split_at P) s <-> split_at P s.
Proof.
  split.
  - intros (s1 & s2 & -> & F & s3 & s4 & -> & F2 & H). exists (s1 ++ s3), s4. rewrite app_assoc. split; auto. split; auto. apply Forall_app; auto.
  - intros (s1 & s2 & -> & F & H). exists s1, s2. split; auto. split; auto. exists [], s2. auto.
Qed.

Lemma match_ok es : Forall no_escape es -> (pathname = true -> Forall no_neg es) ->
  (forall s l1 l2, Forall okc s -> (matches (toks flags l1 false es) s = true <-> pmatch pathname period l2 es s)) /\
  (forall s l1 l2, Forall okc s ->
     (split_at (fun s => matches (toks flags l1 true es) s = true) s <-> split_at (pmatch pathname period l2 es) s)).
Proof.
  induction es as [|e es IH]; intros NE NN.
  - assert (A : forall s l1 l2, matches (toks flags l1 false []) s = true <-> pmatch pathname period l2 [] s).
    { intros s l1 l2. cbn [toks matches]. destruct s; split; intros X; try discriminate; auto using pm_nil. inversion X. }
    split; intros s l1 l2 O; [apply (A s l1 l2)|]. apply split_ext; auto. intros s2 _. apply (A s2 l1 l2).
  - pose proof (Forall_inv NE) as Ne.
    destruct (IH (Forall_inv_tail NE) (fun P => Forall_inv_tail (NN P))) as [IA IB]. clear IH.
    assert (LS : forall l1 l2 s2, Forall okc s2 -> pmatch pathname period l1 es s2 -> pmatch pathname period l2 es s2)
      by (intros; eapply pm_lead; eauto).
    assert (A : forall s l1 l2, Forall okc s -> (matches (toks flags l1 false (e :: es)) s = true <-> pmatch pathname period l2 (e :: es) s)).
    { intros s l1 l2 O. destruct e as [c|c| | |neg l]; cbn [toks]; cbn [no_escape] in Ne; try tauto.
      - cbn [matches accepts]. destruct s as [|d s]; [split; intros X; [discriminate|inversion X]|].
        rewrite andb_true_iff, (IA _ _ (next pathname d) (Forall_inv_tail O)), Z.eqb_eq. split.
        + intros [-> X]. apply pm_lit. exact X.
        + intros X. inversion X; subst. auto.
      - cbn [matches]. destruct s as [|d s]; [split; intros X; [discriminate|inversion X]|].
        rewrite andb_true_iff, (any_ok _ _ (Forall_inv O)), (IA _ _ (next pathname d) (Forall_inv_tail O)), <- (wild_W l2 d (Forall_inv O)). split.
        + intros [W X]. apply pm_any; auto.
        + intros X. inversion X; subst. auto.
      - rewrite (star_ok l1 _ s O), (IB s false l2 O). symmetry. apply pstar_ok; auto.
      - cbn [matches]. destruct s as [|d s]; [split; intros X; [discriminate|inversion X]|].
        assert (NG : pathname = true -> neg = false).
        { intros P. specialize (NN P). apply Forall_inv in NN. cbn [no_neg] in NN. destruct neg; tauto. }
        rewrite andb_true_iff, (set_ok _ neg l d (Forall_inv O) NG), (IA _ _ (next pathname d) (Forall_inv_tail O)), <- (wild_W l2 d (Forall_inv O)). split.
        + intros [[W I] X]. apply pm_set; auto.
        + intros X. inversion X; subst. auto. }
    split; [exact A|]. intros s l1 l2 O.
    destruct e as [c|c| | |neg l]; try (apply split_ext; auto; intros s2 O2; apply (A s2 l1 l2 O2)).
    cbn [toks]. rewrite (IB s false l2 O). rewrite <- split_idem. apply split_ext; auto. intros s2 O2. symmetry. apply pstar_ok; auto.
Qed.
End Match.

Lemma fnmatch_ok fuel m p es i s flags :
  Forall elem_ok es -> Forall no_escape es ->
  (flag flags FNM_PATHNAME = true -> Forall no_neg es) -> (flag flags FNM_PERIOD = true -> ~ In 46 s) ->
  bytes_at m p (text es ++ [0]) -> cstr m i s -> (length (text es) < fuel)%nat -> (length s < fuel)%nat ->
  exists r, fnmatch fuel m p i flags = Ok r /\
    (r = 0 <-> pmatch (flag flags FNM_PATHNAME) (flag flags FNM_PERIOD) true es s) /\ (r = 0 \/ r = FNM_NOMATCH).
Proof.
  intros OK NE NN ND B C F1 F2. unfold fnmatch. rewrite (read_str_ok s fuel m i C F2). cbn [bind].
  rewrite (tokenize_ok es fuel m p flags true false [] OK NE B F1). cbn [bind app].
  eexists. split; [reflexivity|].
  assert (O : Forall (okc flags) s). { apply Forall_forall. intros x I P ->. exact (ND P I). }
  pose proof (proj1 (match_ok flags es NE NN) s true true O) as M.
  destruct (matches _ s); unfold FNM_NOMATCH; split; auto; intuition (try discriminate).
Qed.

(* ---- FNM_PERIOD, patterns without stars ---- *)
Section Period.
Context (flags : Z).
Let pathname := flag flags FNM_PATHNAME.
Let period := flag flags FNM_PERIOD.
Lemma any_exact lead c : accepts (any lead flags) c = true <-> wild pathname period lead c.
Proof.
  unfold wild, pathname, period, any, accepts. destruct (flag flags FNM_PATHNAME), (flag flags FNM_PERIOD), lead; cbn [andb app existsb eqb];
    destruct (Z.eqb_spec c 47), (Z.eqb_spec c 46); cbn; intuition (try congruence).
Qed.
Lemma push_exact lead c : can_push lead flags c = true <-> wild pathname period lead c.
Proof.
  unfold wild, pathname, period, can_push. destruct (flag flags FNM_PATHNAME), (flag flags FNM_PERIOD), lead;
    destruct (Z.eqb_spec c 47), (Z.eqb_spec c 46); cbn; intuition (try congruence).
Qed.
Lemma set_exact lead l c :
  accepts (TOneOf false (filter (can_push lead flags) (concat (map item_chars l)))) c = true <-> wild pathname period lead c /\ in_set c false l.
Proof.
  unfold accepts, in_set.
  assert (E : existsb (Z.eqb c) (filter (can_push lead flags) (concat (map item_chars l))) = true <-> wild pathname period lead c /\ Exists (in_item c) l).
  { rewrite existsb_exists. rewrite <- (chars_ok flags), <- (push_exact lead c). split.
    - intros (x & I & X). apply Z.eqb_eq in X. subst x. apply filter_In in I. tauto.
    - intros [P I]. exists c. split; [apply filter_In; tauto|apply Z.eqb_refl]. }
  destruct (existsb _ _); cbn [eqb negb]; intuition.
Qed.
Lemma match_exact es : Forall no_escape es -> Forall no_neg es -> Forall no_star es ->
  forall s lead, matches (toks flags lead false es) s = true <-> pmatch pathname period lead es s.
Proof.
  induction es as [|e es IH]; intros NE NN NS s lead.
  - cbn [toks matches]. destruct s; split; intros X; try discriminate; auto using pm_nil. inversion X.
  - pose proof (Forall_inv NE) as Ne. pose proof (Forall_inv NN) as Nn. pose proof (Forall_inv NS) as Ns.
    specialize (IH (Forall_inv_tail NE) (Forall_inv_tail NN) (Forall_inv_tail NS)).
    assert (W0 : forall d, wild pathname period lead d -> next pathname d = false).
    { intros d [W _]. unfold next. destruct pathname eqn:P; [|reflexivity]. cbn [andb]. apply Z.eqb_neq. auto. }
    destruct e as [c|c| | |neg l]; cbn [toks]; cbn [no_escape no_neg no_star] in Ne, Nn, Ns; try tauto;
      (destruct s as [|d s]; [split; intros X; [discriminate|inversion X]|]); cbn [matches].
    + cbn [accepts]. rewrite andb_true_iff, Z.eqb_eq, IH. unfold is_leading. rewrite andb_comm. split.
      * intros [-> X]. apply pm_lit. exact X.
      * intros X. inversion X; subst. auto.
    + rewrite andb_true_iff, any_exact, IH. split.
      * intros [W X]. apply pm_any; auto. rewrite (W0 d W). exact X.
      * intros X. inversion X as [ | | |? ? ? ? W H| | |]; subst. rewrite (W0 d W) in H. auto.
    + destruct neg; [tauto|]. rewrite andb_true_iff, set_exact, IH. split.
      * intros [[W I] X]. apply pm_set; auto. rewrite (W0 d W). exact X.
      * intros X. inversion X as [ | | | |? ? ? ? ? ? W I H| |]; subst. rewrite (W0 d W) in H. auto.
Qed.
End Period.

Lemma fnmatch_period fuel m p es i s flags :
  Forall elem_ok es -> Forall no_escape es -> Forall no_neg es -> Forall no_star es ->
  bytes_at m p (text es ++ [0]) -> cstr m i s -> (length (text es) < fuel)%nat -> (length s < fuel)%nat ->
  exists r, fnmatch fuel m p i flags = Ok r /\
    (r = 0 <-> pmatch (flag flags FNM_PATHNAME) (flag flags FNM_PERIOD) true es s) /\ (r = 0 \/ r = FNM_NOMATCH).
Proof.
  intros OK NE NN NS B C F1 F2. unfold fnmatch. rewrite (read_str_ok s fuel m i C F2). cbn [bind].
  rewrite (tokenize_ok es fuel m p flags true false [] OK NE B F1). cbn [bind app].
  eexists. split; [reflexivity|].
  pose proof (match_exact flags es NE NN NS s true) as M.
  destruct (matches _ s); unfold FNM_NOMATCH; split; auto; intuition (try discriminate).
Qed.
