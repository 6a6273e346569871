From Coq Require Import String.
From Verif Require Import Base Numeral Ctype_spec Utf8_model Utf8_proofs Timespec_model Writer_model Writer_proofs Timespec_proofs Time_model Time_spec Time_proofs.
Open Scope string_scope.
Open Scope list_scope.
Open Scope Z_scope.
Ltac Zify.zify_post_hook ::= Z.to_euclidean_division_equations.

#[local] Opaque dec dec0 decw langinfo li to_i32 week_of_year wrap64 dd ddd.

Ltac vcodes := repeat match goal with |- context [codes (String ?a ?s)] => let v := eval vm_compute in (codes (String a s)) in change (codes (String a s)) with v end.
Ltac run := cbv [ch sf_conv]; vcodes; cbn -[Z.quot Z.rem]; rewrite ?app_nil_r.
Lemma ex_good (ps : list (list Z)) (t : tm) o : concat ps = o -> ps <> [] -> good (Ok (ps, t, true)) t o.
Proof. intros <- H. exists ps. auto. Qed.

Lemma conv_good mk t c o : tm_ok t -> agrees t c -> conv_out t c o -> good (sf_conv mk (sf_inner 2 mk) c t) t o.
Proof.
  intros H A C. pose proof H as Hok. ok_destruct H. pose proof (hour12_range t Hhour) as Hh12.
  assert (Em : to_i32 (tm_mon t + 1) = tm_mon t + 1) by (apply to_i32_id; lia).
  assert (Ey : to_i32 (tm_year t + 1900) = year t) by (unfold year; apply to_i32_id; lia).
  assert (Nagr : forall k, In c (codes "%ntaAbhBdeFHIjmMprRSTuwXYzZ") \/ (In c (codes "yDx") /\ 0 <= tm_year t) \/ k -> True) by auto.
  assert (Y2 : In c (codes "yDx") -> dec0 2 (Z.rem (tm_year t) 100) = dd (year t mod 100)).
  { intros I. assert (0 <= tm_year t).
    { destruct A as [A|[[_ A]|A]]; [|exact A|].
      - exfalso. revert I A. cbn. lia.
      - exfalso. revert I A. cbv [ch codes hd]. cbn. lia. }
    rewrite dec0_2 by lia. f_equal. unfold year. lia. }
  inversion C; subst; clear C; try (apply good1; reflexivity); run.
  - apply good1. apply name_a. exact Hwday.
  - apply good1. apply name_A. exact Hwday.
  - apply good1. apply name_b. exact Hmon.
  - apply good1. apply name_b. exact Hmon.
  - apply good1. apply name_B. exact Hmon.
  - destruct A as [A|[[A _]|[[_ [A1 A2]]|[[A _]|[[A _]|[A _]]]]]]; try (exfalso; revert A; cbv [ch codes hd]; cbn; lia).
    apply good1. unfold year in *. replace (Z.rem (tm_year t) 100 =? 0) with true by lia. rewrite dec0_2 by lia. f_equal. lia.
  - apply good1. apply dec0_2. lia.
  - apply ex_good; [|discriminate]. cbn [concat]. rewrite Em, Y2, !dec0_2 by (lia || (cbn; auto)). unfold mdy. rewrite app_nil_r, <- ?app_assoc. reflexivity.
  - apply good1. apply decw_2. lia.
  - apply ex_good; [|discriminate]. cbn [concat]. rewrite Em, Ey, !dec0_2 by lia. rewrite (decimal_inj (year t) y (dec (year t)) H (decimal_dec _)).
    rewrite app_nil_r, <- ?app_assoc. reflexivity.
  - apply good1. apply dec0_2. lia.
  - apply good1. rewrite h12 by lia. apply dec0_2. lia.
  - apply good1. rewrite to_i32_id by lia. apply dec0_3. lia.
  - apply good1. rewrite Em. apply dec0_2. lia.
  - apply good1. apply dec0_2. lia.
  - apply good1. apply name_p.
  - apply ex_good; [|discriminate]. cbn [concat]. rewrite h12, name_p, !dec0_2 by lia. rewrite app_nil_r. cbn [app]. reflexivity.
  - apply ex_good; [|discriminate]. cbn [concat]. rewrite !dec0_2 by lia. rewrite app_nil_r. cbn [app]. reflexivity.
  - apply good1. apply dec0_2. lia.
  - apply ex_good; [|discriminate]. cbn [concat]. rewrite !dec0_2 by lia. rewrite app_nil_r. cbn [app]. reflexivity.
  - apply good1. rewrite (to_i32_id (tm_wday t + 7)), (to_i32_id (tm_wday t + 7 - 1)), to_i32_id by lia. unfold mon_wday.
    rewrite dec_1 by lia. f_equal. lia.
  - destruct A as [A|[[A _]|[[A _]|[[_ A]|[[A _]|[A _]]]]]]; try (exfalso; revert A; cbv [ch codes hd]; cbn; lia).
    apply good1. rewrite (to_i32_id (tm_yday t + 7)), to_i32_id by lia. rewrite dec_2 by lia. f_equal. lia.
  - destruct A as [A|[[A _]|[[A _]|[[A _]|[[A _]|[_ [A1 [A2 A3]]]]]]]]; try (exfalso; revert A; cbv [ch codes hd]; cbn; lia).
    destruct (week_ok t Hok A1 A2 A3) as [E R]. apply good1. rewrite E. apply dec_2. lia.
  - apply good1. apply dec_1. lia.
  - destruct A as [A|[[A _]|[[A _]|[[A _]|[[_ A]|[A _]]]]]]; try (exfalso; revert A; cbv [ch codes hd]; cbn; lia).
    apply good1. unfold mon_wday in *. rewrite (to_i32_id (tm_wday t + 6)), (to_i32_id (tm_yday t + 7)), to_i32_id by lia.
    rewrite dec_2 by lia. f_equal. lia.
  - apply ex_good; [|discriminate]. cbn [concat]. rewrite Em, Y2, !dec0_2 by (lia || (cbn; auto)). unfold mdy. rewrite app_nil_r, <- ?app_assoc. reflexivity.
  - apply ex_good; [|discriminate]. cbn [concat]. rewrite !dec0_2 by lia. rewrite app_nil_r. cbn [app]. reflexivity.
  - exfalso. revert A. cbv [agrees ch codes hd]. cbn. lia.
  - apply good1. apply Y2. cbn. auto.
  - apply good1. rewrite Ey. apply (decimal_inj (year t)); [apply decimal_dec|assumption].
  - apply ex_good; [|discriminate]. cbn [concat]. rewrite app_nil_r. destruct (tm_gmtoff t <? 0) eqn:E.
    + rewrite (wrap64_id (- tm_gmtoff t)) by (change (2 ^ 63) with 9223372036854775808; lia). rewrite !dec0_2 by lia. cbn [app]. f_equal. f_equal; f_equal; lia.
    + rewrite !dec0_2 by lia. cbn [app]. f_equal. f_equal; f_equal; lia.
  - match goal with K : tm_zone t = Some _ |- _ => rewrite K in * end. inversion Hz; subst.
    replace (forallb _ z) with true; [apply good1; reflexivity|]. symmetry. apply forallb_forall. intros x Hx. rewrite Forall_forall in Fz. specialize (Fz x Hx). lia.
Qed.

Lemma conv_not_mod t c o : conv_out t c o -> (c =? 69) || (c =? 79) = false.
Proof. intros C. inversion C; subst; vm_compute; reflexivity. Qed.

Lemma expands_good mk t fmt o : tm_ok t -> expands (agrees t) t fmt o ->
  exists ps, sf_inner 3 mk fmt t = Ok (ps, t, true) /\ concat ps = o.
Proof.
  intros Hok H. change (sf_inner 3 mk fmt t) with (sf_loop mk (sf_inner 2 mk) fmt t). induction H as [|c f o Hc Hn H IH|c o1 f o P C H IH|e c o1 f o He P C H IH].
  - exists []. auto.
  - destruct IH as [ps [E1 E2]]. cbn [sf_loop]. replace (negb (c =? 37)) with true by (change (ch "%") with 37 in Hc; lia).
    rewrite E1. cbn [bind]. exists ([c] :: ps). cbn [concat app]. rewrite E2. auto.
  - destruct IH as [ps [E1 E2]]. destruct (conv_good mk t c o1 Hok P C) as [qs [F1 [F2 _]]]. change (ch "%") with 37.
    cbn [sf_loop]. change (negb (37 =? 37)) with false. cbn iota. rewrite (conv_not_mod t c o1 C). cbn iota. rewrite F1. cbn [bind negb]. rewrite E1. cbn [bind].
    exists (qs ++ ps). rewrite concat_app, F2, E2. auto.
  - destruct IH as [ps [E1 E2]]. destruct (conv_good mk t c o1 Hok P C) as [qs [F1 [F2 _]]]. change (ch "%") with 37.
    cbn [sf_loop]. change (negb (37 =? 37)) with false. cbn iota.
    replace ((e =? 69) || (e =? 79)) with true by (change (ch "E") with 69 in He; change (ch "O") with 79 in He; lia). cbn iota. rewrite F1. cbn [bind negb]. rewrite E1. cbn [bind].
    exists (qs ++ ps). rewrite concat_app, F2, E2. auto.
Qed.

(** ** Totality and absence of NUL bytes, for every format *)
Definition zone_ok (t : tm) : Prop := exists z, tm_zone t = Some z /\ Forall (fun b => 0 < b <= 127) z.
Definition clean (r : sfr) : Prop :=
  exists ps t b, r = Ok (ps, t, b) /\ zone_ok t /\ ~ In 0 (concat ps).

Transparent dec dec0 decw langinfo.
Lemma digits_nz n : 0 <= n -> ~ In 0 (map (fun x => 48 + x) (to_digits 10 n)).
Proof.
  intros Hn I. apply in_map_iff in I. destruct I as [x [E I]]. destruct (to_digits_numeral 10 n ltac:(lia) Hn) as [F _]. rewrite Forall_forall in F. specialize (F x I). lia.
Qed.
Lemma repeat_nz x n : x <> 0 -> ~ In 0 (repeat x n).
Proof. intros H I. apply repeat_spec in I. lia. Qed.
Lemma dec_nz v : ~ In 0 (dec v).
Proof. unfold dec. intros I. destruct (v <? 0); [destruct I as [I|I]; [lia|]|]; exact (digits_nz (Z.abs v) ltac:(lia) I). Qed.
Lemma dec0_nz w v : ~ In 0 (dec0 w v).
Proof.
  unfold dec0, zeros. intros I. destruct (v <? 0); [destruct I as [I|I]; [lia|]|]; apply in_app_iff in I; destruct I as [I|I];
  solve [exact (repeat_nz 48 _ ltac:(lia) I)|exact (digits_nz (Z.abs v) ltac:(lia) I)].
Qed.
Lemma decw_nz w v : ~ In 0 (decw w v).
Proof. unfold decw. intros I. apply in_app_iff in I. destruct I as [I|I]; [exact (repeat_nz 32 _ ltac:(lia) I)|exact (dec_nz v I)]. Qed.
Lemma table_nz : forallb (fun l => forallb (fun b => negb (b =? 0)) l) string_table = true.
Proof. vm_compute. reflexivity. Qed.
Lemma langinfo_nz i : ~ In 0 (langinfo i).
Proof.
  unfold langinfo. destruct (i <? 45); [|intros []]. intros I.
  destruct (nth_in_or_default (Z.to_nat i) string_table []) as [J|J]; [|rewrite J in I; destruct I].
  pose proof table_nz as T. rewrite forallb_forall in T. specialize (T _ J). rewrite forallb_forall in T. specialize (T _ I). discriminate.
Qed.
#[local] Opaque dec dec0 decw langinfo.

Lemma clean1 t p : zone_ok t -> ~ In 0 p -> clean (emit t [p]).
Proof. intros H N. exists [p], t, true. cbn [concat]. rewrite app_nil_r. auto. Qed.
Lemma clean3 t ps : zone_ok t -> Forall (fun p => ~ In 0 p) ps -> clean (Ok (ps, t, true)).
Proof.
  intros H N. exists ps, t, true. repeat split; auto. intros I. apply in_concat in I. destruct I as [x [I1 I2]].
  rewrite Forall_forall in N. exact (N x I1 I2).
Qed.
Ltac nz := first [apply dec_nz|apply dec0_nz|apply decw_nz|apply langinfo_nz|cbn; lia].
Lemma ascii_zone z : Forall (fun b => 0 < b <= 127) z -> forallb (fun b => b <=? 127) z = true /\ ~ In 0 z.
Proof.
  intros F. rewrite Forall_forall in F. split; [apply forallb_forall|]; [intros x I; specialize (F x I); lia|intros I; specialize (F 0 I); lia].
Qed.

Lemma conv_clean mk c t : (forall t, zone_ok t -> zone_ok (snd (mk t))) -> zone_ok t -> clean (sf_conv mk (sf_inner 2 mk) c t).
Proof.
  intros Hmk Hz. pose proof Hz as [z [Ez Fz]]. destruct (ascii_zone z Fz) as [Az Nz]. cbv [sf_conv]. vcodes. cbv zeta.
  repeat match goal with
  | |- clean (if ?b then _ else _) => destruct b eqn:?
  end; try (apply clean1; [exact Hz|nz]);
  try (cbn -[Z.quot Z.rem]; apply clean3; [exact Hz|repeat constructor; nz]).
  - apply clean1; [exact Hz|]. destruct (tm_hour t <? 12); cbn; lia.
  - specialize (Hmk t Hz). destruct (mk t) as [v t']. apply clean1; [exact Hmk|nz].
  - cbn. apply clean3; [exact Hz|]. repeat constructor; try nz. destruct (tm_gmtoff t <? 0); cbn; lia.
  - rewrite Ez, Az. apply clean1; auto.
  - cbn -[Z.quot Z.rem codes]. vcodes. cbn -[Z.quot Z.rem codes]. rewrite Ez, Az. cbn. apply clean3; [exact Hz|]. repeat constructor; try nz. exact Nz.
  - exists [], t, false. cbn. auto.
Qed.
Lemma conv_clean_ok mk c t : (forall t, zone_ok t -> zone_ok (snd (mk t))) -> zone_ok t ->
  exists ps t' b, sf_conv mk (sf_inner 2 mk) c t = Ok (ps, t', b) /\ zone_ok t' /\ ~ In 0 (concat ps).
Proof. exact (conv_clean mk c t). Qed.

Lemma loop_clean mk fmt : (forall t, zone_ok t -> zone_ok (snd (mk t))) -> forall t, zone_ok t -> Forall (fun c => c <> 0) fmt ->
  clean (sf_loop mk (sf_inner 2 mk) fmt t).
Proof.
  intros Hmk. induction fmt as [fmt IH] using (well_founded_induction (well_founded_ltof _ (@length Z))). unfold ltof in IH. intros t Hz F.
  assert (K : forall c rest, (length rest < length fmt)%nat -> Forall (fun c => c <> 0) rest ->
     clean ('(ps, t1, ok) <- sf_conv mk (sf_inner 2 mk) c t ;;
    if negb ok then Ok (ps, t1, false) else
    '(qs, t2, ok2) <- sf_loop mk (sf_inner 2 mk) rest t1 ;;
    Ok (ps ++ qs, t2, ok2))).
  { intros c rest L Fr. destruct (conv_clean_ok mk c t Hmk Hz) as [ps [t1 [b [E [Z1 N1]]]]]. rewrite E. cbn [bind]. destruct b; cbn [negb].
    - destruct (IH rest L t1 Z1 Fr) as [qs [t2 [b2 [E2 [Z2 N2]]]]]. rewrite E2. cbn [bind]. exists (ps ++ qs), t2, b2. repeat split; auto.
      rewrite concat_app, in_app_iff. tauto.
    - exists ps, t1, false. auto. }
  destruct fmt as [|c rest]; [exists [], t, true; cbn; auto|]. inversion F as [|? ? Hc Fr]; subst. cbn [sf_loop].
  destruct (c =? 37); cbn [negb].
  - destruct rest as [|c1 rest1]; [exists [], t, false; cbn; auto|]. inversion Fr; subst. destruct ((c1 =? 69) || (c1 =? 79)).
    + destruct rest1 as [|c2 rest2]; [exists [], t, false; cbn; auto|]. inversion H2; subst. apply K; [cbn; lia|assumption].
    + apply K; [cbn; lia|assumption].
  - destruct (IH rest ltac:(cbn; lia) t Hz Fr) as [qs [t2 [b2 [E2 [Z2 N2]]]]]. rewrite E2. cbn [bind].
    exists ([c] :: qs), t2, b2. repeat split; auto. cbn [concat app In]. intros [I|I]; congruence.
Qed.

(** ** The C entry point *)
Lemma strftime_ok mk fmt t ps t' ok : sf_inner 3 mk fmt t = Ok (ps, t', ok) -> len (concat ps) < WRAP ->
  forall m s maxsize, 0 <= maxsize < WRAP -> mapped m s maxsize ->
  exists m', strftime mk m s maxsize fmt t = Ok (m', t', if ok && (len (concat ps) <? maxsize) then len (concat ps) else 0) /\
    (forall x, ~ s <= x < s + maxsize -> m' x = m x) /\
    (0 < len (concat ps) < maxsize -> stored m m' s (concat ps ++ [0])).
Proof.
  intros E Hs m s n Hn Hm. unfold strftime. rewrite E. cbn [bind].
  assert (R : forall w, w = len (concat ps) -> (if (if ok then w else 0) <? n then if ok then w else 0 else 0) = if ok && (len (concat ps) <? n) then len (concat ps) else 0).
  { intros w ->. destruct ok; cbn [andb]; [|destruct (0 <? n)]; reflexivity. }
  destruct (Z_lt_dec 1 n) as [L|L].
  - destruct ps as [|p ps].
    + cbn [cw_write_all bind concat]. exists m. rewrite R by reflexivity. split; [reflexivity|]. split; [auto|]. change (len (@nil Z)) with 0. lia.
    + destruct (cw_write_top (p :: ps) m s n ltac:(discriminate) L Hm Hs) as [m' [E' S']]. rewrite E'. cbn [bind]. rewrite R by reflexivity. exists m'.
      split; [reflexivity|]. split.
      * intros x Hx. apply S'. rewrite len_app, len_firstn. change (len [0]) with 1. lia.
      * intros Hl. rewrite firstn_all2 in S' by (unfold len in Hl; lia). exact S'.
  - rewrite cw_write_small by (try lia; rewrite ?Z.add_0_l; exact Hs). cbn [bind]. rewrite R by lia. exists m. split; [reflexivity|]. split; [auto|lia].
Qed.

Lemma strftime_any mk fmt t : (forall t, zone_ok t -> zone_ok (snd (mk t))) -> zone_ok t -> Forall (fun c => c <> 0) fmt ->
  (forall ps t' b, sf_inner 3 mk fmt t = Ok (ps, t', b) -> len (concat ps) < WRAP) ->
  exists o ok t', ~ In 0 o /\ forall m s maxsize, 0 <= maxsize < WRAP -> mapped m s maxsize ->
  exists m', strftime mk m s maxsize fmt t = Ok (m', t', if ok && (len o <? maxsize) then len o else 0) /\
    (forall x, ~ s <= x < s + maxsize -> m' x = m x) /\
    (0 < len o < maxsize -> stored m m' s (o ++ [0])).
Proof.
  intros Hmk Hz F Hs. destruct (loop_clean mk fmt Hmk t Hz F) as [ps [t' [ok [E [_ N]]]]].
  exists (concat ps), ok, t'. split; [exact N|]. apply strftime_ok; [exact E|eapply Hs; exact E].
Qed.
Lemma strftime_std mk fmt t o : tm_ok t -> expands (agrees t) t fmt o -> len o < WRAP ->
  forall m s maxsize, 0 <= maxsize < WRAP -> mapped m s maxsize ->
  exists m', strftime mk m s maxsize fmt t = Ok (m', t, if len o <? maxsize then len o else 0) /\
    (forall x, ~ s <= x < s + maxsize -> m' x = m x) /\
    (0 < len o < maxsize -> stored m m' s (o ++ [0])).
Proof.
  intros Hok H Hs m s n Hn Hm. destruct (expands_good mk t fmt o Hok H) as [ps [E <-]].
  destruct (strftime_ok mk fmt t ps t true E Hs m s n Hn Hm) as [m' K]. exists m'. exact K.
Qed.
