From Verif Require Import Base Select_model Select_spec.

Fixpoint range (i : Z) (k : nat) : list Z := match k with O => [] | S k => i :: range (i + 1) k end.
Lemma range_in k : forall i x, In x (range i k) <-> i <= x < i + Z.of_nat k.
Proof.
  induction k as [|k IH]; intros i x; cbn [range In]; [lia|]. rewrite IH. lia.
Qed.
Lemma range_nodup k : forall i, NoDup (range i k).
Proof. induction k as [|k IH]; intros i; cbn [range]; constructor; [rewrite range_in; lia|apply IH]. Qed.
Lemma range_seq k : forall i, map Z.of_nat (seq i k) = range (Z.of_nat i) k.
Proof. induction k as [|k IH]; intros i; cbn [seq map range]; [reflexivity|]. rewrite IH. f_equal. f_equal. lia. Qed.
Lemma bits_range s n : bits s n = len (filter (has s) (range 0 (Z.to_nat n))).
Proof. unfold bits. rewrite range_seq. reflexivity. Qed.

Lemma has_put s fd b x : has (put s fd b) x = match s with Some f => if x =? fd then b else f x | None => false end.
Proof. destruct s; reflexivity. Qed.
Lemma filter_ext_in' {A} (f g : A -> bool) l : (forall x, In x l -> f x = g x) -> filter f l = filter g l.
Proof. induction l as [|x l IH]; intros H; cbn; [reflexivity|]. rewrite (H x) by (left; reflexivity). rewrite IH; [reflexivity|]. intros y Hy. apply H. right. exact Hy. Qed.

(* ---- adding ---- *)
Definition pollable (w : world) (fd : Z) : bool := match w fd with Now _ => true | _ => false end.
Definition always (w : world) (fd : Z) : bool := match w fd with Always => true | _ => false end.
Lemma wanted_pos s fd : (0 <? wanted s fd) = watched s fd.
Proof. unfold wanted, watched. destruct (has (rd s) fd), (has (wr s) fd), (has (ex s) fd); reflexivity. Qed.
Definition same (a b : option fdset) : Prop := match a, b with None, None => True | Some _, Some _ => True | _, _ => False end.
Definition agree_from (s s0 : sets) (i : Z) : Prop :=
  forall x, i <= x -> has (rd s) x = has (rd s0) x /\ has (wr s) x = has (wr s0) x /\ has (ex s) x = has (ex s0) x.
Definition cleared (w : world) (a : option fdset) (a0 : option fdset) (i : Z) (k : nat) : Prop :=
  same a0 a /\ forall x, has a x = if (i <=? x) && (x <? i + Z.of_nat k) && pollable w x then false else has a0 x.
Lemma add_all_ok w k : forall i s (l : list added) ne,
  (forall a, In a l -> fst (fst a) < i) ->
  (forall x, i <= x < i + Z.of_nat k -> watched s x = true -> w x <> Closed) ->
  exists s', add_all (epoll_add w) k i s l ne =
    inl (s', l ++ map (fun fd => (fd, wanted s fd, fd)) (filter (fun x => watched s x && pollable w x) (range i k)),
         ne + len (filter (fun x => watched s x && always w x) (range i k))) /\
    cleared w (rd s') (rd s) i k /\ cleared w (wr s') (wr s) i k /\ cleared w (ex s') (ex s) i k.
Proof.
  induction k as [|k IH]; intros i s l ne Hl Hc.
  - exists s. cbn [add_all range filter map]. rewrite app_nil_r, len_nil, Z.add_0_r. split; [reflexivity|].
    assert (C : forall a, cleared w a a i 0).
    { intros a. split; [destruct a; exact I|]. intros x. destruct (Z.leb_spec i x), (Z.ltb_spec x (i + Z.of_nat 0)); try lia; reflexivity. }
    auto.
  - cbn [add_all range filter]. rewrite wanted_pos.
    assert (STEP : forall s1 (l1 : list added) ne1, (forall a, In a l1 -> fst (fst a) < i + 1) ->
       (forall x, x <> i -> has (rd s1) x = has (rd s) x /\ has (wr s1) x = has (wr s) x /\ has (ex s1) x = has (ex s) x) ->
       same (rd s) (rd s1) -> same (wr s) (wr s1) -> same (ex s) (ex s1) ->
       (forall a a1, (a = rd s /\ a1 = rd s1) \/ (a = wr s /\ a1 = wr s1) \/ (a = ex s /\ a1 = ex s1) ->
          has a1 i = if pollable w i then false else has a i) ->
       exists s', add_all (epoll_add w) k (i + 1) s1 l1 ne1 =
         inl (s', l1 ++ map (fun fd => (fd, wanted s fd, fd)) (filter (fun x => watched s x && pollable w x) (range (i + 1) k)),
              ne1 + len (filter (fun x => watched s x && always w x) (range (i + 1) k))) /\
         cleared w (rd s') (rd s) i (S k) /\ cleared w (wr s') (wr s) i (S k) /\ cleared w (ex s') (ex s) i (S k)).
    { intros s1 l1 ne1 Hl1 Hs Sr Sw Sx Hi.
      assert (WT : forall x, x <> i -> watched s1 x = watched s x).
      { intros x N. unfold watched. destruct (Hs x N) as (-> & -> & ->). reflexivity. }
      destruct (IH (i + 1) s1 l1 ne1 Hl1) as (s' & E & C1 & C2 & C3).
      { intros x Hx Wx. rewrite WT in Wx by lia. apply Hc; [lia|exact Wx]. }
      exists s'. rewrite E. split.
      - f_equal. rewrite (filter_ext_in' (fun x => watched s1 x && pollable w x) (fun x => watched s x && pollable w x)).
        + rewrite (filter_ext_in' (fun x => watched s1 x && always w x) (fun x => watched s x && always w x)).
          * f_equal. f_equal. f_equal. apply map_ext_in. intros x Hx. apply filter_In in Hx. destruct Hx as [Hx _]. apply range_in in Hx.
            unfold wanted. destruct (Hs x) as (-> & -> & ->); [lia|reflexivity].
          * intros x Hx. apply range_in in Hx. rewrite WT by lia. reflexivity.
        + intros x Hx. apply range_in in Hx. rewrite WT by lia. reflexivity.
      - assert (CL : forall a a1 a', (a = rd s /\ a1 = rd s1) \/ (a = wr s /\ a1 = wr s1) \/ (a = ex s /\ a1 = ex s1) ->
                  same a a1 -> (forall x, x <> i -> has a1 x = has a x) -> cleared w a' a1 (i + 1) k -> cleared w a' a i (S k)).
        { intros a a1 a' Ha Sa Hne [Sa' Hb]. split.
          - destruct a, a1, a'; cbn in *; tauto.
          - intros x. rewrite Hb. destruct (Z.eq_dec x i) as [->|N].
            + rewrite (Hi a a1 Ha). destruct (Z.leb_spec (i + 1) i); [lia|]. destruct (Z.leb_spec i i); [|lia].
              destruct (Z.ltb_spec i (i + Z.of_nat (S k))); [|lia]. cbn. reflexivity.
            + rewrite (Hne x N). replace (i + 1 + Z.of_nat k) with (i + Z.of_nat (S k)) by lia.
              replace (i + 1 <=? x) with (i <=? x); [reflexivity|]. destruct (Z.leb_spec i x), (Z.leb_spec (i + 1) x); lia. }
        split; [|split]; (eapply CL; [|eassumption| |eassumption]; [tauto|]); intros x N; apply (Hs x N). }
    destruct (watched s i) eqn:W.
    + specialize (Hc i ltac:(lia) W) as HC. destruct (w i) as [| |m] eqn:Wi.
      * congruence.
      * assert (P : pollable w i = false) by (unfold pollable; rewrite Wi; reflexivity).
        assert (A : always w i = true) by (unfold always; rewrite Wi; reflexivity).
        replace (epoll_add w l i (wanted s i)) with (Some EPERM) by (unfold epoll_add; rewrite Wi; reflexivity).
        change (EPERM =? EPERM) with true. rewrite P, A. cbn [andb]. rewrite len_cons.
        match goal with |- context [ne + (?X + 1)] => replace (ne + (X + 1)) with (ne + 1 + X) by lia end.
        apply STEP; try (intros; auto; fail).
        -- intros a Ha. specialize (Hl a Ha). lia.
        -- destruct (rd s); exact I.
        -- destruct (wr s); exact I.
        -- destruct (ex s); exact I.
        -- intros a a1 Ha. unfold pollable. rewrite Wi. intuition congruence.
      * destruct (existsb (fun a => fst (fst a) =? i) l) eqn:EX.
        { apply existsb_exists in EX. destruct EX as (a & Ha & E). apply Z.eqb_eq in E. specialize (Hl a Ha). lia. }
        assert (P : pollable w i = true) by (unfold pollable; rewrite Wi; reflexivity).
        assert (A : always w i = false) by (unfold always; rewrite Wi; reflexivity).
        replace (epoll_add w l i (wanted s i)) with (@None Z) by (unfold epoll_add; rewrite Wi, EX; reflexivity).
        rewrite P, A. cbn [andb map].
        match goal with |- context [l ++ ?a :: map ?f ?y] =>
          replace (l ++ a :: map f y) with ((l ++ [a]) ++ map f y) by (rewrite <- app_assoc; reflexivity) end.
        apply STEP.
        -- intros a Ha. apply in_app_or in Ha. destruct Ha as [Ha|[<-|[]]]; [specialize (Hl a Ha); lia|cbn; lia].
        -- intros x N. cbn [remove rd wr ex]. rewrite !has_put. apply Z.eqb_neq in N. rewrite N.
           destruct (rd s), (wr s), (ex s); auto.
        -- cbn. destruct (rd s); exact I.
        -- cbn. destruct (wr s); exact I.
        -- cbn. destruct (ex s); exact I.
        -- intros a a1 Ha. unfold pollable. rewrite Wi. cbn [remove rd wr ex] in Ha.
           assert (forall b, has (put b i false) i = false) as Z0.
           { intros b. rewrite has_put, Z.eqb_refl. destruct b; reflexivity. }
           destruct Ha as [[_ ->]|[[_ ->]|[_ ->]]]; apply Z0.
    + cbn [andb]. apply STEP; try (intros; auto; fail).
      * intros a Ha. specialize (Hl a Ha). lia.
      * destruct (rd s); exact I.
      * destruct (wr s); exact I.
      * destruct (ex s); exact I.
      * intros a a1 Ha. unfold watched in W. apply orb_false_elim in W. destruct W as [W1 W3]. apply orb_false_elim in W1. destruct W1 as [W1 W2].
        assert (has a i = false) by (destruct Ha as [[-> _]|[[-> _]|[-> _]]]; assumption).
        assert (a1 = a) by (destruct Ha as [[-> ->]|[[-> ->]|[-> ->]]]; reflexivity). subst a1. rewrite H. destruct (pollable w i); reflexivity.
Qed.

(* ---- reporting ---- *)
Definition present (a : option fdset) : bool := match a with Some _ => true | None => false end.
Lemma bits_put a x n : has a x = false -> present a = true -> 0 <= x < n -> bits (put a x true) n = bits a n + 1.
Proof.
  intros H P R. rewrite !bits_range. destruct a as [f|]; [|discriminate]. cbn [put has] in *.
  assert (G : forall k i, i <= x < i + Z.of_nat k ->
    len (filter (fun y => if y =? x then true else f y) (range i k)) = len (filter f (range i k)) + 1).
  { induction k as [|k IH]; intros i Hi; [lia|]. cbn [range filter]. destruct (Z.eqb_spec i x) as [->|N].
    - rewrite H. rewrite len_cons. f_equal. f_equal. apply filter_ext_in'. intros y Hy. apply range_in in Hy.
      destruct (Z.eqb_spec y x); [lia|reflexivity].
    - specialize (IH (i + 1) ltac:(lia)). destruct (f i); rewrite ?len_cons; lia. }
  change (has (Some (fun y => if y =? x then true else f y))) with (fun y => if y =? x then true else f y).
  change (has (Some f)) with f. apply G. lia.
Qed.
Definition total (s : sets) (n : Z) : Z := bits (rd s) n + bits (wr s) n + bits (ex s) n.
Definition bit (ev i : Z) : bool := Z.testbit ev i.
Lemma land_bit ev i : 0 <= i -> (0 <? Z.land ev (2 ^ i)) = Z.testbit ev i.
Proof.
  intros Hi. assert (E : Z.land ev (2 ^ i) = if Z.testbit ev i then 2 ^ i else 0).
  { apply Z.bits_inj'. intros j Hj. rewrite Z.land_spec, Z.pow2_bits_eqb by lia.
    destruct (Z.eqb_spec i j) as [->|N].
    - destruct (Z.testbit ev j) eqn:T; [rewrite Z.pow2_bits_true by lia; reflexivity|rewrite Z.bits_0; reflexivity].
    - rewrite andb_false_r. destruct (Z.testbit ev i); [rewrite Z.pow2_bits_false by congruence|rewrite Z.bits_0]; reflexivity. }
  rewrite E. destruct (Z.testbit ev i); [|reflexivity]. apply Z.ltb_lt. apply Z.pow_pos_nonneg; lia.
Qed.
Lemma one_set a n ev i x nb : 0 <= i -> has a x = false -> 0 <= x < nb ->
  exists a', (if (0 <? Z.land ev (2 ^ i)) && match a with Some _ => true | None => false end then (put a x true, n + 1) else (a, n)) =
    (a', n + (bits a' nb - bits a nb)) /\ same a a' /\
    forall y, has a' y = has a y || (present a && (y =? x) && bit ev i).
Proof.
  intros Hi H R. rewrite land_bit by lia. unfold bit. destruct (Z.testbit ev i) eqn:T; cbn [andb].
  - destruct a as [f|].
    + exists (put (Some f) x true). split; [f_equal; rewrite (bits_put (Some f) x nb); auto; lia|]. split; [exact I|].
      intros y. cbn [put has present andb]. rewrite andb_true_r. destruct (y =? x); [rewrite orb_true_r|rewrite orb_false_r]; reflexivity.
    + exists None. split; [f_equal; lia|]. split; [exact I|]. reflexivity.
  - exists a. split; [f_equal; lia|]. split; [destruct a; exact I|]. intros y. rewrite andb_false_r, orb_false_r. reflexivity.
Qed.
Lemma report_ok s n ev x nb : nb <= FD_SETSIZE -> 0 <= x < nb -> watched s x = false ->
  exists s', report (s, n) (ev, x) = (s', n + (total s' nb - total s nb)) /\
    same (rd s) (rd s') /\ same (wr s) (wr s') /\ same (ex s) (ex s') /\
    forall y, has (rd s') y = has (rd s) y || (present (rd s) && (y =? x) && bit ev 0) /\
              has (wr s') y = has (wr s) y || (present (wr s) && (y =? x) && bit ev 2) /\
              has (ex s') y = has (ex s) y || (present (ex s) && (y =? x) && bit ev 3).
Proof.
  intros Hnb R W. unfold watched in W. apply orb_false_elim in W. destruct W as [W1 W3]. apply orb_false_elim in W1. destruct W1 as [W1 W2].
  unfold report. destruct (Z.leb_spec 0 x); [|lia]. destruct (Z.ltb_spec x FD_SETSIZE); [|lia]. cbn [andb].
  destruct (one_set (rd s) n ev 0 x nb ltac:(lia) W1 R) as (r & Er & Sr & Hr). change (2 ^ 0) with EPOLLIN in Er. rewrite Er.
  destruct (one_set (wr s) (n + (bits r nb - bits (rd s) nb)) ev 2 x nb ltac:(lia) W2 R) as (w' & Ew & Sw & Hw). change (2 ^ 2) with EPOLLOUT in Ew. rewrite Ew.
  destruct (one_set (ex s) (n + (bits r nb - bits (rd s) nb) + (bits w' nb - bits (wr s) nb)) ev 3 x nb ltac:(lia) W3 R) as (x' & Ex & Sx & Hx). change (2 ^ 3) with EPOLLERR in Ex. rewrite Ex.
  eexists. split; [unfold total; apply f_equal2; [reflexivity|]; cbn [rd wr ex]; lia|]. cbn [rd wr ex]. repeat split; auto.
Qed.
Definition hit (evs : list (Z * Z)) (y i : Z) : bool := existsb (fun e => (y =? snd e) && bit (fst e) i) evs.
Lemma reports_ok evs : forall s n nb, nb <= FD_SETSIZE -> NoDup (map snd evs) ->
  (forall e, In e evs -> 0 <= snd e < nb /\ watched s (snd e) = false) ->
  exists s', fold_left report evs (s, n) = (s', n + (total s' nb - total s nb)) /\
    same (rd s) (rd s') /\ same (wr s) (wr s') /\ same (ex s) (ex s') /\
    forall y, has (rd s') y = has (rd s) y || (present (rd s) && hit evs y 0) /\
              has (wr s') y = has (wr s) y || (present (wr s) && hit evs y 2) /\
              has (ex s') y = has (ex s) y || (present (ex s) && hit evs y 3).
Proof.
  induction evs as [|[ev x] evs IH]; intros s n nb Hnb ND He; cbn [fold_left].
  - exists s. split; [f_equal; lia|]. cbn [hit existsb]. rewrite !andb_false_r.
    split; [destruct (rd s); exact I|]. split; [destruct (wr s); exact I|]. split; [destruct (ex s); exact I|].
    intros y. rewrite !orb_false_r. auto.
  - cbn [map] in ND. apply NoDup_cons_iff in ND. destruct ND as [NI ND].
    destruct (He (ev, x)) as [R W]; [left; reflexivity|]. cbn [snd] in R, W.
    destruct (report_ok s n ev x nb Hnb R W) as (s1 & E1 & Sr & Sw & Sx & H1).
    destruct (IH s1 (n + (total s1 nb - total s nb)) nb Hnb ND) as (s2 & E2 & Sr2 & Sw2 & Sx2 & H2).
    { intros e Hin. destruct (He e) as [R2 W2]; [right; exact Hin|]. split; [exact R2|].
      assert (N : snd e <> x) by (intros X; apply NI; cbn [snd]; rewrite <- X; apply (in_map snd evs e Hin)).
      unfold watched in *. destruct (H1 (snd e)) as (-> & -> & ->). apply Z.eqb_neq in N. rewrite N.
      rewrite !andb_false_r, !andb_false_l, !orb_false_r. exact W2. }
    exists s2. rewrite E1, E2. split; [f_equal; lia|].
    assert (T : forall a b c, same a b -> same b c -> same a c) by (intros [] [] []; cbn; tauto).
    split; [eapply T; eassumption|]. split; [eapply T; eassumption|]. split; [eapply T; eassumption|].
    assert (PP : forall a b, same a b -> present a = present b) by (intros [] []; cbn; tauto).
    intros y. destruct (H2 y) as (-> & -> & ->). destruct (H1 y) as (-> & -> & ->).
    rewrite <- (PP _ _ Sr), <- (PP _ _ Sw), <- (PP _ _ Sx). cbn [hit existsb fst snd].
    fold (hit evs y 0). fold (hit evs y 2). fold (hit evs y 3).
    assert (BB : forall a p c b h : bool, a || p && c && b || p && h = a || p && (c && b || h)) by (intros [] [] [] [] []; reflexivity).
    auto.
Qed.

(* ---- select ---- *)
Definition fires (s : sets) (w : world) (x : Z) : bool :=
  watched s x && match w x with Now m => negb (epoll_events w x (wanted s x) =? 0) | _ => false end.
Lemma wanted_bits s x : Z.testbit (wanted s x) 0 = has (rd s) x /\ Z.testbit (wanted s x) 2 = has (wr s) x /\
  Z.testbit (wanted s x) 3 = has (ex s) x.
Proof. unfold wanted. destruct (has (rd s) x), (has (wr s) x), (has (ex s) x); repeat split; reflexivity. Qed.
Lemma land_or_bits m v i : 0 <= i -> Z.testbit (Z.land m (Z.lor v (Z.lor EPOLLERR EPOLLHUP))) i =
  Z.testbit m i && (Z.testbit v i || (i =? 3) || (i =? 4)).
Proof.
  intros Hi. rewrite Z.land_spec, !Z.lor_spec. f_equal. rewrite <- orb_assoc. f_equal.
  change EPOLLERR with (2 ^ 3). change EPOLLHUP with (2 ^ 4). rewrite !Z.pow2_bits_eqb by lia. rewrite (Z.eqb_sym 3), (Z.eqb_sym 4). reflexivity.
Qed.
Lemma hit_in evs y i ev : NoDup (map snd evs) -> In (ev, y) evs -> hit evs y i = bit ev i.
Proof.
  induction evs as [|[e x] evs IH]; intros ND I; [contradiction|]. cbn [map] in ND. apply NoDup_cons_iff in ND. destruct ND as [NI ND].
  cbn [hit existsb fst snd]. destruct I as [E|I].
  - injection E as -> ->. rewrite Z.eqb_refl. cbn [andb]. destruct (existsb _ evs) eqn:X; [|apply orb_false_r].
    apply existsb_exists in X. destruct X as ([e2 x2] & I2 & X). cbn [snd fst] in X. apply andb_true_iff in X. destruct X as [X _].
    apply Z.eqb_eq in X. subst x2. exfalso. apply NI. exact (in_map snd evs (e2, y) I2).
  - assert (N : y <> x) by (intros ->; apply NI; exact (in_map snd evs (ev, x) I)).
    apply Z.eqb_neq in N. rewrite N. cbn [andb orb]. apply IH; assumption.
Qed.
Lemma hit_out evs y i : ~ In y (map snd evs) -> hit evs y i = false.
Proof.
  intros N. destruct (hit evs y i) eqn:X; [|reflexivity]. apply existsb_exists in X. destruct X as (e & I & X).
  apply andb_true_iff in X. destruct X as [X _]. apply Z.eqb_eq in X. exfalso. apply N. rewrite X. exact (in_map snd evs e I).
Qed.

Lemma wait_full w l evs (R : list Z) : epoll_result w l evs ->
  (forall fd want d, In (fd, want, d) l -> epoll_events w fd want <> 0 -> In d R) ->
  (forall f1 w1 f2 w2 d, In (f1, w1, d) l -> In (f2, w2, d) l -> f1 = f2 /\ w1 = w2) ->
  (length R <= 32)%nat ->
  forall fd want d, In (fd, want, d) l -> epoll_events w fd want <> 0 -> In (epoll_events w fd want, d) evs.
Proof.
  intros (ND & L32 & SND & CPL) HR HU L fd want d I NZ.
  destruct (Nat.lt_ge_cases (length evs) 32) as [LT|GE]; [apply (CPL LT fd want d I NZ)|].
  assert (INC : incl R (map snd evs)).
  { apply NoDup_length_incl.
    - exact ND.
    - rewrite map_length. lia.
    - intros x Hx. apply in_map_iff in Hx. destruct Hx as ([ev d'] & <- & Hx). cbn [snd].
      destruct (SND _ _ Hx) as (N & f' & w' & I' & E). apply (HR f' w' d' I'). congruence. }
  specialize (INC d (HR _ _ _ I NZ)). apply in_map_iff in INC. destruct INC as ([ev d'] & E0 & Hx). cbn [snd] in E0. subst d'.
  destruct (SND _ _ Hx) as (N & f' & w' & I' & E). destruct (HU _ _ _ _ _ I' I) as [-> ->]. subst ev. exact Hx.
Qed.

Lemma fires_busy s w x : fires s w x = true -> busy s w x = true.
Proof.
  unfold fires, busy. intros F. apply andb_true_iff in F. destruct F as [-> F]. cbn [andb]. unfold epoll_events in F. destruct (w x) as [| |m]; try discriminate.
  apply not_false_iff_true. intros B. apply orb_false_iff in B. destruct B as [B B4]. apply orb_false_iff in B. destruct B as [B B3].
  apply orb_false_iff in B. destruct B as [B0 B2].
  assert (E : Z.land m (Z.lor (wanted s x) (Z.lor EPOLLERR EPOLLHUP)) = 0); [|rewrite E in F; discriminate].
  apply Z.bits_inj'. intros i Hi. rewrite land_or_bits, Z.bits_0 by lia. destruct (wanted_bits s x) as (W0 & W2 & W3).
  assert (OTH : i <> 0 -> i <> 2 -> i <> 3 -> Z.testbit (wanted s x) i = false).
  { intros N0 N2 N3. unfold wanted, EPOLLIN, EPOLLOUT, EPOLLERR. change 1 with (2 ^ 0). change 4 with (2 ^ 2). change 8 with (2 ^ 3).
    destruct (has (rd s) x), (has (wr s) x), (has (ex s) x); rewrite ?Z.lor_spec, ?Z.pow2_bits_eqb, ?Z.bits_0 by lia;
      repeat match goal with |- context [?a =? i] => destruct (Z.eqb_spec a i); [lia|] end; reflexivity. }
  destruct (Z.eqb_spec i 3) as [->|N3]; [rewrite B3; reflexivity|]. destruct (Z.eqb_spec i 4) as [->|N4]; [rewrite B4; reflexivity|].
  rewrite !orb_false_r. destruct (Z.eq_dec i 0) as [->|N0]; [rewrite W0, andb_comm; exact B0|].
  destruct (Z.eq_dec i 2) as [->|N2]; [rewrite W2, andb_comm; exact B2|]. rewrite OTH by lia. apply andb_false_r.
Qed.
Lemma filter_le {A} (f g : A -> bool) l : (forall x, f x = true -> g x = true) -> (length (filter f l) <= length (filter g l))%nat.
Proof.
  intros H. induction l as [|x l IH]; cbn [filter]; [lia|]. destruct (f x) eqn:F; [rewrite (H x F); cbn; lia|]. destruct (g x); cbn; lia.
Qed.
Lemma select_ok w wait nfds s t :
  0 <= nfds <= FD_SETSIZE ->
  epoll_good w wait ->
  (forall x, 0 <= x < nfds -> watched s x = true -> calm s w x) ->
  (length (filter (busy s w) (descriptors nfds)) <= 32)%nat ->
  let o := select (epoll_add w) wait nfds s t in
  selected nfds (rd s) can_read w (rd (out o)) /\ selected nfds (wr s) can_write w (wr (out o)) /\
  selected nfds (ex s) exceptional w (ex (out o)) /\
  ret o = bits (rd (out o)) nfds + bits (wr (out o)) nfds + bits (ex (out o)) nfds.
Proof.
  intros Hn Hw Hc H32'. cbv zeta. unfold select, select_epoll.
  assert (H32 : (length (filter (fires s w) (range 0 (Z.to_nat nfds))) <= 32)%nat).
  { etransitivity; [apply (filter_le (fires s w) (busy s w)); apply fires_busy|]. unfold descriptors in H32'. rewrite range_seq in H32'. exact H32'. }
  clear H32'.
  destruct (Z.ltb_spec nfds 0); [lia|]. destruct (Z.ltb_spec FD_SETSIZE nfds); [lia|]. cbn [orb].
  destruct (add_all_ok w (Z.to_nat nfds) 0 s (@nil added) 0) as (s1 & E & C1 & C2 & C3).
  { intros a []. }
  { intros x Hx Wx X. specialize (Hc x ltac:(lia) Wx). unfold calm in Hc. rewrite X in Hc. exact Hc. }
  rewrite E. rewrite app_nil_l, Z.add_0_l.
  set (l := map (fun fd => (fd, wanted s fd, fd)) (filter (fun x => watched s x && pollable w x) (range 0 (Z.to_nat nfds)))) in *.
  set (ne := len (filter (fun x => watched s x && always w x) (range 0 (Z.to_nat nfds)))) in *.
  set (ms := if 0 <? ne then 0 else match t with Some (sec, usec) => timeval_ms sec usec | None => -1 end).
  destruct (Hw l ms) as (evs & EW & RW).
  { unfold l. rewrite map_map. cbn [snd]. rewrite map_id. apply NoDup_filter, range_nodup. }
  rewrite EW. cbv beta iota.
  assert (Lin : forall fd want d, In (fd, want, d) l <-> d = fd /\ want = wanted s fd /\ 0 <= fd < nfds /\ watched s fd = true /\ pollable w fd = true).
  { intros fd want d. unfold l. rewrite in_map_iff. split.
    - intros (x & Ex & Ix). injection Ex as -> <- <-. apply filter_In in Ix. destruct Ix as [Ix B]. apply range_in in Ix. apply andb_true_iff in B. intuition lia.
    - intros (-> & -> & R & W & P). exists fd. split; [reflexivity|]. apply filter_In. split; [apply range_in; lia|]. rewrite W, P. reflexivity. }
  pose proof RW as (ND & L32 & SND & CPL).
  assert (FULL : forall fd, 0 <= fd < nfds -> watched s fd = true -> pollable w fd = true -> epoll_events w fd (wanted s fd) <> 0 ->
     In (epoll_events w fd (wanted s fd), fd) evs).
  { intros fd R W P NZ.
    apply (wait_full w l evs (filter (fires s w) (range 0 (Z.to_nat nfds)))) with (d := fd); auto.
    - intros f v d I N. apply Lin in I. destruct I as (-> & -> & R' & W' & P'). apply filter_In. split; [apply range_in; lia|].
      unfold fires. rewrite W'. cbn [andb]. unfold pollable in P'. unfold epoll_events in *. destruct (w f); try discriminate.
      apply negb_true_iff, Z.eqb_neq. exact N.
    - intros f1 w1 f2 w2 d I1 I2. apply Lin in I1, I2. destruct I1 as (-> & -> & _). destruct I2 as (<- & -> & _). auto.
    - apply Lin. auto. }
  rewrite firstn_all2 by exact L32.
  destruct (reports_ok evs s1 ne nfds ltac:(lia) ND) as (s2 & E2 & Sr & Sw & Sx & H2).
  { intros [ev d] I. cbn [snd]. destruct (SND _ _ I) as (N & f & v & I' & _). apply Lin in I'. destruct I' as (-> & -> & R & W & P).
    split; [exact R|]. unfold watched. destruct C1 as [_ C1]. destruct C2 as [_ C2]. destruct C3 as [_ C3]. rewrite C1, C2, C3, P.
    destruct (Z.leb_spec 0 f); [|lia]. destruct (Z.ltb_spec f (0 + Z.of_nat (Z.to_nat nfds))); [|lia]. reflexivity. }
  rewrite E2. cbn [ret out].
  (* what happened to one set *)
  assert (ONE : forall a a1 a2 ok i, cleared w a1 a 0 (Z.to_nat nfds) -> same a1 a2 ->
     (forall y, has a2 y = has a1 y || (present a1 && hit evs y i)) ->
     (forall x, 0 <= x < nfds -> watched s x = true -> pollable w x = true ->
        present a = true -> bit (epoll_events w x (wanted s x)) i = has a x && ok (w x)) ->
     (forall x, has a x = true -> watched s x = true) -> 0 <= i ->
     (forall x, 0 <= x < nfds -> has a x = true -> pollable w x = false -> ok (w x) = true) ->
     selected nfds a ok w a2).
  { intros a a1 a2 ok i [Sa Ca] S2 HH Hbit HW Hi HA. unfold selected. destruct a as [f|], a1 as [f1|], a2 as [f2|]; cbn in Sa, S2; try tauto.
    intros x. specialize (HH x). specialize (Ca x). cbn [has present andb] in HH, Ca. rewrite HH, Ca. rewrite Z.add_0_l, Z2Nat.id by lia.
    destruct (Z.leb_spec 0 x) as [Lx|Lx]; cbn [andb].
    2:{ rewrite (hit_out evs x i); [apply orb_false_r|]. intros I. apply in_map_iff in I. destruct I as ([ev d] & <- & I). cbn [snd] in Lx.
        destruct (SND _ _ I) as (_ & fd & v & I' & _). apply Lin in I'. destruct I' as (-> & _ & R & _). lia. }
    destruct (Z.ltb_spec x nfds) as [Ux|Ux]; cbn [andb].
    2:{ rewrite (hit_out evs x i); [apply orb_false_r|]. intros I. apply in_map_iff in I. destruct I as ([ev d] & <- & I). cbn [snd] in Ux.
        destruct (SND _ _ I) as (_ & fd & v & I' & _). apply Lin in I'. destruct I' as (-> & _ & R & _). lia. }
    destruct (pollable w x) eqn:P.
    - cbn [orb]. destruct (watched s x) eqn:W.
      + destruct (Z.eq_dec (epoll_events w x (wanted s x)) 0) as [Z0|NZ].
        * pose proof (Hbit x ltac:(lia) W P eq_refl) as HB. cbn [has] in HB. rewrite <- HB. unfold bit. rewrite Z0, Z.bits_0. apply hit_out.
          intros I. apply in_map_iff in I. destruct I as ([ev d] & E0 & I). cbn [snd] in E0. subst d. destruct (SND _ _ I) as (N & fd & v & I' & EV).
          apply Lin in I'. destruct I' as (<- & -> & _). congruence.
        * rewrite (hit_in evs x i _ ND (FULL x ltac:(lia) W P NZ)). apply (Hbit x ltac:(lia) W P eq_refl).
      + assert (f x = false) as -> by (destruct (f x) eqn:FX; [specialize (HW x FX); congruence|reflexivity]).
        apply hit_out. intros I. apply in_map_iff in I. destruct I as ([ev d] & E0 & I). cbn [snd] in E0. subst d.
        destruct (SND _ _ I) as (N & fd & v & I' & EV). apply Lin in I'. destruct I' as (<- & -> & _ & W' & _). congruence.
    - rewrite hit_out.
      + rewrite orb_false_r. destruct (f x) eqn:FX; [|reflexivity]. rewrite (HA x); auto.
      + intros I. apply in_map_iff in I. destruct I as ([ev d] & E0 & I). cbn [snd] in E0. subst d.
        destruct (SND _ _ I) as (N & fd & v & I' & EV). apply Lin in I'. destruct I' as (<- & -> & _ & _ & P'). congruence. }
  assert (CALM : forall x, 0 <= x < nfds -> watched s x = true -> pollable w x = true -> exists m, w x = Now m /\ calm s w x /\
     forall i, 0 <= i -> bit (epoll_events w x (wanted s x)) i = Z.testbit m i && (Z.testbit (wanted s x) i || (i =? 3) || (i =? 4))).
  { intros x R W P. unfold pollable in P. destruct (w x) as [| |m] eqn:Wx; try discriminate. exists m. split; [reflexivity|]. split; [apply Hc; auto|].
    intros i Hi. unfold bit, epoll_events. rewrite Wx. apply land_or_bits. exact Hi. }
  assert (REG : forall x, 0 <= x < nfds -> watched s x = true -> pollable w x = false -> w x = Always).
  { intros x R W P. specialize (Hc x R W). unfold calm in Hc. unfold pollable in P. destruct (w x); try discriminate; tauto. }
  assert (Wr : forall x, has (rd s) x = true -> watched s x = true) by (intros x Hx; unfold watched; rewrite Hx; reflexivity).
  assert (Ww : forall x, has (wr s) x = true -> watched s x = true) by (intros x Hx; unfold watched; rewrite Hx, orb_true_r; reflexivity).
  assert (Wx : forall x, has (ex s) x = true -> watched s x = true) by (intros x Hx; unfold watched; rewrite Hx, orb_true_r; reflexivity).
  split; [|split; [|split]].
  - apply (ONE _ _ _ _ 0 C1 Sr); try lia; try (intros y; apply (H2 y)); auto.
    + intros x R W P _. destruct (CALM x R W P) as (m & Em & CA & HB). rewrite (HB 0) by lia. destruct (wanted_bits s x) as (-> & _ & _).
      unfold calm in CA. rewrite Em in CA. destruct CA as (_ & CH & CE). rewrite Em. cbn [can_read]. cbn [Z.eqb orb].
      rewrite !orb_false_r, andb_comm. f_equal. destruct (Z.testbit m 0); [reflexivity|]. destruct (Z.testbit m 4); [specialize (CH eq_refl); discriminate|].
      destruct (Z.testbit m 3); [destruct (CE eq_refl); discriminate|reflexivity].
    + intros x R Hx P. rewrite (REG x R (Wr x Hx) P). reflexivity.
  - apply (ONE _ _ _ _ 2 C2 Sw); try lia; try (intros y; apply (H2 y)); auto.
    + intros x R W P _. destruct (CALM x R W P) as (m & Em & CA & HB). rewrite (HB 2) by lia. destruct (wanted_bits s x) as (_ & -> & _).
      unfold calm in CA. rewrite Em in CA. destruct CA as (_ & CH & CE). rewrite Em. cbn [can_write]. cbn [Z.eqb orb].
      rewrite !orb_false_r, andb_comm. f_equal. destruct (Z.testbit m 2); [reflexivity|].
      destruct (Z.testbit m 3); [destruct (CE eq_refl) as (_ & X & _); discriminate|reflexivity].
    + intros x R Hx P. rewrite (REG x R (Ww x Hx) P). reflexivity.
  - apply (ONE _ _ _ _ 3 C3 Sx); try lia; try (intros y; apply (H2 y)); auto.
    + intros x R W P PR. destruct (CALM x R W P) as (m & Em & CA & HB). rewrite (HB 3) by lia. destruct (wanted_bits s x) as (_ & _ & ->).
      unfold calm in CA. rewrite Em in CA. destruct CA as (C0 & CH & CE). rewrite Em. cbn [exceptional]. rewrite C0.
      change (3 =? 3) with true. rewrite orb_true_r, orb_true_l, andb_true_r, orb_false_r.
      destruct (Z.testbit m 3); [|rewrite andb_false_r; reflexivity]. destruct (CE eq_refl) as (_ & _ & [X|X]); [rewrite X in PR; discriminate|rewrite X; reflexivity].
    + intros x R Hx P. rewrite (REG x R (Wx x Hx) P). reflexivity.
  - (* the count *)
    assert (T1 : total s1 nfds = ne).
    { unfold total, ne. rewrite !bits_range. destruct C1 as [_ C1]. destruct C2 as [_ C2]. destruct C3 as [_ C3].
      assert (G : forall k i, 0 <= i -> i + Z.of_nat k <= nfds ->
        len (filter (has (rd s1)) (range i k)) + len (filter (has (wr s1)) (range i k)) + len (filter (has (ex s1)) (range i k)) =
        len (filter (fun x => watched s x && always w x) (range i k))).
      { induction k as [|k IH]; intros i I0 I1; [reflexivity|]. cbn [range filter]. specialize (IH (i + 1) ltac:(lia) ltac:(lia)).
        assert (D1 : (0 <=? i) = true) by lia.
        assert (D2 : (i <? 0 + Z.of_nat (Z.to_nat nfds)) = true) by lia.
        rewrite (C1 i), (C2 i), (C3 i), D1, D2. cbn [andb].
        destruct (watched s i) eqn:W.
        - specialize (Hc i ltac:(lia) W). unfold calm in Hc.
          assert (PA : w i = Always /\ pollable w i = false /\ always w i = true \/ w i <> Always /\ pollable w i = true /\ always w i = false).
          { unfold pollable, always. destruct (w i); [tauto|left; auto|right; repeat split; discriminate]. }
          destruct PA as [(Wi & -> & ->)|(Wi & -> & ->)]; cbn [andb]; [|exact IH]. rewrite Wi in Hc.
          destruct (has (rd s) i), (has (wr s) i), (has (ex s) i); cbv iota in Hc |- *; rewrite ?len_cons; lia.
        - unfold watched in W. apply orb_false_elim in W. destruct W as [W1 W3]. apply orb_false_elim in W1. destruct W1 as [W1 W2].
          rewrite W1, W2, W3. cbn [andb]. destruct (pollable w i); exact IH. }
      apply G; lia. }
    fold (total s2 nfds). lia.
Qed.

(* ---- poll ---- *)
Lemma step_bit ev acc k j : 0 <= k -> 0 <= j ->
  Z.testbit (if 0 <? Z.land ev (2 ^ k) then Z.lor acc (2 ^ k) else acc) j = Z.testbit acc j || ((k =? j) && Z.testbit ev j).
Proof.
  intros Hk Hj. rewrite land_bit by lia. destruct (Z.testbit ev k) eqn:T.
  - rewrite Z.lor_spec, Z.pow2_bits_eqb by lia. f_equal. destruct (Z.eqb_spec k j) as [->|N]; [rewrite T|]; reflexivity.
  - destruct (Z.eqb_spec k j) as [->|N]; [rewrite T|]; cbn [andb]; rewrite orb_false_r; reflexivity.
Qed.
Definition pows : list Z := [0; 1; 2; 3; 4; 5; 6; 8; 7; 9].
Lemma fold_bits (ev acc : Z) (ks : list Z) j : 0 <= j -> Forall (fun k => 0 <= k) ks ->
  Z.testbit (fold_left (fun a k => if 0 <? Z.land ev (2 ^ k) then Z.lor a (2 ^ k) else a) ks acc) j =
  Z.testbit acc j || (existsb (fun k => k =? j) ks && Z.testbit ev j).
Proof.
  intros Hj. revert acc. induction ks as [|k ks IH]; intros acc F; cbn [fold_left existsb].
  - rewrite andb_false_l, orb_false_r. reflexivity.
  - rewrite IH by (exact (Forall_inv_tail F)). rewrite step_bit by (auto; exact (Forall_inv F)).
    destruct (Z.testbit acc j), (k =? j), (existsb (fun k0 => k0 =? j) ks), (Z.testbit ev j); reflexivity.
Qed.
Lemma ones_bit j : 0 <= j -> Z.testbit 1023 j = (j <? 10).
Proof. intros Hj. change 1023 with (Z.ones 10). rewrite Z.testbit_ones by lia. destruct (Z.leb_spec 0 j); [|lia]. reflexivity. Qed.
Lemma pows_bit j : 0 <= j -> existsb (fun k => k =? j) pows = (j <? 10).
Proof.
  intros Hj. destruct (Z.ltb_spec j 10) as [L|L].
  - apply existsb_exists. exists j. split; [|apply Z.eqb_refl]. unfold pows.
    assert (j = 0 \/ j = 1 \/ j = 2 \/ j = 3 \/ j = 4 \/ j = 5 \/ j = 6 \/ j = 7 \/ j = 8 \/ j = 9) by lia. cbn [In]. intuition.
  - destruct (existsb (fun k => k =? j) pows) eqn:E; [|reflexivity]. apply existsb_exists in E. destruct E as (k & I & E).
    apply Z.eqb_eq in E. subst k. unfold pows in I. cbn [In] in I. lia.
Qed.
Lemma map_fold ev acc : fold_left (fun a k => if 0 <? Z.land ev (2 ^ k) then Z.lor a (2 ^ k) else a) pows acc = Z.lor acc (Z.land ev 1023).
Proof.
  apply Z.bits_inj'. intros j Hj. rewrite fold_bits by (auto; unfold pows; repeat constructor; lia).
  rewrite pows_bit, Z.lor_spec, Z.land_spec, ones_bit by lia. rewrite andb_comm. reflexivity.
Qed.
Lemma to_epoll_land ev : to_epoll ev = Z.land ev 1023.
Proof. rewrite <- (Z.lor_0_l (Z.land ev 1023)), <- map_fold. reflexivity. Qed.
Lemma from_epoll_land ev r : from_epoll ev r = Z.lor r (Z.land ev 1023).
Proof. rewrite <- map_fold. reflexivity. Qed.
Lemma answer_bits m e : 0 <= m < 1024 -> Z.land (Z.land m (Z.lor (Z.land e 1023) (Z.lor EPOLLERR EPOLLHUP))) 1023 = Z.land m (Z.lor e 24).
Proof.
  intros Hm. change (Z.lor EPOLLERR EPOLLHUP) with 24. apply Z.bits_inj'. intros j Hj. rewrite !Z.land_spec, !Z.lor_spec, Z.land_spec, ones_bit by lia.
  destruct (Z.ltb_spec j 10) as [L|L]; [rewrite !andb_true_r; reflexivity|].
  assert (Z.testbit m j = false) as ->; [|reflexivity].
  rewrite <- (Z.mod_small m (2 ^ 10)) by lia. apply Z.mod_pow2_bits_high. lia.
Qed.
Lemma epoll_events_bound w x v m : w x = Now m -> 0 <= m < 1024 -> Z.land (epoll_events w x v) 1023 = epoll_events w x v.
Proof.
  intros E Hm. unfold epoll_events. rewrite E. rewrite <- Z.land_assoc, (Z.land_comm _ 1023), Z.land_assoc. f_equal.
  change 1023 with (Z.ones 10). rewrite Z.land_ones by lia. apply Z.mod_small. exact Hm.
Qed.

Definition first_revents (w : world) (p : pollfd) : Z := if fd p <? 0 then 0 else match w (fd p) with Closed => 32 | _ => 0 end.
Definition is_open (w : world) (p : pollfd) : bool := (0 <=? fd p) && pollable w (fd p).
Definition is_closed (w : world) (p : pollfd) : bool := (0 <=? fd p) && match w (fd p) with Closed => true | _ => false end.
Fixpoint entries (w : world) (ps : list pollfd) (i : Z) : list added :=
  match ps with
  | [] => []
  | p :: ps => (if is_open w p then [(fd p, Z.land (events p) 1023, i)] else []) ++ entries w ps (i + 1)
  end.
Lemma poll_add_ok w ps : forall i (l : list added) closed,
  NoDup (valid_fds ps) -> (forall p, In p ps -> 0 <= fd p -> w (fd p) <> Always) ->
  (forall a p, In a l -> In p ps -> fst (fst a) <> fd p) ->
  poll_add (epoll_add w) ps i l closed =
    (map (fun p => set_revents p (first_revents w p)) ps, inl (l ++ entries w ps i, closed + len (filter (is_closed w) ps))).
Proof.
  induction ps as [|p ps IH]; intros i l closed ND NA NL; cbn [poll_add map entries filter].
  - change (len (@nil pollfd)) with 0. rewrite app_nil_r, Z.add_0_r. reflexivity.
  - assert (ND' : NoDup (valid_fds ps)).
    { unfold valid_fds in *. cbn [map filter] in ND. destruct (0 <=? fd p); [apply NoDup_cons_iff in ND; tauto|exact ND]. }
    assert (NA' : forall q, In q ps -> 0 <= fd q -> w (fd q) <> Always) by (intros q Hq; apply NA; right; exact Hq).
    assert (NL' : forall a q, In a l -> In q ps -> fst (fst a) <> fd q) by (intros a q Ha Hq; apply NL; [exact Ha|right; exact Hq]).
    cbn [set_revents fd events revents].
    unfold first_revents at 1. unfold is_open at 1, is_closed at 1. destruct (Z.ltb_spec (fd p) 0) as [L|L].
    + destruct (Z.leb_spec 0 (fd p)); [lia|]. cbn [andb app]. rewrite (IH (i + 1) l closed ND' NA' NL'). reflexivity.
    + destruct (Z.leb_spec 0 (fd p)); [|lia]. cbn [andb]. specialize (NA p (or_introl eq_refl) L).
      assert (NEW : existsb (fun a : added => fst (fst a) =? fd p) l = false).
      { apply not_true_iff_false. intros E. apply existsb_exists in E. destruct E as (a & Ia & E). apply Z.eqb_eq in E.
        exfalso. apply (NL a p Ia (or_introl eq_refl) E). }
      assert (ADD : forall e, epoll_add w l (fd p) e = match w (fd p) with Closed => Some EBADF | Always => Some EPERM | Now _ => None end).
      { intros e. unfold epoll_add. destruct (w (fd p)); [reflexivity..|]. change (existsb (fun a => fst (fst a) =? fd p) l) with (existsb (fun a : added => fst (fst a) =? fd p) l). rewrite NEW. reflexivity. }
      rewrite ADD. unfold pollable at 1. destruct (w (fd p)) as [| |m] eqn:Wp.
      * change (EBADF =? EBADF) with true. cbv iota. rewrite (IH (i + 1) l (closed + 1) ND' NA' NL'). cbn [app]. rewrite len_cons.
        replace (closed + (len (filter (is_closed w) ps) + 1)) with (closed + 1 + len (filter (is_closed w) ps)) by lia. reflexivity.
      * congruence.
      * rewrite (IH (i + 1) (l ++ [(fd p, to_epoll (events p), i)]) closed ND' NA').
        -- rewrite to_epoll_land, <- app_assoc. reflexivity.
        -- intros a q Ha Hq. apply in_app_or in Ha. destruct Ha as [Ha|[<-|[]]]; [apply NL'; assumption|]. cbn [fst].
           unfold valid_fds in ND. cbn [map filter] in ND. destruct (Z.leb_spec 0 (fd p)); [|lia]. apply NoDup_cons_iff in ND. destruct ND as [ND _].
           intros E. apply ND. apply filter_In. split; [rewrite E; apply in_map; exact Hq|lia].
Qed.
Lemma entries_in w ps : forall i f v d, In (f, v, d) (entries w ps i) <->
  exists j p, nth_error ps j = Some p /\ is_open w p = true /\ d = i + Z.of_nat j /\ f = fd p /\ v = Z.land (events p) 1023.
Proof.
  induction ps as [|p ps IH]; intros i f v d; cbn [entries].
  - split; [intros []|]. intros ([|j] & q & E & _); discriminate.
  - rewrite in_app_iff, IH. split.
    + intros [H|(j & q & E & Op & -> & -> & ->)].
      * destruct (is_open w p) eqn:Op; [|contradiction]. destruct H as [H|[]]. injection H as <- <- <-. exists O, p. cbn. repeat split; auto; lia.
      * exists (S j), q. cbn [nth_error]. repeat split; auto; lia.
    + intros ([|j] & q & E & Op & -> & -> & ->); cbn [nth_error] in E.
      * injection E as ->. left. rewrite Op. left. f_equal. lia.
      * right. exists j, q. repeat split; auto; lia.
Qed.
Lemma entries_nodup w ps : forall i, NoDup (map snd (entries w ps i)).
Proof.
  induction ps as [|p ps IH]; intros i; cbn [entries map]; [constructor|]. rewrite map_app. destruct (is_open w p); cbn [map app snd]; [|apply IH].
  constructor; [|apply IH]. intros I. apply in_map_iff in I. destruct I as ([[f v] d] & E & I). cbn [snd] in E. subst d.
  apply entries_in in I. destruct I as (j & q & _ & _ & D & _). lia.
Qed.
Lemma poll_set_nth ps : forall i ev j, nth_error (poll_set ps i ev) j =
  if Nat.eqb i j then option_map (fun p => set_revents p (from_epoll ev (revents p))) (nth_error ps j) else nth_error ps j.
Proof.
  induction ps as [|p ps IH]; intros [|i] ev [|j]; cbn [poll_set nth_error Nat.eqb option_map]; try reflexivity.
  - destruct (Nat.eqb i j); reflexivity.
  - apply IH.
Qed.
Lemma poll_reports_in evs : forall ps j ev, NoDup (map snd evs) -> (forall e, In e evs -> 0 <= snd e) -> In (ev, Z.of_nat j) evs ->
  nth_error (fold_left poll_report evs ps) j = option_map (fun p => set_revents p (from_epoll ev (revents p))) (nth_error ps j).
Proof.
  assert (OUT : forall evs ps j, (forall e, In e evs -> 0 <= snd e) -> ~ In (Z.of_nat j) (map snd evs) ->
    nth_error (fold_left poll_report evs ps) j = nth_error ps j).
  { clear. induction evs as [|[ev d] evs IH]; intros ps j Hp N; cbn [fold_left]; [reflexivity|].
    rewrite IH; [|intros e He; apply Hp; right; exact He|intros I; apply N; right; exact I].
    unfold poll_report. cbn [fst snd]. rewrite poll_set_nth. destruct (Nat.eqb_spec (Z.to_nat d) j) as [E|E]; [|reflexivity].
    exfalso. apply N. left. cbn [snd]. specialize (Hp (ev, d) (or_introl eq_refl)). cbn [snd] in Hp. lia. }
  induction evs as [|[e d] evs IH]; intros ps j ev ND Hp I; [contradiction|]. cbn [map] in ND. apply NoDup_cons_iff in ND. destruct ND as [NI ND].
  cbn [fold_left]. destruct I as [E|I].
  - injection E as -> ->. rewrite OUT; [|intros e He; apply Hp; right; exact He|exact NI]. unfold poll_report. cbn [fst snd]. rewrite poll_set_nth.
    rewrite Nat2Z.id, Nat.eqb_refl. reflexivity.
  - rewrite (IH _ j ev ND); [|intros x Hx; apply Hp; right; exact Hx|exact I]. unfold poll_report. cbn [fst snd]. rewrite poll_set_nth.
    destruct (Nat.eqb_spec (Z.to_nat d) j) as [E|E]; [|reflexivity]. exfalso. apply NI. cbn [snd].
    specialize (Hp (e, d) (or_introl eq_refl)). cbn [snd] in Hp. replace d with (Z.of_nat j) by lia. exact (in_map snd evs (ev, Z.of_nat j) I).
Qed.
Lemma poll_reports_out evs : forall ps j, (forall e, In e evs -> 0 <= snd e) -> ~ In (Z.of_nat j) (map snd evs) ->
  nth_error (fold_left poll_report evs ps) j = nth_error ps j.
Proof.
  induction evs as [|[ev d] evs IH]; intros ps j Hp N; cbn [fold_left]; [reflexivity|].
  rewrite IH; [|intros e He; apply Hp; right; exact He|intros I; apply N; right; exact I].
  unfold poll_report. cbn [fst snd]. rewrite poll_set_nth. destruct (Nat.eqb_spec (Z.to_nat d) j) as [E|E]; [|reflexivity].
  exfalso. apply N. left. cbn [snd]. specialize (Hp (ev, d) (or_introl eq_refl)). cbn [snd] in Hp. lia.
Qed.

Definition pfires (w : world) (p : pollfd) : bool := is_open w p && negb (poll_answer w (fd p) (events p) =? 0).
Fixpoint places (w : world) (ps : list pollfd) (i : Z) : list Z :=
  match ps with [] => [] | p :: ps => (if pfires w p then [i] else []) ++ places w ps (i + 1) end.
Lemma places_len w ps : forall i, length (places w ps i) = length (filter (pfires w) ps).
Proof. induction ps as [|p ps IH]; intros i; cbn [places filter]; [reflexivity|]. destruct (pfires w p); cbn; rewrite IH; reflexivity. Qed.
Lemma places_in w ps : forall i j p, nth_error ps j = Some p -> pfires w p = true -> In (i + Z.of_nat j) (places w ps i).
Proof.
  induction ps as [|q ps IH]; intros i [|j] p E F; cbn [nth_error places] in *; try discriminate; apply in_or_app.
  - injection E as ->. rewrite F. left. left. lia.
  - right. specialize (IH (i + 1) j p E F). replace (i + Z.of_nat (S j)) with (i + 1 + Z.of_nat j) by lia. exact IH.
Qed.
Lemma nth_ext' {A} (l1 : list A) : forall l2, (forall j, nth_error l1 j = nth_error l2 j) -> l1 = l2.
Proof.
  induction l1 as [|x l1 IH]; intros [|y l2] H; [reflexivity|specialize (H O); discriminate|specialize (H O); discriminate|].
  pose proof (H O) as H0. cbn in H0. injection H0 as ->. f_equal. apply IH. intros j. apply (H (S j)).
Qed.
Lemma answer_nonneg w f e : (forall m, w f = Now m -> 0 <= m) -> 0 <= poll_answer w f e.
Proof.
  intros H. unfold poll_answer. destruct (f <? 0); [lia|]. destruct (w f) as [| |m] eqn:E; [lia| |].
  - apply Z.land_nonneg. right. lia.
  - apply Z.land_nonneg. left. apply (H m eq_refl).
Qed.
Lemma poll_ok w wait ps timeout :
  epoll_good w wait ->
  NoDup (valid_fds ps) -> (forall p, In p ps -> 0 <= fd p -> w (fd p) <> Always) ->
  (forall x m, w x = Now m -> 0 <= m < 1024) ->
  (length (filter (answered w) ps) <= 32)%nat ->
  let o := poll (epoll_add w) wait ps timeout in
  pout o = map (fun p => set_revents p (poll_answer w (fd p) (events p))) ps /\
  pret o = len (filter (answered w) ps).
Proof.
  intros Hw ND NA HM H32'. unfold answered at 1.
  assert (H32 : (length (filter (pfires w) ps) <= 32)%nat).
  { etransitivity; [apply (filter_le (pfires w) (answered w))|exact H32']. intros x F. apply andb_true_iff in F. apply F. }
  clear H32'. cbv zeta. unfold poll.
  rewrite (poll_add_ok w ps 0 [] 0 ND NA) by (intros a p []). cbn [app]. rewrite Z.add_0_l.
  set (ps1 := map (fun p => set_revents p (first_revents w p)) ps).
  assert (CNT : forall qs, qs = map (fun p => set_revents p (poll_answer w (fd p) (events p))) ps ->
     count qs = len (filter (fun p => negb (poll_answer w (fd p) (events p) =? 0)) ps)).
  { intros qs ->. unfold count. clear - HM. induction ps as [|p ps IH]; [reflexivity|]. cbn [map filter]. cbn [set_revents revents].
    pose proof (answer_nonneg w (fd p) (events p) (fun m E => proj1 (HM (fd p) m E))) as P.
    destruct (Z.ltb_spec 0 (poll_answer w (fd p) (events p))), (Z.eqb_spec (poll_answer w (fd p) (events p)) 0); try lia; cbn [negb]; rewrite ?len_cons; lia. }
  assert (REST : forall evs, epoll_result w (entries w ps 0) evs ->
    fold_left poll_report (firstn 32 evs) ps1 = map (fun p => set_revents p (poll_answer w (fd p) (events p))) ps).
  { intros evs RW. pose proof RW as (NDe & L32 & SND & _). rewrite firstn_all2 by lia.
    assert (POS : forall e, In e evs -> 0 <= snd e).
    { intros [ev d] I. destruct (SND _ _ I) as (_ & f & v & I' & _). apply entries_in in I'. destruct I' as (j & p & _ & _ & -> & _). cbn [snd]. lia. }
    assert (ANS : forall p, is_open w p = true -> from_epoll (epoll_events w (fd p) (Z.land (events p) 1023)) 0 = poll_answer w (fd p) (events p)).
    { intros p O. unfold is_open in O. apply andb_true_iff in O. destruct O as [O1 O2]. apply Z.leb_le in O1.
      unfold pollable in O2. unfold epoll_events, poll_answer. destruct (Z.ltb_spec (fd p) 0); [lia|]. destruct (w (fd p)) as [| |m] eqn:E; try discriminate.
      rewrite from_epoll_land, Z.lor_0_l. apply answer_bits. apply (HM _ _ E). }
    assert (NZ : forall p, is_open w p = true -> (epoll_events w (fd p) (Z.land (events p) 1023) = 0 <-> poll_answer w (fd p) (events p) = 0)).
    { intros p O. rewrite <- (ANS p O), from_epoll_land, Z.lor_0_l. unfold is_open in O. apply andb_true_iff in O. destruct O as [_ O2].
      unfold pollable in O2. destruct (w (fd p)) as [| |m] eqn:E; try discriminate. rewrite (epoll_events_bound w _ _ m E (HM _ _ E)). reflexivity. }
    pose proof (wait_full w (entries w ps 0) evs (places w ps 0) RW) as FULL.
    assert (FULL' : forall j p, nth_error ps j = Some p -> pfires w p = true ->
       In (epoll_events w (fd p) (Z.land (events p) 1023), Z.of_nat j) evs).
    { intros j p E F. pose proof F as F'. unfold pfires in F'. apply andb_true_iff in F'. destruct F' as [O N]. apply FULL.
      - intros f v d I N'. apply entries_in in I. destruct I as (j' & q & Eq & Oq & -> & -> & ->). apply (places_in w ps 0 j' q Eq).
        unfold pfires. rewrite Oq. cbn [andb]. destruct (Z.eqb_spec (poll_answer w (fd q) (events q)) 0) as [Z0|]; [|reflexivity].
        exfalso. apply N'. apply (NZ q Oq). exact Z0.
      - intros f1 w1 f2 w2 d I1 I2. apply entries_in in I1, I2. destruct I1 as (j1 & q1 & E1 & _ & -> & -> & ->). destruct I2 as (j2 & q2 & E2 & _ & D & -> & ->).
        assert (j1 = j2) by lia. subst j2. rewrite E1 in E2. injection E2 as ->. auto.
      - rewrite places_len. exact H32.
      - apply entries_in. exists j, p. repeat split; auto.
      - intros Z0. apply (NZ p O) in Z0. rewrite Z0 in N. discriminate. }
    apply nth_ext'. intros j. rewrite nth_error_map. unfold ps1.
    destruct (nth_error ps j) as [p|] eqn:E; cbn [option_map].
    2:{ destruct (in_dec Z.eq_dec (Z.of_nat j) (map snd evs)) as [I|I].
        - apply in_map_iff in I. destruct I as ([ev d] & D & I). cbn [snd] in D. subst d.
          rewrite (poll_reports_in evs _ j ev NDe POS I), nth_error_map, E. reflexivity.
        - rewrite (poll_reports_out evs _ j POS I), nth_error_map, E. reflexivity. }
    assert (CASE : (exists ev, In (ev, Z.of_nat j) evs) \/ ~ In (Z.of_nat j) (map snd evs)).
    { destruct (in_dec Z.eq_dec (Z.of_nat j) (map snd evs)) as [I|I]; [left|right; exact I].
      apply in_map_iff in I. destruct I as ([ev d] & D & I). cbn [snd] in D. subst d. exists ev. exact I. }
    destruct CASE as [[ev I]|I].
    - rewrite (poll_reports_in evs _ j ev NDe POS I), nth_error_map, E. cbn [option_map].
      destruct (SND _ _ I) as (N & f & v & I' & EV). apply entries_in in I'. destruct I' as (j' & q & Eq & Oq & D & -> & ->).
      assert (j' = j) by lia. subst j'. rewrite E in Eq. injection Eq as <-. rewrite EV.
      assert (F0 : first_revents w p = 0).
      { unfold is_open in Oq. apply andb_true_iff in Oq. destruct Oq as [O1 O2]. unfold pollable in O2. unfold first_revents.
        destruct (fd p <? 0); [reflexivity|]. destruct (w (fd p)); try discriminate; reflexivity. }
      rewrite F0. cbn [set_revents fd events revents]. rewrite (ANS p Oq). reflexivity.
    - rewrite (poll_reports_out evs _ j POS I), nth_error_map, E. cbn [option_map]. f_equal. f_equal.
      destruct (pfires w p) eqn:F; [exfalso; apply I; exact (in_map snd evs _ (FULL' j p E F))|].
      unfold pfires, is_open in F. unfold first_revents, poll_answer in *. destruct (Z.ltb_spec (fd p) 0); [reflexivity|].
      destruct (Z.leb_spec 0 (fd p)); [|lia]. cbn [andb] in F. unfold pollable in F.
      specialize (NA p (nth_error_In _ _ E)). destruct (w (fd p)) as [| |m]; [reflexivity|exfalso; apply NA; auto|].
      cbn [andb] in F. destruct (Z.eqb_spec (Z.land m (Z.lor (events p) 24)) 0) as [Z0|]; [congruence|discriminate]. }
  destruct (Z.ltb_spec 0 (len (filter (is_closed w) ps))) as [C0|C0]; cbn [andb].
  1: destruct (Z.eqb_spec (len (filter (is_closed w) ps)) (len ps1)) as [C1|C1].
  - (* all closed *)
    cbn [pout pret].
    assert (ALL : forall p, In p ps -> is_closed w p = true).
    { unfold ps1 in C1. clear - C1. unfold len in C1. rewrite map_length in C1. apply Nat2Z.inj in C1. revert C1. induction ps as [|p ps IH]; intros C q I; [contradiction|].
      cbn [filter length] in C. assert (LE : (length (filter (is_closed w) ps) <= length ps)%nat) by (clear; induction ps as [|x ps IH]; cbn; [lia|]; destruct (is_closed w x); cbn; lia).
      destruct (is_closed w p) eqn:E; cbn [length] in C; [|lia]. destruct I as [<-|I]; [exact E|]. apply IH; [lia|exact I]. }
    assert (EQ : ps1 = map (fun p => set_revents p (poll_answer w (fd p) (events p))) ps).
    { unfold ps1. apply map_ext_in. intros p I. specialize (ALL p I). unfold is_closed in ALL. apply andb_true_iff in ALL. destruct ALL as [A1 A2].
      unfold first_revents, poll_answer. destruct (Z.ltb_spec (fd p) 0); [reflexivity|]. destruct (w (fd p)); try discriminate. reflexivity. }
    split; [exact EQ|]. rewrite C1. unfold ps1, len. rewrite map_length. f_equal. f_equal.
    clear - ALL. induction ps as [|p ps IH]; [reflexivity|]. cbn [filter]. pose proof (ALL p (or_introl eq_refl)) as A.
    unfold is_closed in A. apply andb_true_iff in A. destruct A as [A1 A2]. unfold poll_answer at 1. destruct (Z.ltb_spec (fd p) 0); [lia|].
    destruct (w (fd p)); try discriminate. cbn [Z.eqb negb length]. f_equal. apply IH. intros q I. apply ALL. right. exact I.
  - destruct (Hw (entries w ps 0) timeout (entries_nodup w ps 0)) as (evs & EW & RW). rewrite EW. cbn [pout pret]. split; [apply REST, RW|apply CNT, REST, RW].
  - destruct (Hw (entries w ps 0) timeout (entries_nodup w ps 0)) as (evs & EW & RW). rewrite EW. cbn [pout pret]. split; [apply REST, RW|apply CNT, REST, RW].
Qed.

(* ---- the kernel of the examples ---- *)
Lemma nodup_map_filter {A B} (f : A -> B) (p : A -> bool) l : NoDup (map f l) -> NoDup (map f (filter p l)).
Proof.
  induction l as [|x l IH]; intros H; [constructor|]. cbn [map] in H. apply NoDup_cons_iff in H. destruct H as [N H]. cbn [filter].
  destruct (p x); [|apply IH, H]. cbn [map]. constructor; [|apply IH, H]. intros I. apply N. apply in_map_iff in I. destruct I as (y & E & I).
  apply filter_In in I. apply in_map_iff. exists y. tauto.
Qed.
Lemma nodup_firstn {A} (l : list A) : forall n, NoDup l -> NoDup (firstn n l).
Proof.
  induction l as [|x l IH]; intros [|n] H; cbn [firstn]; try constructor; apply NoDup_cons_iff in H; destruct H as [N H]; [|apply IH, H].
  intros I. apply N. clear - I. revert l I. induction n as [|n IH]; intros [|y l] I; cbn [firstn] in I; try contradiction. destruct I as [->|I]; [left; reflexivity|right; apply IH, I].
Qed.
Lemma in_firstn {A} (l : list A) x : forall n, In x (firstn n l) -> In x l.
Proof. induction l as [|y l IH]; intros [|n] I; cbn [firstn] in I; try contradiction. destruct I as [->|I]; [left; reflexivity|right; apply (IH n), I]. Qed.
Lemma epoll_scan_ok w : epoll_good w (epoll_scan w).
Proof.
  intros l ms ND. eexists. split; [reflexivity|].
  set (f := fun a : added => (epoll_events w (fst (fst a)) (snd (fst a)), snd a)). set (evs := filter (fun e => negb (fst e =? 0)) (map f l)).
  assert (NDe : NoDup (map snd evs)).
  { unfold evs. apply nodup_map_filter. rewrite map_map. exact ND. }
  split; [|split; [|split]].
  - rewrite <- firstn_map. apply nodup_firstn, NDe.
  - apply firstn_le_length.
  - intros ev d I. apply in_firstn in I. unfold evs in I. apply filter_In in I. destruct I as [I N]. cbn [fst] in N.
    split; [apply Z.eqb_neq, negb_true_iff, N|]. apply in_map_iff in I. destruct I as ([[fd want] d'] & E & I). unfold f in E. cbn [fst snd] in E. injection E as <- <-.
    exists fd, want. auto.
  - intros L fd want d I N. rewrite firstn_length in L. rewrite firstn_all2 by lia. unfold evs. apply filter_In. cbn [fst]. split; [|apply negb_true_iff, Z.eqb_neq, N].
    apply in_map_iff. exists (fd, want, d). auto.
Qed.

(* ---- the time waited ---- *)
Lemma to_int_small x : -2147483648 <= x <= 2147483647 -> to_int x = x.
Proof. intros H. unfold to_int. rewrite Z.mod_small; lia. Qed.
Lemma timeval_ms_ok sec usec : 0 <= sec <= 2147482 -> 0 <= usec < 1000000 ->
  timeval_ms sec usec = sec * 1000 + usec / 1000.
Proof.
  intros Hs Hu. unfold timeval_ms. rewrite !to_int_small by lia. rewrite Z.quot_div_nonneg by lia.
  assert (0 <= usec / 1000 < 1000) by (split; [apply Z.div_pos; lia|apply Z.div_lt_upper_bound; lia]).
  unfold in_int, C_INT_MAX. repeat match goal with |- context [?a <=? ?b] => destruct (Z.leb_spec a b); [|lia] end. reflexivity.
Qed.
Lemma ppoll_ms_ok sec nsec : 0 <= sec <= 2147482 -> 0 <= nsec < 1000000000 ->
  ppoll_ms (Some (sec, nsec)) = sec * 1000 + nsec / 1000000.
Proof.
  intros Hs Hu. unfold ppoll_ms. change (C_INT_MAX / 1000) with 2147483. destruct (Z.ltb_spec 2147483 sec); [lia|].
  assert (0 <= nsec / 1000000 < 1000) by (split; [apply Z.div_pos; lia|apply Z.div_lt_upper_bound; lia]).
  rewrite (to_int_small sec), (to_int_small (sec * 1000)), (to_int_small nsec), Z.quot_div_nonneg, to_int_small by lia. reflexivity.
Qed.
Lemma select_epoll_waits w wait nfds s t :
  0 <= nfds <= FD_SETSIZE ->
  (forall x, 0 <= x < nfds -> watched s x = true -> w x <> Closed) ->
  waited (select (epoll_add w) wait nfds s t) =
    Some (if existsb (fun x => watched s x && match w x with Always => true | _ => false end) (descriptors nfds) then 0
          else match t with Some (sec, usec) => timeval_ms sec usec | None => -1 end).
Proof.
  intros Hn Hc. unfold select, select_epoll. destruct (Z.ltb_spec nfds 0); [lia|]. destruct (Z.ltb_spec FD_SETSIZE nfds); [lia|]. cbn [orb].
  destruct (add_all_ok w (Z.to_nat nfds) 0 s (@nil added) 0) as (s1 & E & _).
  { intros a []. }
  { intros x Hx Wx X. apply (Hc x ltac:(lia) Wx X). }
  rewrite E, app_nil_l, Z.add_0_l. unfold descriptors. rewrite range_seq. cbn [Z.of_nat].
  assert (X : forall L, (0 <? len (filter (fun x => watched s x && always w x) L)) = existsb (fun x => watched s x && match w x with Always => true | _ => false end) L).
  { induction L as [|x L IH]; [reflexivity|]. cbn [filter existsb]. change (match w x with Always => true | _ => false end) with (always w x).
    destruct (watched s x && always w x); [|exact IH]. rewrite len_cons. cbn [orb]. apply Z.ltb_lt. pose proof (len_nonneg (filter (fun x => watched s x && always w x) L)). lia. }
  rewrite X. destruct (wait _ _) as [evs|e]; [|reflexivity]. destruct (fold_left report _ _). reflexivity.
Qed.
Lemma poll_waits w wait ps timeout :
  NoDup (valid_fds ps) -> (forall p, In p ps -> 0 <= fd p -> exists m, w (fd p) = Now m) ->
  pwaited (poll (epoll_add w) wait ps timeout) = Some timeout.
Proof.
  intros ND HN. unfold poll. rewrite (poll_add_ok w ps 0 [] 0 ND).
  - cbn [app]. assert (filter (is_closed w) ps = []) as ->.
    { clear ND. induction ps as [|p ps IH]; [reflexivity|]. cbn [filter]. unfold is_closed at 1. destruct (Z.leb_spec 0 (fd p)); cbn [andb].
      - destruct (HN p (or_introl eq_refl) ltac:(lia)) as [m ->]. apply IH. intros q I. apply HN. right. exact I.
      - apply IH. intros q I. apply HN. right. exact I. }
    change (0 <? 0 + len (@nil pollfd)) with false. cbn [andb]. destruct (wait _ _) as [evs|e]; [reflexivity|]. destruct (_ && _); reflexivity.
  - intros p I P. destruct (HN p I P) as [m ->]. discriminate.
  - intros a p [].
Qed.
Lemma file_dec w s nfds : 0 <= nfds ->
  existsb (fun x => watched s x && match w x with Always => true | _ => false end) (descriptors nfds) = true <->
  exists x, 0 <= x < nfds /\ watched s x = true /\ w x = Always.
Proof.
  intros Hn. rewrite existsb_exists. unfold descriptors. rewrite range_seq. cbn [Z.of_nat]. split.
  - intros (x & I & E). apply range_in in I. apply andb_true_iff in E. destruct E as [W E]. exists x. destruct (w x); try discriminate. split; [lia|auto].
  - intros (x & R & W & E). exists x. split; [apply range_in; lia|]. rewrite W, E. reflexivity.
Qed.
Lemma down us k : 0 < k -> us / k * k <= us < us / k * k + k.
Proof. intros Hk. pose proof (Z.div_mod us k ltac:(lia)). pose proof (Z.mod_pos_bound us k Hk). nia. Qed.
Lemma select_wait_ok w wait nfds s :
  0 <= nfds <= FD_SETSIZE ->
  (forall x, 0 <= x < nfds -> watched s x = true -> w x <> Closed) ->
  let file := exists x, 0 <= x < nfds /\ watched s x = true /\ w x = Always in
  (file -> forall t, waited (select (epoll_add w) wait nfds s t) = Some 0) /\
  (~ file -> waited (select (epoll_add w) wait nfds s None) = Some (-1) /\
             forall sec usec, 0 <= sec <= 2147482 -> 0 <= usec < 1000000 ->
               exists ms, waited (select (epoll_add w) wait nfds s (Some (sec, usec))) = Some ms /\
                          ms * 1000 <= sec * 1000000 + usec < ms * 1000 + 1000 /\
                          (usec mod 1000 = 0 -> waits_for ms (sec * 1000000 + usec))).
Proof.
  intros Hn Hc file. assert (D := file_dec w s nfds ltac:(lia)). split.
  - intros F t. rewrite (select_epoll_waits w wait nfds s t Hn Hc). apply D in F. rewrite F. reflexivity.
  - intros F. assert (X : existsb (fun x => watched s x && match w x with Always => true | _ => false end) (descriptors nfds) = false).
    { apply not_true_iff_false. intros X. apply F, D, X. }
    split; [rewrite (select_epoll_waits w wait nfds s None Hn Hc), X; reflexivity|].
    intros sec usec Hs Hu. exists (sec * 1000 + usec / 1000). rewrite (select_epoll_waits w wait nfds s _ Hn Hc), X, timeval_ms_ok by assumption.
    split; [reflexivity|]. pose proof (down usec 1000 ltac:(lia)). split; [lia|]. intros M. unfold waits_for.
    pose proof (Z.div_mod usec 1000 ltac:(lia)). lia.
Qed.
Lemma pselect_ok w wait nfds s sec nsec :
  0 <= nfds <= FD_SETSIZE -> (forall x, 0 <= x < nfds -> watched s x = true -> exists m, w x = Now m) ->
  0 <= sec <= 2147482 -> 0 <= nsec < 1000000000 ->
  exists ms, waited (pselect (epoll_add w) wait nfds s (Some (sec, nsec))) = Some ms /\
             ms * 1000000 <= sec * 1000000000 + nsec < ms * 1000000 + 1000000 /\
             out (pselect (epoll_add w) wait nfds s (Some (sec, nsec))) =
             out (select (epoll_add w) wait nfds s (Some (sec, nsec / 1000))).
Proof.
  intros Hn Hc Hs Hu. unfold pselect. rewrite Z.quot_div_nonneg by lia. change (select_epoll (epoll_add w) wait) with (select (epoll_add w) wait).
  assert (R : 0 <= nsec / 1000 < 1000000) by (split; [apply Z.div_pos; lia|apply Z.div_lt_upper_bound; lia]).
  destruct (select_wait_ok w wait nfds s Hn) as [_ H].
  { intros x Hx W. destruct (Hc x Hx W) as [m ->]. discriminate. }
  destruct H as [_ H].
  { intros (x & Hx & W & E). destruct (Hc x Hx W) as [m E']. congruence. }
  destruct (H sec (nsec / 1000) Hs R) as (ms & -> & B & _). exists ms. split; [reflexivity|]. split; [|reflexivity].
  pose proof (down nsec 1000 ltac:(lia)). lia.
Qed.
Lemma poll_wait_ok w wait ps :
  NoDup (valid_fds ps) -> (forall p, In p ps -> 0 <= fd p -> exists m, w (fd p) = Now m) ->
  (forall timeout, pwaited (poll (epoll_add w) wait ps timeout) = Some timeout) /\
  pwaited (ppoll (epoll_add w) wait ps None) = Some (-1) /\
  (forall sec nsec, 0 <= sec <= 2147482 -> 0 <= nsec < 1000000000 ->
     exists ms, pwaited (ppoll (epoll_add w) wait ps (Some (sec, nsec))) = Some ms /\
                ms * 1000000 <= sec * 1000000000 + nsec < ms * 1000000 + 1000000).
Proof.
  intros ND HN. split; [intros t; apply poll_waits; assumption|]. split; [apply (poll_waits w wait ps (-1)); assumption|].
  intros sec nsec Hs Hu. exists (sec * 1000 + nsec / 1000000). unfold ppoll. rewrite ppoll_ms_ok by assumption.
  split; [apply poll_waits; assumption|]. pose proof (down nsec 1000000 ltac:(lia)). lia.
Qed.
