From Coq Require Import String.
From Verif Require Import Base Ctype_spec Numeral Utf8_model Time_model Time_spec Time_proofs Cal_model Cal_spec.
Open Scope list_scope.
Open Scope Z_scope.

Lemma leap_same : forall y, leap_year y = leap y.
Proof. reflexivity. Qed.

Lemma mon_cases : forall m, 0 <= m <= 11 -> m = 0 \/ m = 1 \/ m = 2 \/ m = 3 \/ m = 4 \/ m = 5 \/ m = 6 \/ m = 7 \/ m = 8 \/ m = 9 \/ m = 10 \/ m = 11.
Proof. lia. Qed.
Ltac months H := destruct (mon_cases _ H) as [->|[->|[->|[->|[->|[->|[->|[->|[->|[->|[->| ->]]]]]]]]]]].

Lemma days_in_lens : forall y m, 0 <= m <= 11 -> nth (Z.to_nat m) (month_lens y) 0 = days_in y m.
Proof. intros y m H. months H; reflexivity. Qed.
Lemma before_lens : forall y m, 0 <= m <= 11 -> sum (firstn (Z.to_nat m) (month_lens y)) = days_before y (Z.to_nat m).
Proof.
  intros y m H. unfold month_lens. rewrite leap_same. months H; cbv -[leap Z.add]; destruct (leap y); reflexivity.
Qed.
Lemma days_in_range : forall y m, 0 <= m <= 11 -> 28 <= days_in y m <= 31.
Proof. intros y m H. months H; cbn; try lia. destruct (leap y); lia. Qed.

Lemma leap_start : forall y, year_start (y + 1) = year_start y + (if leap y then 366 else 365).
Proof.
  intros y. unfold year_start, leap. replace (y + 1 - 1) with y by ring.
  destruct (Z.eqb_spec (y mod 4) 0), (Z.eqb_spec (y mod 100) 0), (Z.eqb_spec (y mod 400) 0); cbn [negb andb orb]; Z.div_mod_to_equations; lia.
Qed.
Lemma year_start_mono : forall a b, a <= b -> year_start a <= year_start b.
Proof. intros a b H. unfold year_start. Z.div_mod_to_equations. lia. Qed.
Lemma year_of_ok : forall n, year_start (year_of n) <= n < year_start (year_of n + 1).
Proof.
  intros n. unfold year_of. set (y := n * 400 / 146097 + 1).
  assert (A : year_start (y - 1) <= n) by (unfold year_start, y; Z.div_mod_to_equations; lia).
  assert (B : n < year_start (y + 2)) by (unfold year_start, y; Z.div_mod_to_equations; lia).
  destruct (Z.ltb_spec n (year_start y)); [replace (y - 1 + 1) with y by ring; lia|].
  destruct (Z.leb_spec (year_start (y + 1)) n); [replace (y + 1 + 1) with (y + 2) by ring|]; lia.
Qed.
Lemma year_unique : forall n y, year_start y <= n < year_start (y + 1) -> year_of n = y.
Proof.
  intros n y H. pose proof (year_of_ok n) as K. set (x := year_of n) in *.
  destruct (Z.lt_trichotomy x y) as [L|[E|L]]; [|exact E|].
  - pose proof (year_start_mono (x + 1) y ltac:(lia)). lia.
  - pose proof (year_start_mono (y + 1) x ltac:(lia)). lia.
Qed.

Lemma month_of_ok : forall y o m d, 0 <= o < (if leap y then 366 else 365) -> month_of (month_lens y) 0 o = (m, d) ->
  0 <= m <= 11 /\ 0 <= d < days_in y m /\ o = days_before y (Z.to_nat m) + d.
Proof.
  intros y o m d H E. unfold month_lens in E. rewrite leap_same in E.
  cbn [month_of] in E. revert H E. destruct (leap y) eqn:L; intros H E;
  change (0 + 1) with 1 in E; change (1 + 1) with 2 in E; change (2 + 1) with 3 in E; change (3 + 1) with 4 in E; change (4 + 1) with 5 in E;
  change (5 + 1) with 6 in E; change (6 + 1) with 7 in E; change (7 + 1) with 8 in E; change (8 + 1) with 9 in E; change (9 + 1) with 10 in E;
  change (10 + 1) with 11 in E; change (11 + 1) with 12 in E;
  repeat match type of E with (if ?a <? ?b then _ else _) = _ => destruct (Z.ltb_spec a b) end;
  injection E as <- <-; cbv -[leap Z.add Z.sub Z.le Z.lt]; rewrite ?L; lia.
Qed.
Lemma month_of_unique : forall y m d, 0 <= m <= 11 -> 0 <= d < days_in y m ->
  month_of (month_lens y) 0 (days_before y (Z.to_nat m) + d) = (m, d).
Proof.
  intros y m d H D. unfold month_lens. rewrite leap_same.
  months H; cbv -[leap Z.add Z.sub Z.le Z.lt Z.ltb] in D |- *; destruct (leap y);
  repeat match goal with |- context [?a <? ?b] => destruct (Z.ltb_spec a b); try lia end; f_equal; lia.
Qed.
Lemma before_range : forall y m, 0 <= m <= 11 -> 0 <= days_before y (Z.to_nat m) /\ days_before y (Z.to_nat m) + days_in y m <= (if leap y then 366 else 365).
Proof. intros y m H. months H; cbv -[leap Z.add Z.le]; destruct (leap y); lia. Qed.

(** the fields of t, and only them *)
Definition dtime_ok (t : tm) : Prop :=
  0 <= tm_mon t <= 11 /\ 1 <= tm_mday t <= days_in (year t) (tm_mon t) /\
  0 <= tm_hour t <= 23 /\ 0 <= tm_min t <= 59 /\ 0 <= tm_sec t <= 59.
Definition days_of (t : tm) : Z := year_start (year t) - EPOCH + day_of_year t.
Lemma since_days : forall t, since_epoch t = days_of t * 86400 + tm_hour t * 3600 + tm_min t * 60 + tm_sec t.
Proof.
  intros t. unfold since_epoch, days_of, year_start, EPOCH, year. generalize (day_of_year t) as o. generalize (tm_year t) as y.
  intros y o. cbv zeta. replace (y + 1900 - 1) with (y + 1899) by ring.
  replace ((y + 1899) / 4) with ((y - 69) / 4 + 492) by (Z.div_mod_to_equations; lia).
  replace ((y + 1899) / 100) with ((y - 1) / 100 + 19) by (Z.div_mod_to_equations; lia).
  replace ((y + 1899) / 400) with ((y + 299) / 400 + 4) by (Z.div_mod_to_equations; lia). ring.
Qed.
Lemma dtime_secs : forall t, dtime_ok t -> 0 <= tm_hour t * 3600 + tm_min t * 60 + tm_sec t < 86400.
Proof. intros t (_ & _ & H & M & S). lia. Qed.

Lemma civil_ok : forall u zone isdst off, let c := civil_of u in
  let t := mk_tm (c_sec c) (c_min c) (c_hour c) (c_day c) (c_month0 c) (c_year c - 1900) (c_wday c) (c_ordinal0 c) isdst off zone in
  dtime_ok t /\ since_epoch t = u /\ consistent t /\ year_start (year t) <= u / 86400 + EPOCH < year_start (year t + 1).
Proof.
  intros u zn isdst off. unfold civil_of. cbv zeta.
  destruct (month_of (month_lens (year_of (u / 86400 + EPOCH))) 0 (u / 86400 + EPOCH - year_start (year_of (u / 86400 + EPOCH)))) as [m d] eqn:E.
  pose proof (year_of_ok (u / 86400 + EPOCH)) as Y. set (y := year_of (u / 86400 + EPOCH)) in *.
  pose proof (leap_start y) as L. apply month_of_ok in E; [|lia]. destruct E as (M & D & O).
  set (t := mk_tm _ _ _ _ _ _ _ _ _ _ _).
  assert (Ey : year t = y) by (unfold year, t; cbn; ring).
  assert (Eo : day_of_year t = u / 86400 + EPOCH - year_start y) by (unfold day_of_year; rewrite Ey; unfold t; cbn; lia).
  assert (S : since_epoch t = u).
  { rewrite since_days. unfold days_of. rewrite Ey, Eo. unfold t. cbn [tm_hour tm_min tm_sec c_hour c_min c_sec]. Z.div_mod_to_equations; lia. }
  split; [|split; [exact S|split; [|rewrite Ey; exact Y]]].
  - unfold dtime_ok. rewrite Ey. unfold t. cbn [tm_mon tm_mday tm_hour tm_min tm_sec c_hour c_min c_sec c_day c_month0].
    split; [exact M|]. split; [lia|]. Z.div_mod_to_equations; lia.
  - split; [unfold t at 1; cbn; rewrite Eo; reflexivity|]. unfold day_of_week. rewrite S. unfold t. cbn [tm_wday c_wday]. unfold EPOCH. Z.div_mod_to_equations; lia.
Qed.

Lemma civil_unique : forall t, dtime_ok t -> let c := civil_of (since_epoch t) in
  c_sec c = tm_sec t /\ c_min c = tm_min t /\ c_hour c = tm_hour t /\ c_day c = tm_mday t /\ c_month0 c = tm_mon t /\
  c_year c = year t /\ c_ordinal0 c = day_of_year t /\ c_wday c = day_of_week t.
Proof.
  intros t K. pose proof (dtime_secs t K) as R. destruct K as (M & D & H & I & S).
  unfold civil_of. assert (N : since_epoch t / 86400 = days_of t) by (rewrite since_days; Z.div_mod_to_equations; lia).
  pose proof (before_range (year t) (tm_mon t) M) as B. pose proof (leap_start (year t)) as L.
  assert (Y : year_of (since_epoch t / 86400 + EPOCH) = year t).
  { apply year_unique. rewrite N. unfold days_of, day_of_year. lia. }
  cbv zeta. rewrite Y.
  replace (since_epoch t / 86400 + EPOCH - year_start (year t)) with (days_before (year t) (Z.to_nat (tm_mon t)) + (tm_mday t - 1)).
  2: { rewrite N. unfold days_of, day_of_year. lia. }
  rewrite month_of_unique by lia. cbn [c_sec c_min c_hour c_day c_month0 c_year c_ordinal0 c_wday].
  assert (S0 : since_epoch t mod 86400 = tm_hour t * 3600 + tm_min t * 60 + tm_sec t) by (rewrite since_days; Z.div_mod_to_equations; lia).
  assert (S1 : since_epoch t mod 3600 = tm_min t * 60 + tm_sec t) by (rewrite since_days; Z.div_mod_to_equations; lia).
  assert (S2 : since_epoch t mod 60 = tm_sec t) by (rewrite since_days; Z.div_mod_to_equations; lia).
  rewrite S0, S1, S2. split; [reflexivity|]. split; [Z.div_mod_to_equations; lia|]. split; [Z.div_mod_to_equations; lia|].
  split; [lia|]. split; [reflexivity|]. split; [reflexivity|]. split; [unfold day_of_year; lia|].
  unfold day_of_week. unfold EPOCH. Z.div_mod_to_equations; lia.
Qed.

Lemma naive_ok : forall t, date_ok t -> naive_tm t = Some (since_epoch t).
Proof.
  intros t (Y & M & D & H & I & S). pose proof (days_in_range (year t) (tm_mon t) M) as B.
  unfold naive_tm. fold (year t).
  assert (E32 : forall v, -2147483648 <= v < 2147483648 -> to_i32 v = v) by (intros v V; unfold to_i32; Z.div_mod_to_equations; lia).
  assert (U32 : forall v, 0 <= v < 4294967296 -> u32 v = v) by (intros v V; unfold u32; apply Z.mod_small, V).
  rewrite !E32, !U32 by lia. unfold naive. unfold MINY, MAXY.
  replace (tm_mon t + 1 - 1) with (tm_mon t) by ring. rewrite days_in_lens, before_lens by exact M.
  repeat match goal with |- context [?a <=? ?b] => destruct (Z.leb_spec a b); [|lia] end. cbn [andb].
  rewrite since_days. unfold days_of, day_of_year. f_equal. ring.
Qed.

Lemma timegm_ok : forall t, date_ok t -> timegm t =
  (since_epoch t, mk_tm (tm_sec t) (tm_min t) (tm_hour t) (tm_mday t) (tm_mon t) (tm_year t) (day_of_week t) (day_of_year t) 0 0 (Some (codes "UTC"))).
Proof.
  intros t K. unfold timegm, convert_tm. rewrite (naive_ok t K). cbn [utc z_local].
  destruct (civil_unique t (proj2 K)) as (_ & _ & _ & _ & _ & _ & -> & ->). reflexivity.
Qed.

Lemma year_start_inj : forall a b, year_start a < year_start b -> a < b.
Proof. intros a b H. destruct (Z.le_gt_cases b a) as [L|L]; [|lia]. apply year_start_mono in L. lia. Qed.

Lemma in_range_ok : forall u, in_range u = true <-> instant_ok u.
Proof.
  intros u. unfold in_range, instant_ok. rewrite andb_true_iff, Z.leb_le, Z.ltb_lt. split.
  - intros [A B]. pose proof (civil_ok u None 0 0) as C. cbv zeta in C. set (t := mk_tm _ _ _ _ _ _ _ _ _ _ _) in C.
    destruct C as (C & E & _ & Y). exists t. split; [|exact E]. split; [|exact C].
    assert (MINY < year t + 1) by (apply year_start_inj; Z.div_mod_to_equations; lia).
    assert (year t < MAXY + 1) by (apply year_start_inj; Z.div_mod_to_equations; lia). unfold MINY, MAXY in *. lia.
  - intros (t & (Y & K) & <-). pose proof (dtime_secs t K) as R. destruct K as (M & D & _).
    pose proof (before_range (year t) (tm_mon t) M) as B. pose proof (leap_start (year t)) as L.
    pose proof (year_start_mono MINY (year t) ltac:(unfold MINY; lia)). pose proof (year_start_mono (year t + 1) (MAXY + 1) ltac:(unfold MAXY; lia)).
    rewrite since_days. unfold days_of, day_of_year. lia.
Qed.

Lemma to_tm_ok : forall z u, let t := to_tm z u in
  dtime_ok t /\ since_epoch t = local_time z u /\ consistent t /\ tm_isdst t = z_dst z u /\ tm_gmtoff t = z_off z u /\ tm_zone t = Some (strip_etc (z_name z)).
Proof.
  intros z u. unfold to_tm. cbv zeta. pose proof (civil_ok (u + z_off z u) (Some (strip_etc (z_name z))) (z_dst z u) (z_off z u)) as C. cbv zeta in C.
  destruct C as (A & B & C & _). split; [exact A|]. split; [exact B|]. split; [exact C|]. auto.
Qed.

Lemma gmtime_utc : forall u old, instant_ok u -> let t := gmtime_r utc u old in
  date_ok t /\ since_epoch t = u /\ consistent t /\ tm_isdst t = 0 /\ tm_gmtoff t = 0.
Proof.
  intros u old I. unfold gmtime_r, get_localtime. rewrite (proj2 (in_range_ok u) I). cbv zeta.
  destruct (to_tm_ok utc u) as (A & B & C & D & E & _). unfold local_time in B. cbn [utc z_off z_dst] in *. rewrite Z.add_0_r in B.
  split; [|auto]. split; [|exact A]. destruct I as (t' & K & X).
  destruct (civil_unique t' (proj2 K)) as (_ & _ & _ & _ & _ & Y & _). rewrite X in Y.
  unfold year at 1 2, to_tm. cbn [tm_year utc z_off]. rewrite Z.add_0_r, Y. destruct K as [K _]. unfold year in *. lia.
Qed.

(** broken-down times name instants uniquely *)
Lemma since_inj : forall a b, dtime_ok a -> dtime_ok b -> since_epoch a = since_epoch b -> same_time a b.
Proof.
  intros a b A B E. destruct (civil_unique a A) as (A1 & A2 & A3 & A4 & A5 & A6 & _). destruct (civil_unique b B) as (B1 & B2 & B3 & B4 & B5 & B6 & _).
  rewrite E in *. unfold same_time, year in *. repeat (split; [congruence|]). lia.
Qed.

Lemma mktime_ok : forall z t, zone_ok z -> date_ok t ->
  (exists u, local_time z u = since_epoch t) ->
  let (u, t') := mktime z t in
  local_time z u = since_epoch t /\ t' = to_tm z u /\ same_time t' t /\ consistent t' /\
  forall v, local_time z v = since_epoch t -> v = u \/ (if 0 <? tm_isdst t then u < v else v < u).
Proof.
  intros z t ZK K [w W]. unfold mktime. rewrite (naive_ok t K). pose proof (ZK (since_epoch t)) as Q.
  assert (X : forall u, local_time z u = since_epoch t -> same_time (to_tm z u) t /\ consistent (to_tm z u)).
  { intros u E. destruct (to_tm_ok z u) as (A & B & C & _). split; [|exact C]. apply since_inj; [exact A|exact (proj2 K)|congruence]. }
  destruct (z_local z (since_epoch t)) as [|u|a b].
  - exfalso. exact (Q w W).
  - assert (E : local_time z u = since_epoch t) by (apply Q; reflexivity). destruct (X u E) as [S C].
    split; [exact E|]. split; [reflexivity|]. split; [exact S|]. split; [exact C|]. intros v V. left. apply Q, V.
  - destruct Q as [Lt Q]. assert (Ea : local_time z a = since_epoch t) by (apply Q; left; reflexivity).
    assert (Eb : local_time z b = since_epoch t) by (apply Q; right; reflexivity).
    destruct (Z.ltb_spec 0 (tm_isdst t)).
    + destruct (X a Ea) as [S C]. split; [exact Ea|]. split; [reflexivity|]. split; [exact S|]. split; [exact C|].
      intros v V. apply Q in V as [->| ->]; [left; reflexivity|right; exact Lt].
    + destruct (X b Eb) as [S C]. split; [exact Eb|]. split; [reflexivity|]. split; [exact S|]. split; [exact C|].
      intros v V. apply Q in V as [->| ->]; [right; exact Lt|left; reflexivity].
Qed.

Lemma mktime_localtime : forall z u old, zone_ok z -> dst_first z -> in_range u = true -> date_ok (to_tm z u) ->
  mktime z (fst (localtime_r z u old)) = (u, fst (localtime_r z u old)).
Proof.
  intros z u old ZK DF R K. unfold localtime_r, get_localtime. cbn [fst]. rewrite R.
  destruct (to_tm_ok z u) as (A & B & _ & D & _). unfold mktime. rewrite (naive_ok _ K), B.
  pose proof (ZK (local_time z u)) as Q. destruct (z_local z (local_time z u)) as [|v|a b] eqn:E.
  - exfalso. exact (Q u eq_refl).
  - assert (u = v) as -> by (apply Q; reflexivity). reflexivity.
  - destruct (DF _ _ _ E) as [Da Db]. destruct Q as [_ Q]. rewrite D.
    assert (V : u = a \/ u = b) by (apply Q; reflexivity). destruct V as [->| ->].
    + destruct (Z.ltb_spec 0 (z_dst z a)); [reflexivity|lia].
    + rewrite Db. reflexivity.
Qed.
