From Coq Require Import String.
From Verif Require Import Base Numeral Ctype_spec Utf8_model Utf8_proofs Writer_proofs Time_model Time_spec Time_proofs Time_proofs2.
Open Scope string_scope.
Open Scope list_scope.
Open Scope Z_scope.
Ltac Zify.zify_post_hook ::= Z.to_euclidean_division_equations.

Definition nodigit (r : list Z) : Prop := match r with c :: _ => ~ 48 <= c <= 57 | [] => True end.

Lemma parse_2 v r : 0 <= v < 100 -> parse_int (dd v ++ r) 2 false = Some (v, 2).
Proof.
  intros H. unfold parse_int, dd. cbn [app parse_int_go].
  replace ((48 <=? 48 + v / 10) && (48 + v / 10 <=? 57)) with true by lia.
  replace ((48 <=? 48 + v mod 10) && (48 + v mod 10 <=? 57)) with true by lia. cbn [negb].
  replace (2147483647 <? 0 * 10) with false by lia. replace (2147483647 <? 0 * 10 + (48 + v / 10 - 48)) with false by lia.
  change ((0 + 1 =? 2) && true) with false. cbn iota.
  replace (2147483647 <? (0 * 10 + (48 + v / 10 - 48)) * 10) with false by lia.
  replace (2147483647 <? (0 * 10 + (48 + v / 10 - 48)) * 10 + (48 + v mod 10 - 48)) with false by lia.
  change ((0 + 1 + 1 =? 2) && true) with true. cbn iota. change (0 + 1 + 1 =? 0) with false. cbn iota. f_equal. f_equal; lia.
Qed.
Lemma parse_3 v r : 0 <= v < 1000 -> parse_int (ddd v ++ r) 3 false = Some (v, 3).
Proof.
  intros H. unfold parse_int, ddd. cbn [app parse_int_go].
  set (a := v / 100). set (b := v / 10 mod 10). set (c := v mod 10).
  assert (E : v = a * 100 + b * 10 + c) by (subst a b c; lia).
  assert (A : 0 <= a <= 9) by (subst a; lia). assert (B : 0 <= b <= 9) by (subst b; lia). assert (C : 0 <= c <= 9) by (subst c; lia).
  clearbody a b c.
  replace ((48 <=? 48 + a) && (48 + a <=? 57)) with true by lia. replace ((48 <=? 48 + b) && (48 + b <=? 57)) with true by lia.
  replace ((48 <=? 48 + c) && (48 + c <=? 57)) with true by lia. cbn [negb].
  replace (48 + a - 48) with a by lia. replace (48 + b - 48) with b by lia. replace (48 + c - 48) with c by lia.
  replace (2147483647 <? 0 * 10) with false by lia. replace (2147483647 <? 0 * 10 + a) with false by lia.
  change ((0 + 1 =? 3) && true) with false. cbn iota.
  replace (2147483647 <? (0 * 10 + a) * 10) with false by lia. replace (2147483647 <? (0 * 10 + a) * 10 + b) with false by lia.
  change ((0 + 1 + 1 =? 3) && true) with false. cbn iota.
  replace (2147483647 <? ((0 * 10 + a) * 10 + b) * 10) with false by lia. replace (2147483647 <? ((0 * 10 + a) * 10 + b) * 10 + c) with false by lia.
  change ((0 + 1 + 1 + 1 =? 3) && true) with true. cbn iota. change (0 + 1 + 1 + 1 =? 0) with false. cbn iota. f_equal. f_equal; lia.
Qed.
Lemma parse_go_var l : forall v n w r, Forall (fun d => 0 <= d < 10) l -> 0 <= v -> v * 10 ^ len l + dvalue 10 l <= 2147483647 -> nodigit r ->
  parse_int_go (map (fun d => 48 + d) l ++ r) v n w true = Some (v * 10 ^ len l + dvalue 10 l, n + len l).
Proof.
  induction l as [|d l IH]; intros v n w r F Hv Hb Hr.
  - cbn [map app]. change (dvalue 10 []) with 0. change (len (@nil Z)) with 0. rewrite Z.pow_0_r. replace (v * 1 + 0) with v by lia. rewrite Z.add_0_r.
    destruct r as [|c r]; cbn [parse_int_go nodigit] in *; [reflexivity|]. replace ((48 <=? c) && (c <=? 57)) with false by lia. reflexivity.
  - inversion F; subst. cbn [map app parse_int_go]. replace ((48 <=? 48 + d) && (48 + d <=? 57)) with true by lia. cbn [negb].
    replace (48 + d - 48) with d by lia. rewrite len_cons, dvalue_cons in *. pose proof (len_nonneg l).
    rewrite Z.pow_add_r, Z.pow_1_r in * by lia. pose proof (dvalue_range 10 l ltac:(lia) H2). pose proof (Z.pow_pos_nonneg 10 (len l) ltac:(lia) ltac:(lia)).
    set (p := 10 ^ len l) in *. clearbody p. set (q := dvalue 10 l) in *. clearbody q.
    assert (v * 10 + d <= 2147483647) by nia.
    replace (2147483647 <? v * 10) with false by lia. replace (2147483647 <? v * 10 + d) with false by lia.
    rewrite andb_false_r. rewrite IH; [f_equal; f_equal; lia|assumption|lia| |assumption]. nia.
Qed.
Lemma parse_var v o r w : decimal v o -> 0 <= v <= 2147483647 -> nodigit r -> parse_int (o ++ r) w true = Some (v, len o).
Proof.
  intros [l [N ->]] Hv Hr. replace (v <? 0) with false by lia. cbn [app]. unfold parse_int. rewrite Z.abs_eq in N by lia. destruct N as [F [V [Ne _]]].
  rewrite parse_go_var; [|exact F|lia|lia|exact Hr]. rewrite V.
  assert (L : len (map (fun d => 48 + d) l) = len l) by (unfold len; rewrite map_length; reflexivity). rewrite L.
  assert (0 < len l) by (destruct l; [congruence|rewrite len_cons; pose proof (len_nonneg l); lia]).
  replace (0 + len l =? 0) with false by lia. reflexivity.
Qed.
Lemma skip_app (o r : list Z) : skip (len o) (o ++ r) = r.
Proof. unfold skip, len. rewrite Nat2Z.id. rewrite skipn_app, skipn_all, Nat.sub_diag. reflexivity. Qed.
Lemma skip2 v r : skip 2 (dd v ++ r) = r. Proof. reflexivity. Qed.
Lemma skip3 v r : skip 3 (ddd v ++ r) = r. Proof. reflexivity. Qed.
#[local] Opaque dd ddd parse_int skip parse_name parse_am_pm.

Lemma sp_step rec c f inp t0 t1 r : sp_conv rec c inp t0 = (t1, Some r) -> (c =? 69) || (c =? 79) = false ->
  sp_loop rec (37 :: c :: f) inp t0 = sp_loop rec f r t1.
Proof. intros H N. cbn [sp_loop]. change (negb (37 =? 37)) with false. cbn iota. rewrite N, H. reflexivity. Qed.
Lemma sp_lit rec c f r t0 : c <> 37 -> sp_loop rec (c :: f) (c :: r) t0 = sp_loop rec f r t0.
Proof. intros N. cbn [sp_loop]. replace (c =? 37) with false by lia. rewrite Z.eqb_refl. reflexivity. Qed.

Ltac spred := cbv [sp_conv]; vcodes; cbn [Z.eqb Pos.eqb orb]; cbv zeta.
Lemma sp_d rec t t0 r : 1 <= tm_mday t <= 31 -> sp_conv rec 100 (dd (tm_mday t) ++ r) t0 = (copy_mday t t0, Some r).
Proof. intros H. spred. rewrite parse_2, skip2 by lia. replace (_ || _) with false by lia. reflexivity. Qed.
Lemma sp_m rec t t0 r : 0 <= tm_mon t <= 11 -> sp_conv rec 109 (dd (tm_mon t + 1) ++ r) t0 = (copy_mon t t0, Some r).
Proof. intros H. spred. rewrite parse_2, skip2 by lia. replace (tm_mon t + 1 - 1) with (tm_mon t) by lia. replace (_ || _) with false by lia. reflexivity. Qed.
Lemma sp_H rec t t0 r : 0 <= tm_hour t <= 23 -> sp_conv rec 72 (dd (tm_hour t) ++ r) t0 = (copy_hour t t0, Some r).
Proof. intros H. spred. rewrite parse_2, skip2 by lia. replace (23 <? _) with false by lia. reflexivity. Qed.
Lemma sp_M rec t t0 r : 0 <= tm_min t <= 59 -> sp_conv rec 77 (dd (tm_min t) ++ r) t0 = (copy_min t t0, Some r).
Proof. intros H. spred. rewrite parse_2, skip2 by lia. replace (59 <? _) with false by lia. reflexivity. Qed.
Lemma sp_S rec t t0 r : 0 <= tm_sec t <= 60 -> sp_conv rec 83 (dd (tm_sec t) ++ r) t0 = (copy_sec t t0, Some r).
Proof. intros H. spred. rewrite parse_2, skip2 by lia. replace (60 <? _) with false by lia. reflexivity. Qed.
Lemma sp_y rec t t0 r : 1969 <= year t <= 2068 -> sp_conv rec 121 (dd (year t mod 100) ++ r) t0 = (copy_year t t0, Some r).
Proof.
  intros H. spred. rewrite parse_2, skip2 by lia. unfold copy_year, year in *. destruct (69 <=? (tm_year t + 1900) mod 100) eqn:E; do 2 f_equal; lia.
Qed.
Lemma sp_j rec t t0 r : 0 <= tm_yday t <= 365 -> sp_conv rec 106 (ddd (tm_yday t + 1) ++ r) t0 = (set_yday t0 (tm_yday t), Some r).
Proof. intros H. spred. rewrite parse_3, skip3 by lia. replace (_ && _) with true by lia. cbn [negb]. do 2 f_equal. lia. Qed.
Lemma sp_I rec t t0 r : 0 <= tm_hour t <= 23 -> sp_conv rec 73 (dd (hour12 t) ++ r) t0 = (set_hour t0 (hour12 t), Some r).
Proof. intros H. pose proof (hour12_range t H). spred. rewrite parse_2, skip2 by lia. replace (_ && _) with true by lia. reflexivity. Qed.
Lemma sp_Y rec t t0 o r : decimal (year t) o -> 0 <= year t <= 2147483647 -> nodigit r -> sp_conv rec 89 (o ++ r) t0 = (copy_year t t0, Some r).
Proof. intros D H Hr. spred. rewrite (parse_var (year t)) by assumption. rewrite skip_app. unfold copy_year, year in *. do 2 f_equal. lia. Qed.
Transparent parse_am_pm skip.
Lemma sp_p rec t t0 r : 0 <= tm_hour t <= 23 -> sp_conv rec 112 (ampm t ++ r) (set_hour t0 (hour12 t)) = (copy_hour t t0, Some r).
Proof.
  intros H. spred. unfold ampm, hour12, copy_hour.
  assert (Lr : forall a b, (len (a :: b :: r) <? 2) = false) by (intros; rewrite !len_cons; pose proof (len_nonneg r); lia).
  destruct (tm_hour t <? 12) eqn:E; vcodes; cbv [parse_am_pm]; cbn [app drop_while char_ws]; vcodes.
  - change (char_ws 65) with false. cbn iota. rewrite Lr. change (eq_nocase (firstn 2 (65 :: 77 :: r)) [65; 77]) with true. cbn iota.
    replace (len _ - len _ + 2) with 2 by lia. change (skip 2 (65 :: 77 :: r)) with r. cbn [tm_hour set_hour]. f_equal. unfold set_hour. cbn. f_equal.
    destruct (tm_hour t mod 12 =? 0) eqn:E2; [cbn; lia|]. destruct (tm_hour t mod 12 =? 12) eqn:E3; lia.
  - change (char_ws 80) with false. cbn iota. rewrite Lr. change (eq_nocase (firstn 2 (80 :: 77 :: r)) [65; 77]) with false.
    change (eq_nocase (firstn 2 (80 :: 77 :: r)) [80; 77]) with true. cbn iota.
    replace (len _ - len _ + 2) with 2 by lia. change (skip 2 (80 :: 77 :: r)) with r. cbn [tm_hour set_hour]. f_equal. unfold set_hour. cbn. f_equal.
    destruct (tm_hour t mod 12 =? 0) eqn:E2; [cbn; lia|]. destruct (tm_hour t mod 12 =? 12) eqn:E3; [lia|]. rewrite to_i32_id; lia.
Qed.
Transparent parse_name.
Lemma lenle (p r : list Z) : (len p <=? len (p ++ r)) = true.
Proof. rewrite len_app. pose proof (len_nonneg r). lia. Qed.
Lemma pn_hit p rest i r : (forall x, In x p -> lower x = lower x) -> eq_nocase p p = true -> parse_name (p :: rest) i (p ++ r) = Some (i, len p).
Proof. intros _ H. cbn [parse_name]. rewrite lenle, firstn_app, firstn_all, Nat.sub_diag. cbn [firstn]. rewrite app_nil_r, H. reflexivity. Qed.
Lemma pn_miss q p rest i r : eq_nocase (firstn (length q) (p ++ r)) q = false -> parse_name (q :: rest) i (p ++ r) = parse_name rest (i + 1) (p ++ r).
Proof. intros H. cbn [parse_name]. rewrite H, andb_false_r. reflexivity. Qed.
Ltac names := repeat first [rewrite pn_hit; [|reflexivity|reflexivity]|rewrite pn_miss; [|reflexivity]]; reflexivity.
Lemma pn_SD t r : 0 <= tm_wday t <= 6 -> parse_name SHORT_DAYS 0 (abbrev (weekday t) ++ r) = Some (tm_wday t, len (abbrev (weekday t))).
Proof. intros H. unfold weekday. generalize dependent (tm_wday t). intros x H. seven x C. repeat destruct C as [->|C]; [..|subst]; cbv [SHORT_DAYS weekdays map]; vcodes; cbn [nth Z.to_nat Pos.to_nat Pos.iter_op Nat.add abbrev firstn]; vm_compute (nth _ _ _); cbn [abbrev firstn]; names. Qed.
Lemma pn_LD t r : 0 <= tm_wday t <= 6 -> parse_name LONG_DAYS 0 (weekday t ++ r) = Some (tm_wday t, len (weekday t)).
Proof. intros H. unfold weekday. generalize dependent (tm_wday t). intros x H. seven x C. repeat destruct C as [->|C]; [..|subst]; cbv [LONG_DAYS weekdays map]; vcodes; vm_compute (nth _ _ _); names. Qed.
Lemma pn_SM t r : 0 <= tm_mon t <= 11 -> parse_name SHORT_MONTHS 0 (abbrev (month t) ++ r) = Some (tm_mon t, len (abbrev (month t))).
Proof. intros H. unfold month. generalize dependent (tm_mon t). intros x H. twelve x C. repeat destruct C as [->|C]; [..|subst]; cbv [SHORT_MONTHS months map]; vcodes; vm_compute (nth _ _ _); cbn [abbrev firstn]; names. Qed.
Lemma pn_LM t r : 0 <= tm_mon t <= 11 -> parse_name LONG_MONTHS 0 (month t ++ r) = Some (tm_mon t, len (month t)).
Proof. intros H. unfold month. generalize dependent (tm_mon t). intros x H. twelve x C. repeat destruct C as [->|C]; [..|subst]; cbv [LONG_MONTHS months map]; vcodes; vm_compute (nth _ _ _); names. Qed.
#[local] Opaque parse_am_pm parse_name.

Lemma sp_D rec t t0 r : tm_ok t -> 1969 <= year t <= 2068 ->
  (forall inp f t1, rec inp f t1 = sp_loop (fun _ _ t => (t, None)) f inp t1) ->
  sp_conv rec 68 (mdy t ++ r) t0 = (copy_year t (copy_mday t (copy_mon t t0)), Some r).
Proof.
  intros H Hy Hr. ok_destruct H. spred. rewrite Hr. unfold mdy. rewrite <- !app_assoc. cbn [app].
  erewrite sp_step; [|apply sp_m; lia|reflexivity]. rewrite sp_lit by lia.
  erewrite sp_step; [|apply sp_d; lia|reflexivity]. rewrite sp_lit by lia.
  erewrite sp_step; [|apply sp_y; lia|reflexivity]. reflexivity.
Qed.
Lemma sp_T rec t t0 r : tm_ok t ->
  (forall inp f t1, rec inp f t1 = sp_loop (fun _ _ t => (t, None)) f inp t1) ->
  sp_conv rec 84 (hms t ++ r) t0 = (copy_sec t (copy_min t (copy_hour t t0)), Some r).
Proof.
  intros H Hr. ok_destruct H. spred. rewrite Hr. unfold hms. rewrite <- !app_assoc. cbn [app].
  erewrite sp_step; [|apply sp_H; lia|reflexivity]. rewrite sp_lit by lia.
  erewrite sp_step; [|apply sp_M; lia|reflexivity]. rewrite sp_lit by lia.
  erewrite sp_step; [|apply sp_S; lia|reflexivity]. reflexivity.
Qed.
Lemma sp_F rec t t0 y r : tm_ok t -> 0 <= year t -> decimal (year t) y ->
  (forall inp f t1, rec inp f t1 = sp_loop (fun _ _ t => (t, None)) f inp t1) ->
  sp_conv rec 70 ((y ++ [45] ++ dd (tm_mon t + 1) ++ [45] ++ dd (tm_mday t)) ++ r) t0 =
    (copy_mday t (copy_mon t (copy_year t t0)), Some r).
Proof.
  intros H Hy D Hr. ok_destruct H. spred. rewrite Hr. rewrite <- !app_assoc. cbn [app].
  erewrite sp_step; [|apply sp_Y; [exact D|unfold year in *; lia|cbn; lia]|reflexivity]. rewrite sp_lit by lia.
  rewrite <- ?app_assoc. erewrite sp_step; [|apply sp_m; lia|reflexivity]. cbn [app]. rewrite sp_lit by lia.
  erewrite sp_step; [|apply sp_d; lia|reflexivity]. reflexivity.
Qed.

Lemma sp_item_conv rec t c o t0 r : tm_ok t -> item_ok t (Conv c) -> conv_out t c o ->
  (forall inp f t1, rec inp f t1 = sp_loop (fun _ _ t => (t, None)) f inp t1) ->
  sp_conv rec c (o ++ r) t0 = (conv_sets c t t0, Some r).
Proof.
  intros H I C Hr. pose proof H as Hok. ok_destruct H. cbn [item_ok] in I.
  assert (Yr : In c (codes "yD") -> 1969 <= year t <= 2068).
  { intros K. destruct I as [I|[_ I]]; [|exact I]. exfalso. revert K I. cbn. lia. }
  inversion C; subst; clear C; try (exfalso; clear -I; revert I; cbv [ch codes hd]; cbn; lia);
  repeat match goal with |- context [ch ?x] => let v := eval vm_compute in (ch x) in change (ch x) with v end;
  match goal with |- context [conv_sets ?c t t0] => let v := eval cbv in (conv_sets c) in idtac end;
  cbv [conv_sets]; repeat match goal with |- context [ch ?x] => let v := eval vm_compute in (ch x) in change (ch x) with v end; cbn [Z.eqb Pos.eqb orb].
  - spred. reflexivity.
  - spred. rewrite pn_SD, skip_app by lia. reflexivity.
  - spred. rewrite pn_LD, skip_app by lia. reflexivity.
  - spred. rewrite pn_SM, skip_app by lia. reflexivity.
  - spred. rewrite pn_SM, skip_app by lia. reflexivity.
  - spred. rewrite pn_LM, skip_app by lia. reflexivity.
  - apply sp_d. lia.
  - apply sp_D; [exact Hok|apply Yr; cbn; auto|exact Hr].
  - apply sp_H. lia.
  - apply sp_j. lia.
  - apply sp_m. lia.
  - apply sp_M. lia.
  - apply sp_S. lia.
  - apply sp_T; [exact Hok|exact Hr].
  - apply sp_y. apply Yr. cbn. auto.
Qed.

Lemma exp_conv_inv P t c f o : (c =? 69) || (c =? 79) = false -> expands P t (37 :: c :: f) o ->
  exists o1 o2, conv_out t c o1 /\ expands P t f o2 /\ o = o1 ++ o2 /\ P c.
Proof.
  intros N H. inversion H; subst; [exfalso; match goal with K : 37 <> _ |- _ => apply K; reflexivity end|eauto 10|]. exfalso.
  match goal with K : _ \/ _ |- _ => change (ch "E") with 69 in K; change (ch "O") with 79 in K; lia end.
Qed.
Lemma exp_lit_inv P t c f o : c <> 37 -> expands P t (c :: f) o -> exists o2, expands P t f o2 /\ o = c :: o2.
Proof. intros N H. inversion H; subst; try (exfalso; apply N; reflexivity). eauto. Qed.
Lemma exp_lits_inv P t s : forall f o, Forall lit_ok s -> expands P t (s ++ f) o -> exists o2, expands P t f o2 /\ o = s ++ o2.
Proof.
  induction s as [|c s IH]; intros f o F H; [eauto|]. inversion F; subst. cbn [app] in H.
  apply exp_lit_inv in H; [|destruct H2; assumption]. destruct H as [o2 [H ->]]. destruct (IH f o2 H3 H) as [o3 [K ->]]. eauto.
Qed.
Lemma conv_Y t o : conv_out t 89 o -> decimal (year t) o.
Proof. intros C. inversion C; try discriminate. assumption. Qed.
Lemma conv_F t o : conv_out t 70 o -> exists y, decimal (year t) y /\ o = y ++ [45] ++ dd (tm_mon t + 1) ++ [45] ++ dd (tm_mday t).
Proof. intros C. inversion C; try discriminate. eauto. Qed.
Lemma conv_I t o : conv_out t 73 o -> o = dd (hour12 t).
Proof. intros C. inversion C; try discriminate. reflexivity. Qed.
Lemma conv_p t o : conv_out t 112 o -> o = ampm t.
Proof. intros C. inversion C; try discriminate. reflexivity. Qed.
Lemma sp_lits rec s : forall f r t0, Forall lit_ok s -> sp_loop rec (s ++ f) (s ++ r) t0 = sp_loop rec f r t0.
Proof.
  induction s as [|c s IH]; intros f r t0 F; [reflexivity|]. inversion F; subst. cbn [app]. rewrite sp_lit by (destruct H1; assumption). apply IH. assumption.
Qed.

Lemma round_trip P t l : tm_ok t -> items_ok t l -> forall o t0, expands P t (fmt_of l) o ->
  strptime o (fmt_of l) t0 = (sets l t t0, Some []).
Proof.
  intros Hok. unfold strptime. set (rec := fun inp fmt t => sp_loop (fun _ _ t => (t, None)) fmt inp t).
  assert (Hr : forall inp f t1, rec inp f t1 = sp_loop (fun _ _ t => (t, None)) f inp t1) by reflexivity. clearbody rec.
  unfold sets. induction l as [|i l IH]; intros HI o t0 H.
  - inversion H; subst. reflexivity.
  - destruct HI as [Hi [HI HN]]. cbn [fold_left]. change (fmt_of (i :: l)) with (item_fmt i ++ fmt_of l) in *.
    pose proof Hok as Hok'. ok_destruct Hok'.
    destruct i as [c|c|s|s|s].
    + cbn [item_fmt app item_ok] in *. destruct Hi as [_ Hc]. apply exp_lit_inv in H; [|exact Hc]. destruct H as [o2 [H ->]].
      rewrite sp_lit by exact Hc. apply IH; assumption.
    + cbn [item_fmt app] in *.
      assert (Nc : (c =? 69) || (c =? 79) = false) by (cbn [item_ok] in Hi; revert Hi; cbv [codes]; cbn; lia).
      apply exp_conv_inv in H; [|exact Nc]. destruct H as [o1 [o2 [C [H [-> _]]]]].
      erewrite sp_step; [|apply (sp_item_conv rec t c o1); assumption|exact Nc]. apply IH; assumption.
    + cbn [item_fmt item_ok] in *. change (codes "%Y") with [37; 89] in *. cbn [app] in *.
      apply exp_conv_inv in H; [|reflexivity]. destruct H as [o1 [o2 [C [H [-> _]]]]]. apply conv_Y in C. destruct Hi as [Hs Hy].
      destruct s as [c|]; cbn [opt_list app sep_ok] in *.
      * destruct Hs as [[_ Hc] Hd]. apply exp_lit_inv in H; [|exact Hc]. destruct H as [o3 [H ->]].
        erewrite sp_step; [|apply (sp_Y rec t t0 o1); [exact C|unfold year in *; lia|exact Hd]|reflexivity]. rewrite sp_lit by exact Hc. apply IH; assumption.
      * subst l. inversion H; subst. erewrite sp_step; [|apply (sp_Y rec t t0 o1); [exact C|unfold year in *; lia|exact Logic.I]|reflexivity]. reflexivity.
    + cbn [item_fmt item_ok] in *. change (codes "%F") with [37; 70] in *. cbn [app] in *.
      apply exp_conv_inv in H; [|reflexivity]. destruct H as [o1 [o2 [C [H [-> _]]]]]. apply conv_F in C. destruct C as [y [D ->]]. destruct Hi as [Hs Hy].
      erewrite sp_step; [|apply (sp_F rec t t0 y); assumption|reflexivity].
      destruct s as [c|]; cbn [opt_list app sep_ok] in *.
      * destruct Hs as [[_ Hc] Hd]. apply exp_lit_inv in H; [|exact Hc]. destruct H as [o3 [H ->]]. rewrite sp_lit by exact Hc. apply IH; assumption.
      * subst l. inversion H; subst. reflexivity.
    + cbn [item_fmt item_ok] in *. change (codes "%I") with [37; 73] in *. change (codes "%p") with [37; 112] in *. rewrite <- !app_assoc in *. cbn [app] in *.
      apply exp_conv_inv in H; [|reflexivity]. destruct H as [o1 [o2 [C [H [-> _]]]]]. apply conv_I in C. subst o1.
      rewrite <- ?app_assoc in *. cbn [app] in *. apply exp_lits_inv in H; [|exact Hi]. destruct H as [o3 [H ->]].
      apply exp_conv_inv in H; [|reflexivity]. destruct H as [o4 [o5 [C [H [-> _]]]]]. apply conv_p in C. subst o4.
      erewrite sp_step; [|apply sp_I; lia|reflexivity]. rewrite sp_lits by exact Hi.
      erewrite sp_step; [|apply sp_p; lia|reflexivity]. apply IH; assumption.
Qed.

Lemma lit_exp P t s : forall f o, Forall lit_ok s -> expands P t f o -> expands P t (s ++ f) (s ++ o).
Proof.
  induction s as [|c s IH]; intros f o F H; [exact H|]. inversion F; subst. destruct H2 as [A B]. cbn [app]. apply ex_lit; [exact B|lia|]. apply IH; assumption.
Qed.
Lemma items_expand t l : tm_ok t -> items_ok t l -> exists o, expands (agrees t) t (fmt_of l) o.
Proof.
  intros Hok. induction l as [|i l IH]; intros HI; [exists []; constructor|]. destruct HI as [Hi [HI HN]]. destruct (IH HI) as [o H]. clear IH.
  change (fmt_of (i :: l)) with (item_fmt i ++ fmt_of l).
  assert (CV : forall c o1, agrees t c -> conv_out t c o1 -> forall f o, expands (agrees t) t f o -> expands (agrees t) t (37 :: c :: f) (o1 ++ o)).
  { intros c o1 A C f o' K. change 37 with (ch "%"). apply ex_conv; assumption. }
  destruct i as [c|c|s|s|s]; cbn [item_ok item_fmt] in *.
  - eexists. apply (lit_exp _ t [c]); [constructor; [exact Hi|constructor]|exact H].
  - assert (K : exists o1, conv_out t c o1).
    { destruct Hi as [Hi|[Hi _]]; vm_compute in Hi; repeat destruct Hi as [<-|Hi]; try (destruct Hi; fail);
      first [exists [37]; exact (co_percent t)|eexists; exact (co_a t)|eexists; exact (co_A t)|eexists; exact (co_b t)|eexists; exact (co_h t)|eexists; exact (co_B t)
       |eexists; exact (co_d t)|eexists; exact (co_H t)|eexists; exact (co_j t)|eexists; exact (co_m t)|eexists; exact (co_M t)|eexists; exact (co_S t)|eexists; exact (co_T t)|eexists; exact (co_y t)|eexists; exact (co_D t)]. }
    destruct K as [o1 C]. eexists. cbn [app]. apply (CV c o1); [|exact C|exact H].
    destruct Hi as [Hi|[Hi Hy]]; [left; revert Hi; cbn; lia|right; left]. unfold year in Hy. split; [|lia]. revert Hi; cbn; lia.
  - assert (K : exists o', expands (agrees t) t (opt_list s ++ fmt_of l) o').
    { eexists. apply lit_exp; [|exact H]. destruct s; cbn [opt_list sep_ok] in *; repeat constructor; apply Hi. }
    destruct K as [o' K]. eexists. change (codes "%Y") with [37; 89]. cbn [app]. apply CV; [left; cbn; auto 40|exact (co_Y t _ (decimal_dec _))|exact K].
  - assert (K : exists o', expands (agrees t) t (opt_list s ++ fmt_of l) o').
    { eexists. apply lit_exp; [|exact H]. destruct s; cbn [opt_list sep_ok] in *; repeat constructor; apply Hi. }
    destruct K as [o' K]. eexists. change (codes "%F") with [37; 70]. cbn [app]. apply CV; [left; cbn; auto 40|exact (co_F t _ (decimal_dec _))|exact K].
  - change (codes "%I") with [37; 73]. change (codes "%p") with [37; 112]. rewrite <- !app_assoc. cbn [app]. eexists.
    apply CV; [left; cbn; auto 40|exact (co_I t)|]. rewrite <- ?app_assoc. apply lit_exp; [exact Hi|]. cbn [app]. apply CV; [left; cbn; auto 40|exact (co_p t)|exact H].
Qed.
Lemma round_trip_code t l : tm_ok t -> items_ok t l ->
  exists o, expands (agrees t) t (fmt_of l) o /\ forall t0, strptime o (fmt_of l) t0 = (sets l t t0, Some []).
Proof.
  intros Hok HI. destruct (items_expand t l Hok HI) as [o H]. exists o. split; [exact H|]. intros t0. apply (round_trip _ t l Hok HI o t0 H).
Qed.
