(* Proofs for C44. *)
From Verif Require Import Base Numeral Word_mem Sort_model Sort_proofs Printf_model Printf_spec Printf_proofs Scanf_model Scanf_spec.

Definition ascii (l : list Z) : Prop := Forall (fun c => 0 < c < 128) l.

(* ---- digits ---- *)
Lemma dig_dval c : dig c = dval c. Proof. reflexivity. Qed.
Lemma radix_digit b c : b = 8 \/ b = 10 \/ b = 16 -> (in_radix b c = true <-> base_digit b c).
Proof.
  intro B. unfold in_radix, base_digit, dval. destruct B as [->|[->| ->]];
    destruct (Z.leb_spec c 57); try destruct (Z.leb_spec c 70); lia.
Qed.

Definition wsub (w : option Z) (k : Z) : option Z := match w with Some n => Some (n - k) | None => None end.
Lemma wdec_sub w k : wdec (wsub w k) = wsub w (k + 1).
Proof. destruct w; cbn; [f_equal; lia|reflexivity]. Qed.
Lemma wsub_0 w : wsub w 0 = w.
Proof. destruct w; cbn; [f_equal; lia|reflexivity]. Qed.
Lemma wsub_wsub w a b : wsub (wsub w a) b = wsub w (a + b).
Proof. destruct w; cbn; [f_equal; lia|reflexivity]. Qed.

(* What is left of the input after a number: [c1] is the character in hand. *)
Definition rest_is (w : option Z) (n : Z) (rest i1 : list Z) (c1 : Z) : Prop :=
  (w = Some n -> i1 = rest) /\ (w <> Some n -> rest = c1 :: i1 \/ rest = []).

Lemma num_digits auto radix : radix = 8 \/ radix = 10 \/ radix = 16 -> forall t x rest n w ds,
  (auto = false \/ ds <> [] \/ x <> 48) -> Forall (base_digit radix) (x :: t) ->
  (forall k, w = Some k -> len (x :: t) <= k) ->
  (w = Some (len (x :: t)) \/ rest = [] \/ ~ base_digit radix (hd 0 rest)) ->
  exists i1 c1 n1, num_loop auto false (t ++ rest) x n w radix ds = Some (i1, c1, n1, wsub w (len (x :: t)), radix, ds ++ x :: t) /\
    rest_is w (len (x :: t)) rest i1 c1.
Proof.
  intro B. induction t as [|y t IH]; intros x rest n w ds A F W E; inversion F as [|? ? FX FT]; subst.
  - apply radix_digit in FX; [|exact B]. change (len [x]) with 1 in *.
    assert (G : auto && (match ds with [] => true | _ => false end) && (x =? 48) = false).
    { destruct A as [->|[A|A]]; [reflexivity|destruct ds; [congruence|apply andb_false_iff; left; apply andb_false_r]|].
      destruct (Z.eqb_spec x 48); [contradiction|apply andb_false_r]. }
    assert (WP : wpos w = true). { destruct w as [k|]; [|reflexivity]. specialize (W k eq_refl). cbn. lia. }
    cbn [app]. destruct rest as [|z rest].
    + exists [], x, n. cbn [num_loop]. rewrite FX, WP, G. cbn [andb].
      replace (wdec w) with (wsub w 1) by (destruct w; reflexivity).
      split; [destruct (wpos (wsub w 1)); reflexivity|]. split; auto.
    + cbn [num_loop]. rewrite FX, WP, G. cbn [andb]. replace (wdec w) with (wsub w 1) by (destruct w; reflexivity).
      destruct (wpos (wsub w 1)) eqn:EW.
      * exists rest, z, (n + 1). split.
        -- assert (NZ : in_radix radix z = false).
           { destruct E as [E|[E|E]]; [subst w; discriminate EW|discriminate|]. cbn [hd] in E.
             destruct (in_radix radix z) eqn:EZ; [|reflexivity]. exfalso. apply E. apply radix_digit; assumption. }
           destruct rest as [|z' rest']; cbn [num_loop]; rewrite NZ, andb_false_r; reflexivity.
        -- split; [intros ->; discriminate EW|]. auto.
      * exists (z :: rest), x, n. split; [reflexivity|]. split; [reflexivity|]. intro N. exfalso.
        destruct w as [k|]; [|discriminate EW]. specialize (W k eq_refl). cbn in EW. apply N. f_equal. lia.
  - apply radix_digit in FX; [|exact B]. rewrite len_cons in *. pose proof (len_nonneg (y :: t)) as LN. rewrite len_cons in LN. pose proof (len_nonneg t) as LT.
    assert (G : auto && (match ds with [] => true | _ => false end) && (x =? 48) = false).
    { destruct A as [->|[A|A]]; [reflexivity|destruct ds; [congruence|apply andb_false_iff; left; apply andb_false_r]|].
      destruct (Z.eqb_spec x 48); [contradiction|apply andb_false_r]. }
    assert (WP : wpos w = true /\ wpos (wsub w 1) = true).
    { destruct w as [k|]; [|split; reflexivity]. specialize (W k eq_refl). rewrite len_cons in W. cbn. lia. }
    destruct WP as (WP & WQ). cbn [app num_loop]. rewrite FX, WP, G. cbn [andb].
    replace (wdec w) with (wsub w 1) by (destruct w; reflexivity). rewrite WQ.
    destruct (IH y rest (n + 1) (wsub w 1) (ds ++ [x])) as (i1 & c1 & n1 & E1 & R1 & R2).
    + right. left. destruct ds; discriminate.
    + exact FT.
    + intros k K. destruct w as [k'|]; [|discriminate]. injection K as <-. specialize (W k' eq_refl). lia.
    + destruct E as [E|E]; [left; subst w; cbn [wsub]; f_equal; lia|right; exact E].
    + exists i1, c1, n1. rewrite E1, wsub_wsub, <- app_assoc. cbn [app]. split; [do 3 f_equal; rewrite !len_cons; f_equal; f_equal; lia|].
      split; [intros ->; apply R1; cbn [wsub]; f_equal; lia|]. intro N. apply R2. intro X. apply N. destruct w as [k|]; [|discriminate].
      injection X as X. f_equal. lia.
Qed.

Lemma dvalue_zero b t : dvalue b (map dval (48 :: t)) = dvalue b (map dval t).
Proof. cbn [map]. rewrite dvalue_cons. change (dval 48) with 0. lia. Qed.

(* %i: leading zeros *)
Lemma num_octal : forall t rest n w radix, radix = 8 \/ radix = 10 -> Forall (base_digit 8) t ->
  (forall k, w = Some k -> len (48 :: t) < k) ->
  (rest = [] \/ ~ base_digit 8 (hd 0 rest)) -> ~ (Forall (eq 48) t /\ is_x (hd 0 rest)) ->
  exists i1 c1 n1 ds, num_loop true false (t ++ rest) 48 n w radix [] = Some (i1, c1, n1, wsub w (len (48 :: t)), 8, ds) /\
    (rest = c1 :: i1 \/ rest = []) /\ Forall (base_digit 8) ds /\ dvalue 8 (map dval ds) = dvalue 8 (map dval t).
Proof.
  induction t as [|y t IH]; intros rest n w radix B F W E NZ.
  - change (len [48]) with 1 in *. cbn [app].
    assert (WP : wpos w = true /\ wpos (wsub w 1) = true).
    { destruct w as [k|]; [|split; reflexivity]. specialize (W k eq_refl). cbn. lia. }
    destruct WP as (WP & WQ).
    assert (IR : in_radix radix 48 = true) by (apply radix_digit; [tauto|unfold base_digit; cbn; lia]).
    destruct rest as [|z rest]; cbn [num_loop]; rewrite WP, IR; cbn [andb Z.eqb Pos.eqb]; replace (wdec w) with (wsub w 1) by (destruct w; reflexivity).
    + exists [], 48, n, []. repeat split; auto.
    + rewrite WQ. cbn [andb].
      assert (NX : (z =? 120) || (z =? 88) = false).
      { destruct (Z.eqb_spec z 120); [exfalso; apply NZ; split; [constructor|unfold is_x; cbn; auto]|].
        destruct (Z.eqb_spec z 88); [exfalso; apply NZ; split; [constructor|unfold is_x; cbn; auto]|reflexivity]. }
      rewrite NX. exists rest, z, (n + 1), [].
      assert (NR : in_radix 8 z = false).
      { destruct E as [E|E]; [discriminate|]. cbn [hd] in E. destruct (in_radix 8 z) eqn:EZ; [|reflexivity]. exfalso. apply E. apply radix_digit; auto. }
      split; [destruct rest; cbn [num_loop]; rewrite NR, andb_false_r; reflexivity|]. repeat split; auto.
  - inversion F as [|? ? FY FT]; subst. rewrite len_cons in *. pose proof (len_nonneg t) as LT.
    assert (WP : wpos w = true /\ wpos (wsub w 1) = true).
    { destruct w as [k|]; [|split; reflexivity]. specialize (W k eq_refl). rewrite len_cons in W. cbn. lia. }
    destruct WP as (WP & WQ).
    assert (IR : in_radix radix 48 = true) by (apply radix_digit; [tauto|unfold base_digit; cbn; lia]).
    cbn [app num_loop]. rewrite WP, IR; cbn [andb Z.eqb Pos.eqb]; replace (wdec w) with (wsub w 1) by (destruct w; reflexivity).
    rewrite WQ. cbn [andb].
    assert (NX : (y =? 120) || (y =? 88) = false).
    { unfold base_digit, dval in FY. destruct (Z.leb_spec y 57); try destruct (Z.leb_spec y 70); lia. }
    rewrite NX.
    assert (W1 : forall k, wsub w 1 = Some k -> len (y :: t) < k).
    { intros k K. destruct w as [k'|]; [|discriminate]. injection K as <-. specialize (W k' eq_refl). lia. }
    destruct (Z.eq_dec y 48) as [->|N48].
    + destruct (IH rest (n + 1) (wsub w 1) 8) as (i1 & c1 & n1 & ds & E1 & E2 & E3 & E4); auto.
      { intros k K. specialize (W1 k K). rewrite len_cons in W1. exact W1. }
      { intros (X1 & X2). apply NZ. split; [constructor; auto|exact X2]. }
      exists i1, c1, n1, ds. rewrite E1, wsub_wsub. split; [replace (1 + (len t + 1)) with (len (48 :: t) + 1) by (rewrite len_cons; lia); reflexivity|]. split; [exact E2|]. split; [exact E3|].
      rewrite E4, dvalue_zero. reflexivity.
    + destruct (num_digits true 8 ltac:(auto) t y rest (n + 1) (wsub w 1) []) as (i1 & c1 & n1 & E1 & R1 & R2); auto.
      { intros k K. specialize (W1 k K). lia. }
      exists i1, c1, n1, (y :: t). rewrite E1, wsub_wsub. split; [replace (1 + len (y :: t)) with (len (y :: t) + 1) by lia; reflexivity|]. split; [|auto].
      apply R2. intro X. specialize (W1 _ X). lia.
Qed.

Definition radix_of (c : Z) : Z := if c =? 111 then 8 else if (c =? 120) || (c =? 88) || (c =? 112) then 16 else 10.

Lemma digits_snoc b t v x : digits_of b t v -> base_digit b x -> digits_of b (t ++ [x]) (dvalue b (map dval (t ++ [x]))).
Proof.
  intros (N & F & _) H. split; [destruct t; discriminate|]. split; [apply Forall_app; split; [exact F|auto]|reflexivity].
Qed.
Lemma item_stop c w t rest v : item_of c w t rest v -> forall b, 
  (forall x, base_digit b x -> exists v', subject c (t ++ [x]) v') ->
  w = Some (len t) \/ rest = [] \/ ~ base_digit b (hd 0 rest).
Proof.
  intros (_ & _ & [H|[H|H]]) b X; auto. right. right. intro BD. apply H. destruct (X _ BD) as (v' & S). exists [], v'. exact S.
Qed.

Lemma not_sign b c : base_digit b c -> c <> 43 /\ c <> 45.
Proof. unfold base_digit. lia. Qed.

Lemma num_item c w x t rest v n max : In c [100; 105; 117; 111; 120; 88] -> item_of c w (x :: t) rest v -> plain_text c (x :: t) ->
  (w = Some (len (x :: t)) -> ~ (c = 105 /\ x = 48)) -> ~ (c = 105 /\ Forall (eq 48) (x :: t) /\ is_x (hd 0 rest)) -> v <= max ->
  exists i1 c1 n1 w1 r1 ds, num_loop (c =? 105) false (t ++ rest) x n w (radix_of c) [] = Some (i1, c1, n1, w1, r1, ds) /\
    (match ds with [] => Some 0 | _ => from_radix ds r1 max end) = Some v /\
    w1 = wsub w (len (x :: t)) /\ rest_is w (len (x :: t)) rest i1 c1.
Proof.
  intros IC IT PT CUT NZ MX. pose proof IT as (SJ & W & _).
  destruct PT as (P1 & P2 & P3 & P4). cbn [hd] in P1, P2.
  assert (CT : constant c (x :: t) v). { inversion SJ; subst; auto; congruence. }
  clear SJ IC.
  assert (FR : forall b, dvalue b (map dval (x :: t)) = v -> from_radix (x :: t) b max = Some v).
  { intros b E. unfold from_radix. change (map dig (x :: t)) with (map dval (x :: t)). rewrite E. destruct (Z.leb_spec v max); [reflexivity|lia]. }
  assert (PLAIN : forall b, b = 8 \/ b = 10 \/ b = 16 -> radix_of c = b -> (c =? 105 = false \/ x <> 48) -> digits_of b (x :: t) v ->
    (forall y, base_digit b y -> exists v', subject c ((x :: t) ++ [y]) v') ->
    exists i1 c1 n1 w1 r1 ds, num_loop (c =? 105) false (t ++ rest) x n w (radix_of c) [] = Some (i1, c1, n1, w1, r1, ds) /\
      (match ds with [] => Some 0 | _ => from_radix ds r1 max end) = Some v /\
      w1 = wsub w (len (x :: t)) /\ rest_is w (len (x :: t)) rest i1 c1).
  { intros b B RB AU (_ & F & V) EXT. pose proof (item_stop _ _ _ _ _ IT b EXT) as ST.
    destruct (num_digits (c =? 105) b B t x rest n w []) as (i1 & c1 & n1 & E1 & R1); auto; [tauto|].
    rewrite RB. exists i1, c1, n1, (wsub w (len (x :: t))), b, (x :: t). split; [exact E1|]. split; [apply FR; auto|]. auto. }
  inversion CT as [c0 t0 v0 C D|t0 v0 D|c0 t0 v0 C D|c0 x0 t0 v0 C X D|t0 v0 H D|t0 v0 D|x0 t0 v0 X D]; subst.
  - apply (PLAIN 10); auto; [destruct C; subst; reflexivity|left; destruct C; subst; reflexivity|].
    intros y Y. eexists. apply s_plain. apply k_dec; [exact C|]. eapply digits_snoc; eauto.
  - apply (PLAIN 8); auto. intros y Y. eexists. apply s_plain. apply k_oct. eapply digits_snoc; eauto.
  - apply (PLAIN 16); auto; [destruct C; subst; reflexivity|left; destruct C; subst; reflexivity|].
    intros y Y. eexists. apply s_plain. apply k_hex; [exact C|]. eapply digits_snoc; eauto.
  - exfalso. apply (P3 C eq_refl). exact X.
  - cbn [hd] in H. apply (PLAIN 10); auto.
    intros y Y. eexists. apply s_plain. apply k_i10; [exact H|]. eapply digits_snoc; eauto.
  - (* octal *)
    destruct D as (_ & F & V). inversion F; subst.
    assert (ST : w = Some (len (48 :: t)) \/ rest = [] \/ ~ base_digit 8 (hd 0 rest)).
    { apply (item_stop _ _ _ _ _ IT 8). intros y Y. eexists. apply s_plain. cbn [app]. apply k_i8.
      change (48 :: t ++ [y]) with ((48 :: t) ++ [y]). eapply digits_snoc; [|exact Y]. split; [discriminate|]. split; [exact F|reflexivity]. }
    assert (NC : w <> Some (len (48 :: t))). { intro X. apply (CUT X). auto. }
    destruct (num_octal t rest n w 10) as (i1 & c1 & n1 & ds & E1 & E2 & E3 & E4); auto.
    { intros k K. specialize (W k K). assert (len (48 :: t) <> k) by (intro X; apply NC; rewrite K; congruence). lia. }
    { destruct ST as [ST|ST]; [contradiction|exact ST]. }
    { intros (X1 & X2). apply NZ. split; [reflexivity|]. split; [constructor; auto|exact X2]. }
    exists i1, c1, n1, (wsub w (len (48 :: t))), 8, ds. split; [exact E1|].
    split; [|split; [reflexivity|split; [intro X; contradiction|auto]]].
    rewrite dvalue_zero in *. destruct ds as [|y ds].
    + cbn [map] in E4. unfold dvalue at 1 in E4. cbn in E4. f_equal. exact E4.
    + unfold from_radix. change (map dig (y :: ds)) with (map dval (y :: ds)). rewrite E4. destruct (Z.leb_spec (dvalue 8 (map dval t)) max); [reflexivity|lia].
  - (* 0x *)
    destruct D as (NE & F & V). destruct t0 as [|y t]; [congruence|].
    assert (Y48 : y <> 48) by (apply (P4 eq_refl eq_refl X)).
    assert (IX : (x0 =? 120) || (x0 =? 88) = true) by (unfold is_x in X; lia).
    rewrite !len_cons in *. pose proof (len_nonneg t) as LT.
    assert (WP : wpos w = true /\ wpos (wsub w 1) = true /\ wpos (wsub w 2) = true).
    { destruct w as [k|]; [|repeat split; reflexivity]. specialize (W k eq_refl). cbn. lia. }
    destruct WP as (WP & WQ & WR). cbn [app num_loop]. change (in_radix (radix_of 105) 48) with true. rewrite WP. cbn [andb Z.eqb Pos.eqb].
    replace (wdec w) with (wsub w 1) by (destruct w; reflexivity). rewrite WQ, IX. cbn [andb].
    rewrite wdec_sub. change (1 + 1) with 2. rewrite WR.
    destruct (num_digits true 16 ltac:(auto) t y rest (n + 2) (wsub w 2) []) as (i1 & c1 & n1 & E1 & R1 & R2); auto.
    { intros k K. destruct w as [k'|]; [|discriminate]. injection K as <-. specialize (W k' eq_refl). rewrite len_cons. lia. }
    { destruct (item_stop _ _ _ _ _ IT 16) as [ST|ST]; [|left|right; exact ST].
      - intros z Zd. eexists. apply s_plain. cbn [app]. apply k_i16; [exact X|]. change (y :: t ++ [z]) with ((y :: t) ++ [z]).
        eapply digits_snoc; [|exact Zd]. split; [discriminate|]. split; [exact F|reflexivity].
      - rewrite ST. rewrite !len_cons. cbn [wsub]. f_equal. lia. }
    exists i1, c1, n1, (wsub w (len t + 1 + 1 + 1)), 16, (y :: t). rewrite E1, wsub_wsub, len_cons in *.
    split; [replace (2 + (len t + 1)) with (len t + 1 + 1 + 1) by lia; reflexivity|]. split.
    + cbn [app]. unfold from_radix. change (map dig (y :: t)) with (map dval (y :: t)). rewrite <- V. destruct (Z.leb_spec v max); [reflexivity|lia].
    + split; [reflexivity|]. split.
      * intros ->. apply R1. cbn [wsub]. f_equal. lia.
      * intro N. apply R2. intro K. apply N. destruct w as [k|]; [|discriminate]. injection K as K. f_equal. lia.
Qed.

Lemma constant_nonneg c t v : constant c t v -> 0 <= v /\ t <> [].
Proof.
  assert (D : forall b t v, 2 <= b <= 16 -> digits_of b t v -> 0 <= v).
  { intros b t0 v0 B (_ & F & ->). apply dvalue_range; [lia|]. apply Forall_map. eapply Forall_impl; [|exact F].
    intros x (X & L). split; [|exact L]. unfold dval in *. destruct (Z.leb_spec x 57); [lia|]. destruct (Z.leb_spec x 70); lia. }
  assert (N : forall b t v, digits_of b t v -> t <> []) by (intros b t0 v0 (H & _); exact H).
  intros H. inversion H; subst; split; try discriminate;
    match goal with D' : digits_of ?b _ _ |- 0 <= _ => apply (D b _ _ ltac:(lia) D') | D' : digits_of _ _ _ |- _ <> [] => apply (N _ _ _ D') end.
Qed.

(* ---- white space ---- *)
Lemma ws_iff c : 0 < c < 128 -> (ws c = true <-> isspace c).
Proof. intro H. unfold ws, isspace. lia. Qed.
Lemma skip_ws_ok w : forall c i x u n, Forall isspace w -> ascii (w ++ x :: u) -> ws x = false -> c :: i = w ++ x :: u ->
  exists n', skip_ws i c n = Some (u, x, n').
Proof.
  induction w as [|y w IH]; intros c i x u n F A NX E; cbn [app] in E.
  - injection E as -> ->. exists n. destruct u; cbn [skip_ws]; rewrite NX; reflexivity.
  - injection E as -> E. inversion F; subst. cbn [app] in A. inversion A; subst.
    assert (WY : ws y = true) by (apply ws_iff; auto).
    destruct w as [|z w]; cbn [app] in *.
    + cbn [skip_ws]. rewrite WY. apply (IH x u x u (n + 1)); auto.
    + cbn [skip_ws]. rewrite WY. apply (IH z (w ++ x :: u) x u (n + 1)); auto.
Qed.

(* ---- the format ---- *)
Lemma width_digits_ok wd : forall T c f ds, Forall (fun x => 0 <= x < 10) wd -> T <> [] -> is_dec (hd 0 T) = false ->
  c :: f = map (fun d => 48 + d) wd ++ T -> width_digits f c ds = (ds ++ wd, hd 0 T, tl T).
Proof.
  induction wd as [|d wd IH]; intros T c f ds F NT ND E; cbn [map app] in E.
  - subst T. cbn [hd tl] in *. rewrite app_nil_r. destruct f; cbn [width_digits]; rewrite ND; reflexivity.
  - injection E as -> E. inversion F; subst.
    assert (DD : is_dec (48 + d) = true) by (unfold is_dec; lia).
    destruct (map (fun d => 48 + d) wd ++ T) as [|c1 f1] eqn:E1; [destruct wd; [cbn in E1; congruence|discriminate]|].
    cbn [width_digits]. rewrite DD. rewrite (IH T c1 f1 (ds ++ [48 + d - 48])); auto. replace (48 + d - 48) with d by lia.
    rewrite <- app_assoc. reflexivity.
Qed.

Definition int_conv6 (c : Z) : Prop := In c [100; 105; 117; 111; 120; 88].

(* Parsing a conversion specification. *)
Lemma scan_conv_parse fuel s (ig : bool) wd k c F : int_conv6 c -> Forall (fun x => 0 <= x < 10) wd -> (wd <> [] -> 0 < dvalue 10 wd < 2 ^ 64) ->
  scan_conv fuel s ((if ig then [42] else []) ++ map (fun d => 48 + d) wd ++ modifier_text k ++ c :: F) =
  match mr_keep s with
  | Ret v m => Ok (Ret v m, F)
  | Go s =>
      '(st, w) <- scan_int s c ig k (width wd) ;;
      match st with
      | Ret v m => Ok (Ret v m, F)
      | Go s => if negb (match w with Some n => n =? 0 | None => false end) then Ok (Go (set_skip true s), F) else Ok (Go s, F)
      end
  end.
Proof.
  intros IC FW WB. set (T := modifier_text k ++ c :: F).
  assert (TH : T <> [] /\ is_dec (hd 0 T) = false /\ hd 0 T <> 42 /\ T = hd 0 T :: tl T).
  { unfold T. unfold int_conv6 in IC. cbn [In] in IC. destruct k; cbn; repeat split; try discriminate; try lia; unfold is_dec; lia. }
  destruct TH as (T1 & T2 & T3 & T4).
  destruct (map (fun d => 48 + d) wd ++ T) as [|c1 f1] eqn:E1; [destruct wd; [cbn in E1; congruence|discriminate]|].
  assert (C42 : c1 <> 42).
  { destruct wd as [|d wd]; [cbn in E1; rewrite T4 in E1; injection E1 as <- _; exact T3|]. cbn in E1. injection E1 as <- _. inversion FW; subst. lia. }
  assert (WD : width_digits f1 c1 [] = (wd, hd 0 T, tl T)) by (apply (width_digits_ok wd T c1 f1 []); auto).
  assert (WO : width_of wd = Some (width wd)).
  { unfold width_of, width. destruct wd; [reflexivity|]. specialize (WB ltac:(discriminate)). change two64 with (2 ^ 64). destruct (Z.ltb_spec (dvalue 10 (z :: wd)) (2 ^ 64)); [reflexivity|lia]. }
  assert (PS : pop_size (hd 0 T :: tl T) IInt = (k, c :: F)).
  { rewrite <- T4. apply pop_size_spec. cbn. unfold int_conv6 in IC. cbn [In] in IC. lia. }
  assert (NC : (let (c2, f2) := nc ((if ig then [42] else []) ++ c1 :: f1) in (c2 =? 42, if c2 =? 42 then nc f2 else (c2, f2))) = (ig, (c1, f1))).
  { destruct ig; cbn [app nc]; [reflexivity|]. destruct (Z.eqb_spec c1 42); [contradiction|reflexivity]. }
  unfold scan_conv. destruct (nc ((if ig then [42] else []) ++ c1 :: f1)) as [c2 f2]. injection NC as N1 N2. rewrite N1 in *. rewrite N2.
  rewrite WD, WO, PS. cbn [nc].
  assert (C1 : c =? 110 = false /\ c =? 37 = false /\ is_num_conv c = true).
  { unfold int_conv6 in IC. cbn [In] in IC. destruct IC as [<-|[<-|[<-|[<-|[<-|[<-|[]]]]]]]; repeat split. }
  destruct C1 as (C1 & C2 & C3). unfold start. rewrite C1, C2, C3. destruct (mr_keep s) as [s1|v m]; [|reflexivity].
  destruct (scan_int s1 c ig k (width wd)) as [[st w]| | |]; cbn [bind]; try reflexivity.
  destruct st; [|reflexivity]. cbn [negb]. rewrite andb_true_r. reflexivity.
Qed.

Definition holds (s : sst) (u : list Z) (fresh : bool) : Prop :=
  (fresh = true -> skip s = false) /\
  ((skip s = false /\ inp s = u) \/ (skip s = true /\ u = ch s :: inp s)).

Lemma keep_ok s u fresh : holds s u fresh -> u <> [] ->
  exists s1, mr_keep s = Go s1 /\ ch s1 :: inp s1 = u /\ skip s1 = skip s /\ mt s1 = mt s /\ mm s1 = mm s /\ ap s1 = ap s.
Proof.
  intros (_ & [(S & I)|(S & I)]) N; unfold mr_keep; rewrite S.
  - unfold rd. rewrite I. destruct u as [|c u]; [congruence|]. eexists. split; [reflexivity|]. cbn. auto.
  - exists s. repeat split; auto.
Qed.

Lemma white_ok s w x u : ch s :: inp s = w ++ x :: u -> Forall isspace w -> ascii (w ++ x :: u) -> ws x = false ->
  exists n, skip_white s = Go (SS u x (skip s) n (mt s) (mm s) (ap s)).
Proof.
  intros E F A NX. destruct (skip_ws_ok w (ch s) (inp s) x u (cnt s) F A NX E) as (n & H). exists n. unfold skip_white. rewrite H. reflexivity.
Qed.

Lemma fits_max k c v : int_conv6 c -> fits k c v -> v <= imax k ((c =? 111) || (c =? 117) || (c =? 120) || (c =? 88)).
Proof.
  intros IC H. unfold int_conv6 in IC. cbn [In] in IC. unfold fits in H.
  destruct IC as [<-|[<-|[<-|[<-|[<-|[<-|[]]]]]]]; destruct k; cbn in *; lia.
Qed.
Lemma fits_range k c v : fits k c v -> 0 <= v -> v mod 256 ^ Z.of_nat (nbytes k) = v.
Proof.
  intros H P. apply Z.mod_small. unfold fits in H. split; [exact P|].
  destruct (unsigned_conv c && _); [lia|]. assert (0 < 256 ^ Z.of_nat (nbytes k)) by (destruct k; reflexivity).
  assert (256 ^ Z.of_nat (nbytes k) / 2 <= 256 ^ Z.of_nat (nbytes k)) by (apply Z.div_le_upper_bound; lia). lia.
Qed.

(* ---- the string conversions ---- *)
(* what is left after characters taken with width w: cut by the width, the input ended, or
   the next character is in hand *)
Definition left_is (w : option Z) (n : Z) (rest i1 : list Z) (c1 : Z) (eof : bool) : Prop :=
  (w = Some n /\ i1 = rest /\ eof = false) \/ (w <> Some n /\ rest = [] /\ eof = true) \/ (w <> Some n /\ rest = c1 :: i1 /\ eof = false).
Definition wrote (store : bool) (m m' : mem) (p : Z) (t : list Z) : Prop := if store then stored m m' p t else m' = m.
Lemma wpos_len w k n : (forall x, w = Some x -> k <= x) -> k <= n -> w <> Some k -> wpos (wsub w k) = true.
Proof. intros H _ N. destruct w as [x|]; [|reflexivity]. cbn. specialize (H x eq_refl). apply Z.ltb_lt. assert (x <> k) by congruence. lia. Qed.
Lemma wrote_cons (store : bool) m p x t m' : mapped m p (if store then len (x :: t) else 0) ->
  wrote store (if store then upd m p x else m) m' (p + 1) t ->
  (if store then st m p x else Ok m) = Ok (if store then upd m p x else m) /\ wrote store m m' p (x :: t).
Proof.
  intros M W. destruct store; [|split; [reflexivity|exact W]]. unfold st. destruct (M p) as (b & X); [rewrite len_cons; pose proof (len_nonneg t); lia|].
  rewrite X. split; [reflexivity|apply stored_cons; exact W].
Qed.
Lemma mapped_tail (store : bool) m p x (t : list Z) : mapped m p (if store then len (x :: t) else 0) ->
  mapped (if store then upd m p x else m) (p + 1) (if store then len t else 0).
Proof.
  intros M. destruct store; [|intros y Y; lia]. apply mapped_upd. rewrite len_cons in M. eapply mapped_sub; [exact M|lia|lia].
Qed.
Lemma str_loop_ok (store : bool) t : forall x rest n w m p,
  Forall (fun c => ws c = false) (x :: t) -> (forall k, w = Some k -> len (x :: t) <= k) ->
  (w = Some (len (x :: t)) \/ rest = [] \/ ws (hd 0 rest) = true) -> mapped m p (if store then len (x :: t) else 0) ->
  exists i1 c1 n1 eof m1, str_loop store (t ++ rest) x n w m p = Ok (i1, c1, n1, wsub w (len (x :: t)), eof, m1, p + len (x :: t)) /\
    left_is w (len (x :: t)) rest i1 c1 eof /\ wrote store m m1 p (x :: t).
Proof.
  induction t as [|y t IH]; intros x rest n w m p F W E M; inversion F as [|? ? FX FT]; subst.
  - change (len [x]) with 1 in *.
    assert (WP : wpos w = true) by (destruct w as [k|]; [specialize (W k eq_refl); cbn; apply Z.ltb_lt; lia|reflexivity]).
    assert (S1 : wrote store (if store then upd m p x else m) (if store then upd m p x else m) (p + 1) []) by (destruct store; [apply stored_nil|reflexivity]).
    destruct (wrote_cons store m p x [] _ M S1) as (ST & WR).
    assert (WD : wdec w = wsub w 1) by (destruct w; reflexivity).
    destruct (wpos (wsub w 1)) eqn:WP1.
    + assert (NW : w <> Some 1) by (intros ->; discriminate).
      destruct E as [E|E]; [contradiction|]. destruct rest as [|c1 r1].
      * eexists [], x, n, true, _. split; [|split; [right; left; auto|exact WR]]. cbn [app str_loop]. rewrite WP, FX, ST. cbn [negb andb bind]. rewrite WD, WP1. reflexivity.
      * destruct E as [E|E]; [discriminate|]. cbn [hd] in E. eexists r1, c1, _, false, _. split; [|split; [right; right; auto|exact WR]].
        cbn [app str_loop]. rewrite WP, FX, ST. cbn [negb andb bind]. rewrite WD, WP1. destruct r1; cbn [str_loop]; rewrite E, andb_false_r; reflexivity.
    + assert (NW : w = Some 1) by (destruct w as [k|]; [specialize (W k eq_refl); cbn in WP1; apply Z.ltb_ge in WP1; f_equal; lia|discriminate]).
      eexists rest, x, n, false, _. split; [|split; [left; auto|exact WR]]. cbn [app]. destruct rest; cbn [str_loop]; rewrite WP, FX, ST; cbn [negb andb bind]; rewrite WD, WP1; reflexivity.
  - assert (L2 : len (x :: y :: t) = 1 + len (y :: t)) by (rewrite len_cons; lia). pose proof (len_nonneg t) as LT. assert (L3 : len (y :: t) = 1 + len t) by (rewrite len_cons; lia).
    assert (WP : wpos w = true) by (destruct w as [k|]; [specialize (W k eq_refl); cbn; apply Z.ltb_lt; lia|reflexivity]).
    assert (WD : wdec w = wsub w 1) by (destruct w; reflexivity).
    assert (WP1 : wpos (wsub w 1) = true) by (destruct w as [k|]; [specialize (W k eq_refl); cbn; apply Z.ltb_lt; lia|reflexivity]).
    destruct (IH y rest (n + 1) (wsub w 1) (if store then upd m p x else m) (p + 1)) as (i1 & c1 & n1 & eof & m1 & E1 & LI & WR).
    + exact FT.
    + intros k K. destruct w as [k0|]; [|discriminate]. injection K as <-. specialize (W k0 eq_refl). lia.
    + destruct E as [->|E]; [left; cbn; f_equal; lia|right; exact E].
    + apply mapped_tail. exact M.
    + destruct (wrote_cons store m p x (y :: t) m1 M WR) as (ST & WR').
      exists i1, c1, n1, eof, m1. split; [|split; [|exact WR']].
      * cbn [app str_loop]. rewrite WP, FX, ST. cbn [negb andb bind]. rewrite WD, WP1. cbn [app str_loop] in E1. rewrite E1. rewrite wsub_wsub, L2. rewrite Z.add_assoc. reflexivity.
      * assert (EQ : wsub w 1 = Some (len (y :: t)) <-> w = Some (len (x :: y :: t))).
        { destruct w as [k|]; cbn [wsub]; split; intro H; try discriminate; injection H as H; f_equal; lia. }
        unfold left_is in *. rewrite EQ in LI. exact LI.
Qed.
Definition member (invert : bool) (set : list Z) (c : Z) : bool := negb (eqb invert (existsb (Z.eqb c) set)).
Lemma set_loop_ok (store : bool) invert set t : forall x rest n w m p b,
  Forall (fun c => member invert set c = true) (x :: t) -> (forall k, w = Some k -> len (x :: t) <= k) ->
  (w = Some (len (x :: t)) \/ rest = [] \/ member invert set (hd 0 rest) = false) -> mapped m p (if store then len (x :: t) else 0) ->
  exists i1 c1 n1 eof m1, set_loop store invert set (t ++ rest) x n w m p b =
      Ok (i1, c1, n1, wsub w (len (x :: t)), eof, m1, p + (if store then len (x :: t) else 0), if store then true else b) /\
    left_is w (len (x :: t)) rest i1 c1 eof /\ wrote store m m1 p (x :: t).
Proof.
  induction t as [|y t IH]; intros x rest n w m p b F W E M; inversion F as [|? ? FX FT]; subst.
  - change (len [x]) with 1 in *.
    assert (WP : wpos w = true) by (destruct w as [k|]; [specialize (W k eq_refl); cbn; apply Z.ltb_lt; lia|reflexivity]).
    assert (S1 : wrote store (if store then upd m p x else m) (if store then upd m p x else m) (p + 1) []) by (destruct store; [apply stored_nil|reflexivity]).
    destruct (wrote_cons store m p x [] _ M S1) as (ST & WR).
    assert (WD : wdec w = wsub w 1) by (destruct w; reflexivity).
    assert (STS : (if store then m0 <- st m p x ;; Ok (m0, p + 1, true) else Ok (m, p, b)) =
      Ok ((if store then upd m p x else m), p + (if store then 1 else 0), if store then true else b)).
    { destruct store; [rewrite ST; reflexivity|rewrite Z.add_0_r; reflexivity]. }
    destruct (wpos (wsub w 1)) eqn:WP1.
    + assert (NW : w <> Some 1) by (intros ->; discriminate).
      destruct E as [E|E]; [contradiction|]. destruct rest as [|c1 r1].
      * eexists [], x, n, true, _. split; [|split; [right; left; auto|exact WR]]. cbn [app set_loop]. fold (member invert set x). rewrite WP, FX, STS. cbn [negb andb bind]. rewrite WD, WP1. reflexivity.
      * destruct E as [E|E]; [discriminate|]. cbn [hd] in E. eexists r1, c1, _, false, _. split; [|split; [right; right; auto|exact WR]].
        cbn [app set_loop]. fold (member invert set x). rewrite WP, FX, STS. cbn [negb andb bind]. rewrite WD, WP1. destruct r1; cbn [set_loop]; fold (member invert set c1); rewrite E, andb_false_r; reflexivity.
    + assert (NW : w = Some 1) by (destruct w as [k|]; [specialize (W k eq_refl); cbn in WP1; apply Z.ltb_ge in WP1; f_equal; lia|discriminate]).
      eexists rest, x, n, false, _. split; [|split; [left; auto|exact WR]]. cbn [app]. destruct rest; cbn [set_loop]; fold (member invert set x); rewrite WP, FX, STS; cbn [negb andb bind]; rewrite WD, WP1; reflexivity.
  - assert (L2 : len (x :: y :: t) = 1 + len (y :: t)) by (rewrite len_cons; lia). pose proof (len_nonneg t) as LT. assert (L3 : len (y :: t) = 1 + len t) by (rewrite len_cons; lia).
    assert (WP : wpos w = true) by (destruct w as [k|]; [specialize (W k eq_refl); cbn; apply Z.ltb_lt; lia|reflexivity]).
    assert (WD : wdec w = wsub w 1) by (destruct w; reflexivity).
    assert (WP1 : wpos (wsub w 1) = true) by (destruct w as [k|]; [specialize (W k eq_refl); cbn; apply Z.ltb_lt; lia|reflexivity]).
    destruct (IH y rest (n + 1) (wsub w 1) (if store then upd m p x else m) (p + if store then 1 else 0) (if store then true else b)) as (i1 & c1 & n1 & eof & m1 & E1 & LI & WR).
    + exact FT.
    + intros k K. destruct w as [k0|]; [|discriminate]. injection K as <-. specialize (W k0 eq_refl). lia.
    + destruct E as [->|E]; [left; cbn; f_equal; lia|right; exact E].
    + pose proof (mapped_tail store m p x (y :: t) M) as MT. destruct store; [exact MT|]. intros z Z0. lia.
    + assert (WR0 : wrote store (if store then upd m p x else m) m1 (p + 1) (y :: t)) by (destruct store; exact WR).
      destruct (wrote_cons store m p x (y :: t) m1 M WR0) as (ST & WR').
      assert (STS : (if store then m0 <- st m p x ;; Ok (m0, p + 1, true) else Ok (m, p, b)) =
        Ok ((if store then upd m p x else m), p + (if store then 1 else 0), if store then true else b)).
      { destruct store; [rewrite ST; reflexivity|rewrite Z.add_0_r; reflexivity]. }
      exists i1, c1, n1, eof, m1. split; [|split; [|exact WR']].
      * cbn [app set_loop]. fold (member invert set x). rewrite WP, FX, STS. cbn [negb andb bind]. rewrite WD, WP1. cbn [app set_loop] in E1. rewrite E1. rewrite wsub_wsub, L2.
        destruct store; rewrite <- Z.add_assoc; reflexivity.
      * assert (EQ : wsub w 1 = Some (len (y :: t)) <-> w = Some (len (x :: y :: t))).
        { destruct w as [k|]; cbn [wsub]; split; intro H; try discriminate; injection H as H; f_equal; lia. }
        unfold left_is in *. rewrite EQ in LI. exact LI.
Qed.
(* %c with a width *)
Lemma chr_loop_ok (store : bool) t : forall x rest n m p, mapped m p (if store then len (x :: t) else 0) ->
  exists n1 c1 m1, chr_loop (length (x :: t)) store (t ++ rest) x n (Some (len (x :: t))) m p = Ok (rest, c1, n1, Some 0, false, m1) /\ wrote store m m1 p (x :: t).
Proof.
  induction t as [|y t IH]; intros x rest n m p M.
  - assert (S1 : wrote store (if store then upd m p x else m) (if store then upd m p x else m) (p + 1) []) by (destruct store; [apply stored_nil|reflexivity]).
    destruct (wrote_cons store m p x [] _ M S1) as (ST & WR). eexists n, x, _. split; [|exact WR]. cbn [length chr_loop app]. rewrite ST. reflexivity.
  - destruct (IH y rest (n + 1) (if store then upd m p x else m) (p + 1) (mapped_tail store m p x (y :: t) M)) as (n1 & c1 & m1 & E & WR).
    destruct (wrote_cons store m p x (y :: t) m1 M WR) as (ST & WR'). exists n1, c1, m1. split; [|exact WR'].
    change (length (x :: y :: t)) with (S (length (y :: t))). cbn [chr_loop]. rewrite ST. cbn [bind]. 
    assert (WD : wdec (Some (len (x :: y :: t))) = Some (len (y :: t))) by (cbn [wdec]; f_equal; rewrite (len_cons x); lia).
    rewrite WD. assert (WP : wpos (Some (len (y :: t))) = true) by (cbn; apply Z.ltb_lt; rewrite len_cons; pose proof (len_nonneg t); lia). rewrite WP. cbn [app]. exact E.
Qed.
(* the scanlist *)
Definition set_tail (items : list sitem) (dash : bool) : list Z := concat (map sitem_text items) ++ (if dash then [45] else []) ++ [93].
Lemma from_to_in k : forall a x, In x (from_to k a) <-> a <= x < a + Z.of_nat k.
Proof. induction k as [|k IH]; intros a x; cbn [from_to In]; [lia|]. rewrite IH. lia. Qed.
Lemma scan_set_ok items (dash : bool) : forall c F acc fuel, Forall good_item items -> c <> 45 -> (length (set_tail items dash) < fuel)%nat ->
  exists set, scan_set fuel c (set_tail items dash ++ F) acc = Ok (acc ++ set, F) /\ forall x, In x set <-> x = c \/ listed items dash x.
Proof.
  induction items as [|i items IH]; intros c F acc fuel G NC L.
  - destruct fuel as [|fuel]; [lia|]. destruct dash; cbn in L; cbn [set_tail map concat app].
    + destruct (Z.eq_dec c 93) as [->|N].
      * exists [93; 45]. destruct fuel as [|fuel]; [lia|]. cbn -[Z.eq_dec]. split; [rewrite <- app_assoc; reflexivity|]. intro x. unfold listed. cbn. rewrite Exists_nil. intuition lia.
      * exists [c; 45]. cbn. destruct (Z.eqb_spec c 93); [contradiction|]. split; [rewrite <- app_assoc; reflexivity|]. intro x. unfold listed. rewrite Exists_nil. intuition lia.
    + exists [c]. split; [reflexivity|]. intro x. unfold listed. cbn. rewrite Exists_nil. intuition (try lia; discriminate).
  - inversion G as [|? ? GI GR]; subst. destruct fuel as [|fuel]; [lia|].
    unfold set_tail in L. cbn [map concat] in L. rewrite !app_length in L. destruct i as [a|a b]; cbn [sitem_text length] in L.
    + destruct GI as (_ & A1 & A2).
      destruct (IH a F (acc ++ [c]) fuel GR A1) as (set & E & S); [unfold set_tail; rewrite !app_length; cbn [length] in *; lia|].
      exists (c :: set). split.
      * cbn [set_tail map concat sitem_text app scan_set nc]. unfold set_tail. cbn [map concat sitem_text app nc].
        destruct (Z.eqb_spec a 45); [contradiction|]. destruct (Z.eqb_spec a 93); [contradiction|]. unfold set_tail in E. rewrite E. rewrite <- app_assoc. reflexivity.
      * intro x. cbn [In]. rewrite S. unfold listed. rewrite Exists_cons. intuition.
    + destruct GI as ((_ & A1 & A2) & (_ & B1 & B2) & AB). destruct fuel as [|fuel]; [lia|].
      destruct (IH b F ((acc ++ [c]) ++ [a] ++ from_to (Z.to_nat (b - (a + 1))) (a + 1)) fuel GR B1) as (set & E & S); [unfold set_tail; rewrite !app_length; cbn [length] in *; lia|].
      exists (c :: a :: from_to (Z.to_nat (b - (a + 1))) (a + 1) ++ set). split.
      * unfold set_tail in *. cbn [map concat sitem_text app scan_set nc].
        destruct (Z.eqb_spec a 45); [contradiction|]. destruct (Z.eqb_spec a 93); [contradiction|]. cbn [Z.eqb Pos.eqb].
        destruct (Z.eqb_spec b 93); [contradiction|]. rewrite <- !app_assoc in E |- *. cbn [app] in E |- *. rewrite E. rewrite <- ?app_assoc. cbn [app]. rewrite <- ?app_assoc. reflexivity.
      * intro x. cbn [In]. rewrite in_app_iff, S, from_to_in. unfold listed. rewrite Exists_cons.
        split; [intros [H|[H|[H|[H|[H|H]]]]]; intuition lia|intros [H|[[H|H]|H]]; auto; try tauto].
        destruct (Z.eq_dec x a); [auto|]. destruct (Z.eq_dec x b); [auto|]. right. right. left. lia.
Qed.
Definition body (fuel : nat) (s : sst) (c : Z) (ig : bool) (w : option Z) (f : list Z) : res (step * option Z * bool * list Z) :=
  if c =? 115 then '(st, w, eof) <- scan_str s ig w ;; Ok (st, w, eof, f)
  else if c =? 99 then '(st, w, eof) <- scan_chr s ig w ;; Ok (st, w, eof, f)
  else scan_list fuel s f ig w.
Lemma conv_parse fuel s (ig : bool) wd c F : c = 115 \/ c = 99 \/ c = 91 -> good_width wd ->
  scan_conv fuel s ((if ig then [42] else []) ++ map (fun d => 48 + d) wd ++ c :: F) =
  match mr_keep s with
  | Ret v m => Ok (Ret v m, F)
  | Go s =>
      '(st, w, eof, F) <- body fuel s c ig (width wd) F ;;
      match st with
      | Ret v m => Ok (Ret v m, F)
      | Go s => if eof : bool then Ok (Ret (mt s) (mm s), F)
                else if negb (match w with Some n => n =? 0 | None => false end) then Ok (Go (set_skip true s), F) else Ok (Go s, F)
      end
  end.
Proof.
  intros IC (FW & WB). set (T := c :: F).
  assert (TH : T <> [] /\ is_dec (hd 0 T) = false /\ hd 0 T <> 42 /\ T = hd 0 T :: tl T).
  { unfold T. cbn. repeat split; try discriminate; try lia; unfold is_dec; lia. }
  destruct TH as (T1 & T2 & T3 & T4).
  destruct (map (fun d => 48 + d) wd ++ T) as [|c1 f1] eqn:E1; [destruct wd; [cbn in E1; congruence|discriminate]|].
  assert (C42 : c1 <> 42).
  { destruct wd as [|d wd]; [cbn in E1; rewrite T4 in E1; injection E1 as <- _; exact T3|]. cbn in E1. injection E1 as <- _. inversion FW; subst. lia. }
  assert (WD : width_digits f1 c1 [] = (wd, hd 0 T, tl T)) by (apply (width_digits_ok wd T c1 f1 []); auto).
  assert (WO : width_of wd = Some (width wd)).
  { unfold width_of, width. destruct wd; [reflexivity|]. specialize (WB ltac:(discriminate)). change two64 with (2 ^ 64). destruct (Z.ltb_spec (dvalue 10 (z :: wd)) (2 ^ 64)); [reflexivity|lia]. }
  assert (PS : pop_size (hd 0 T :: tl T) IInt = (IInt, c :: F)).
  { rewrite <- T4. apply (pop_size_spec IInt (c :: F)). cbn. lia. }
  assert (NC : (let (c2, f2) := nc ((if ig then [42] else []) ++ c1 :: f1) in (c2 =? 42, if c2 =? 42 then nc f2 else (c2, f2))) = (ig, (c1, f1))).
  { destruct ig; cbn [app nc]; [reflexivity|]. destruct (Z.eqb_spec c1 42); [contradiction|reflexivity]. }
  unfold scan_conv. destruct (nc ((if ig then [42] else []) ++ c1 :: f1)) as [c2 f2]. injection NC as N1 N2. rewrite N1 in *. rewrite N2.
  rewrite WD, WO, PS. cbn [nc].
  assert (C1 : c =? 110 = false /\ c =? 37 = false /\ is_num_conv c = false /\ is_float_conv c = false).
  { destruct IC as [->|[->| ->]]; repeat split. }
  destruct C1 as (C1 & C2 & C3 & C4). unfold start. rewrite C1, C2, C3, C4. destruct (mr_keep s) as [s1|v m]; [|reflexivity].
  assert (BD : (if c =? 115 then '(st, w, eof) <- scan_str s1 ig (width wd) ;; Ok (st, w, eof, F)
               else if c =? 99 then '(st, w, eof) <- scan_chr s1 ig (width wd) ;; Ok (st, w, eof, F)
               else if c =? 91 then scan_list fuel s1 F ig (width wd)
               else Ok (Ret (-1) (mm s1), width wd, false, F)) = body fuel s1 c ig (width wd) F).
  { unfold body. destruct IC as [->|[->| ->]]; reflexivity. }
  rewrite BD. destruct (body fuel s1 c ig (width wd) F) as [[[[st w] eof] F']| | |]; cbn [bind]; try reflexivity.
  destruct st; [|reflexivity]. destruct eof; [reflexivity|]. cbn [negb]. rewrite andb_true_r. reflexivity.
Qed.
(* what a conversion has done: [last]: nothing follows *)
Definition did (s : sst) (ig : bool) (p : Z) (bytes rest : list Z) (fresh : bool) (args : list Z) (last : bool) (r : step) : Prop :=
  exists m', (if ig then m' = mm s else stored (mm s) m' p bytes) /\
  ((exists s', r = Go s' /\ mm s' = m' /\ mt s' = mt s + (if ig then 0 else 1) /\ ap s' = args /\ (last = true \/ holds s' rest fresh)) \/
   (last = true /\ r = Ret (mt s + (if ig then 0 else 1)) m')).
Lemma wide_pos wd n : good_width wd -> width wd = Some n -> 0 < n.
Proof. intros (_ & W) E. destruct wd; [discriminate|]. injection E as <-. apply W. discriminate. Qed.

Lemma word_did fuel s (ig : bool) wd p u w t rest fresh args (last : bool) F :
  good_width wd -> holds s u fresh -> u = w ++ t ++ rest -> ascii u -> Forall isspace w -> t <> [] -> Forall (fun c => ~ isspace c) t ->
  (forall n, width wd = Some n -> len t <= n) -> (width wd = Some (len t) \/ rest = [] \/ isspace (hd 0 rest)) ->
  (last = true \/ (rest <> [] /\ width wd <> Some (len t))) ->
  ap s = (if ig then [] else [p]) ++ args -> mapped (mm s) p (if ig then 0 else len (t ++ [0])) ->
  exists r, scan_conv fuel s ((if ig then [42] else []) ++ map (fun d => 48 + d) wd ++ 115 :: F) = Ok (r, F) /\ did s ig p (t ++ [0]) rest false args last r.
Proof.
  intros GW HO -> A W TN TS WL E L AP M. rewrite conv_parse by auto. destruct t as [|x t]; [contradiction|].
  destruct (keep_ok s (w ++ (x :: t) ++ rest) fresh HO) as (s1 & K & CI & SK & MT & MM & AA); [destruct w; discriminate|]. rewrite K.
  assert (A' := A). apply Forall_app in A'. destruct A' as (_ & A'). apply Forall_app in A'. destruct A' as (AT & AR).
  assert (NWS : forall c, 0 < c < 128 -> ~ isspace c -> ws c = false) by (intros c C N; destruct (ws c) eqn:Q; [elim N; apply ws_iff; auto|reflexivity]).
  assert (TW : Forall (fun c => ws c = false) (x :: t)).
  { rewrite Forall_forall in *. intros c I. apply NWS; [apply AT; exact I|apply TS; exact I]. }
  cbn [app] in CI. destruct (white_ok s1 w x (t ++ rest) CI W) as (n & WH); [exact A|inversion TW; assumption|].
  unfold body. cbn [Z.eqb Pos.eqb]. unfold scan_str. rewrite WH. cbn [inp ch cnt skip mt mm ap].
  assert (POP : (if ig then Ok (0, SS (t ++ rest) x (skip s1) n (mt s1) (mm s1) (ap s1)) else pop_ap (SS (t ++ rest) x (skip s1) n (mt s1) (mm s1) (ap s1))) =
    Ok (if ig then 0 else p, SS (t ++ rest) x (skip s1) n (mt s1) (mm s1) args)).
  { rewrite AA, AP. destruct ig; reflexivity. }
  rewrite POP. cbn [bind inp ch cnt skip mt mm ap].
  assert (E' : width wd = Some (len (x :: t)) \/ rest = [] \/ ws (hd 0 rest) = true).
  { destruct E as [E|[E|E]]; auto. destruct rest as [|y rest]; [auto|]. right; right. inversion AR; subst. apply ws_iff; auto. }
  rewrite len_app in M. change (len [0]) with 1 in M.
  destruct (str_loop_ok (negb ig) t x rest n (width wd) (mm s1) (if ig then 0 else p)) as (i1 & c1 & n1 & eof & m1 & SL & LI & WR); auto.
  { rewrite MM. destruct ig; cbn [negb]; [intros z Z0; lia|]. intros z Z0. apply M. lia. }
  rewrite SL. cbn [bind inp ch cnt skip mt mm ap].
  set (s2 := SS i1 c1 (skip s1) n1 (mt s1) m1 args).
  set (s3 := match wsub (width wd) (len (x :: t)) with Some n => if n =? 0 then match rd s2 with Some s => s | None => s2 end else s2 | None => s2 end).
  assert (S3 : mm s3 = m1 /\ mt s3 = mt s /\ ap s3 = args).
  { unfold s3. destruct (wsub (width wd) (len (x :: t))) as [n0|]; [destruct (n0 =? 0)|]; try (cbn; rewrite MT; auto; fail). unfold rd, s2. cbn. destruct i1; cbn; rewrite MT; auto. }
  destruct S3 as (S31 & S32 & S33).
  assert (FIN : exists m', (if ig then Ok (Go s3, wsub (width wd) (len (x :: t)), eof)
      else m <- st (mm s3) ((if ig then 0 else p) + len (x :: t)) 0 ;; Ok (Go (inc (SS (inp s3) (ch s3) (skip s3) (cnt s3) (mt s3) m (ap s3))), wsub (width wd) (len (x :: t)), eof)) =
    Ok (Go (SS (inp s3) (ch s3) (skip s3) (cnt s3) (mt s + if ig then 0 else 1) m' args), wsub (width wd) (len (x :: t)), eof) /\
    (if ig then m' = mm s else stored (mm s) m' p ((x :: t) ++ [0]))).
  { destruct ig; cbn [negb wrote] in WR.
    - exists m1. split; [|congruence]. rewrite Z.add_0_r, <- S32, <- S31, <- S33. destruct s3; reflexivity.
    - rewrite S31. rewrite MM in WR. unfold st. pose proof (stored_mapped _ _ _ _ p (len (x :: t) + 1) WR M) as MP.
      destruct (MP (p + len (x :: t))) as (b & X); [pose proof (len_nonneg (x :: t)); lia|].
      rewrite X. cbn [bind]. eexists. split; [rewrite S33; unfold inc; cbn; rewrite S32; reflexivity|].
      eapply stored_snoc; [exact WR|reflexivity]. }
  destruct FIN as (m' & FIN & ST). rewrite FIN. cbn [bind mt mm].
  destruct LI as [(LW & LI & ->)|[(LW & LR & ->)|(LW & LR & ->)]].
  - destruct L as [L|(_ & L)]; [|contradiction]. rewrite LW. cbn [wsub]. rewrite Z.sub_diag. cbn [Z.eqb negb].
    eexists. split; [reflexivity|]. exists m'. split; [exact ST|]. left. eexists. split; [reflexivity|]. cbn. auto.
  - eexists. split; [reflexivity|]. exists m'. split; [exact ST|]. right. split; [|reflexivity]. destruct L as [L|(L & _)]; [exact L|contradiction].
  - assert (W0 : (match wsub (width wd) (len (x :: t)) with Some n0 => n0 =? 0 | None => false end) = false).
    { destruct (width wd) as [n0|]; [|reflexivity]. cbn [wsub]. destruct (Z.eqb_spec (n0 - len (x :: t)) 0); [|reflexivity]. exfalso. apply LW. f_equal. lia. }
    assert (S3E : s3 = s2).
    { unfold s3. destruct (wsub (width wd) (len (x :: t))); [rewrite W0|]; reflexivity. }
    rewrite W0. cbn [negb]. eexists. split; [reflexivity|]. exists m'. split; [exact ST|]. left. eexists. split; [reflexivity|]. cbn.
    split; [reflexivity|]. split; [reflexivity|]. split; [reflexivity|]. right. rewrite S3E. split; [discriminate|]. right. cbn. auto.
Qed.
Lemma chars_did fuel s (ig : bool) wd p u t rest fresh args (last : bool) F :
  good_width wd -> holds s u fresh -> u = t ++ rest -> len t = match width wd with Some n => n | None => 1 end ->
  (wd = [] -> rest <> [] \/ last = true) -> (wd <> [] -> fresh = true \/ last = true) ->
  ap s = (if ig then [] else [p]) ++ args -> mapped (mm s) p (if ig then 0 else len t) ->
  exists r, scan_conv fuel s ((if ig then [42] else []) ++ map (fun d => 48 + d) wd ++ 99 :: F) = Ok (r, F) /\
    did s ig p t rest (match wd with [] => false | _ => fresh end) args last r.
Proof.
  intros GW HO -> LT U1 U2 AP M. rewrite conv_parse by auto.
  assert (L0 : 0 < len t). { rewrite LT. destruct (width wd) as [n|] eqn:EW; [apply (wide_pos wd n GW EW)|lia]. }
  destruct t as [|x t]; [change (len (@nil Z)) with 0 in L0; lia|].
  destruct (keep_ok s ((x :: t) ++ rest) fresh HO) as (s1 & K & CI & SK & MT & MM & AA); [discriminate|]. rewrite K.
  cbn [app] in CI. injection CI as CH IN. unfold body. cbn [Z.eqb Pos.eqb]. unfold scan_chr.
  assert (POP : (if ig then Ok (0, s1) else pop_ap s1) = Ok (if ig then 0 else p, SS (inp s1) (ch s1) (skip s1) (cnt s1) (mt s1) (mm s1) args)).
  { unfold pop_ap. rewrite AA, AP. destruct ig; [|reflexivity]. cbn [app]. destruct s1; cbn in *; congruence. }
  rewrite POP. cbn [bind inp ch cnt skip mt mm ap]. rewrite CH, IN, MM, MT.
  assert (M' : mapped (mm s) (if ig then 0 else p) (if negb ig then len (x :: t) else 0)) by (destruct ig; [intros z Z0; cbn in Z0; lia|exact M]).
  destruct wd as [|d wd].
  - cbn [width] in *. assert (t = []) by (destruct t; [reflexivity|rewrite !len_cons in LT; pose proof (len_nonneg t); lia]). subst t.
    assert (S1 : wrote (negb ig) (if negb ig then upd (mm s) (if ig then 0 else p) x else mm s) (if negb ig then upd (mm s) (if ig then 0 else p) x else mm s) ((if ig then 0 else p) + 1) []).
    { destruct ig; [reflexivity|apply stored_nil]. }
    destruct (wrote_cons (negb ig) (mm s) (if ig then 0 else p) x [] _ M' S1) as (ST & WR).
    change (Z.to_nat 1) with 1%nat. cbn [app chr_loop]. rewrite ST. cbn [bind wdec wpos]. set (m1 := if negb ig then upd (mm s) (if ig then 0 else p) x else mm s) in *.
    assert (STO : if ig then m1 = mm s else stored (mm s) m1 p [x]) by (unfold m1; destruct ig; exact WR).
    specialize (U1 eq_refl). destruct rest as [|y rest].
    + destruct U1 as [U1|U1]; [congruence|]. cbn [bind]. eexists. split; [reflexivity|]. exists m1. split; [exact STO|]. right. split; [exact U1|].
      f_equal; destruct ig; unfold inc; cbn; try reflexivity; lia.
    + cbn [bind negb]. eexists. split; [reflexivity|]. exists m1. split; [exact STO|]. left. eexists. split; [reflexivity|].
      split; [destruct ig; reflexivity|]. split; [destruct ig; unfold set_skip, inc; cbn; lia|]. split; [destruct ig; reflexivity|]. right. split; [discriminate|]. right. destruct ig; cbn; auto.
  - cbn [width] in *. assert (LN : Z.to_nat (dvalue 10 (d :: wd)) = length (x :: t)) by (rewrite <- LT; unfold len; apply Nat2Z.id). rewrite LN, <- LT.
    destruct (chr_loop_ok (negb ig) t x rest (cnt s1) (mm s) (if ig then 0 else p) M') as (n1 & c1 & m1 & E & WR). rewrite E. cbn [bind Z.eqb negb].
    assert (STO : if ig then m1 = mm s else stored (mm s) m1 p (x :: t)) by (destruct ig; exact WR).
    eexists. split; [reflexivity|]. exists m1. split; [exact STO|]. left. eexists. split; [reflexivity|].
    split; [destruct ig; reflexivity|]. split; [destruct ig; unfold inc; cbn; lia|]. split; [destruct ig; reflexivity|].
    destruct (U2 ltac:(discriminate)) as [->|U]; [|left; exact U]. right. assert (S0 : skip s1 = false) by (rewrite SK; apply HO; reflexivity).
    split; [intros _; destruct ig; exact S0|]. left. destruct ig; cbn; auto.
Qed.
Lemma set_did fuel s (ig : bool) wd neg items dash p u t rest fresh args (last : bool) F :
  good_width wd -> good_set neg items -> (length (set_tail items dash) < fuel)%nat -> holds s u fresh -> u = t ++ rest -> t <> [] -> Forall (in_set neg items dash) t ->
  (forall n, width wd = Some n -> len t <= n) -> (width wd = Some (len t) \/ rest = [] \/ ~ in_set neg items dash (hd 0 rest)) ->
  (width wd = Some (len t) -> fresh = true \/ last = true) -> (width wd <> Some (len t) -> rest <> [] \/ last = true) ->
  ap s = (if ig then [] else [p]) ++ args -> mapped (mm s) p (if ig then 0 else len (t ++ [0])) ->
  exists r, scan_conv fuel s ((if ig then [42] else []) ++ map (fun d => 48 + d) wd ++ 91 :: (if neg then [94] else []) ++ set_tail items dash ++ F) = Ok (r, F) /\
    did s ig p (t ++ [0]) rest (if match width wd with Some n => n =? len t | None => false end then fresh else false) args last r.
Proof.
  intros GW GS FU HO -> TN TS WL E U1 U2 AP M. rewrite conv_parse by auto. destruct t as [|x t]; [contradiction|].
  destruct (keep_ok s ((x :: t) ++ rest) fresh HO) as (s1 & K & CI & SK & MT & MM & AA); [discriminate|]. rewrite K.
  cbn [app] in CI. injection CI as CH IN. unfold body. cbn [Z.eqb Pos.eqb]. unfold scan_list.
  assert (SET : exists c f set, (let (c, f) := nc ((if neg then [94] else []) ++ set_tail items dash ++ F) in (c =? 94, if c =? 94 then nc f else (c, f))) = (neg, (c, f)) /\
    scan_set fuel c f [] = Ok (set, F) /\ forall x, In x set <-> listed items dash x).
  { destruct items as [|i items]; [destruct GS|]. destruct GS as (G1 & G2 & G3).
    assert (TX : set_tail (i :: items) dash = sitem_text i ++ set_tail items dash) by (unfold set_tail; cbn [map concat]; rewrite <- app_assoc; reflexivity).
    rewrite TX in *. rewrite app_length in FU. 
    assert (NCX : exists f, (let (c, f) := nc ((if neg then [94] else []) ++ (sitem_text i ++ set_tail items dash) ++ F) in (c =? 94, if c =? 94 then nc f else (c, f))) = (neg, (hd 0 (sitem_text i), f)) /\
      hd 0 (sitem_text i) :: f = sitem_text i ++ set_tail items dash ++ F).
    { rewrite <- app_assoc. assert (N0 : exists c r, sitem_text i = c :: r) by (destruct i; cbn; eauto). destruct N0 as (c & r & N0). rewrite N0 in *. cbn [hd app] in *. exists (r ++ set_tail items dash ++ F).
      split; [|reflexivity]. destruct neg; cbn [app nc]; [reflexivity|]. specialize (G3 eq_refl). destruct (Z.eqb_spec c 94); [contradiction|reflexivity]. }
    destruct NCX as (f & N1 & N2). exists (hd 0 (sitem_text i)), f. 
    destruct i as [a|a b]; cbn [sitem_text hd app length] in *.
    - injection N2 as N2. subst f. assert (NA : a <> 45) by (destruct G1 as [[= ->]|(_ & G1 & _)]; [lia|exact G1]).
      destruct (scan_set_ok items dash a F [] fuel G2 NA) as (set & SE & SI); [lia|]. exists set. split; [exact N1|]. split; [exact SE|].
      intro y. rewrite SI. unfold listed. rewrite Exists_cons. tauto.
    - injection N2 as N2. destruct G1 as [G1|G1]; [discriminate|]. subst f. destruct G1 as ((_ & A1 & A2) & (_ & B1 & B2) & AB). destruct fuel as [|fuel]; [lia|].
      destruct (scan_set_ok items dash b F ([a] ++ from_to (Z.to_nat (b - (a + 1))) (a + 1)) fuel G2 B1) as (set & SE & SI); [lia|].
      exists ([a] ++ from_to (Z.to_nat (b - (a + 1))) (a + 1) ++ set). split; [exact N1|]. split.
      + cbn [scan_set app nc Z.eqb Pos.eqb]. destruct (Z.eqb_spec a 93); [contradiction|]. destruct (Z.eqb_spec b 93); [contradiction|]. cbn [app] in SE. rewrite SE. reflexivity.
      + intro y. cbn [app In]. rewrite in_app_iff, from_to_in, SI. unfold listed. rewrite Exists_cons.
        split; [intros [H|[H|[H|[H|H]]]]; intuition lia|intros [[H|H]|H]; auto]. destruct (Z.eq_dec y a); [auto|]. destruct (Z.eq_dec y b); [auto|]. right. left. lia. }
  destruct SET as (c0 & f0 & set & NC & SS0 & SI).
  destruct (nc ((if neg then [94] else []) ++ set_tail items dash ++ F)) as [c2 f2]. injection NC as N1 N2. rewrite N1 in *. rewrite N2, SS0. cbn [bind].
  assert (POP : (if ig then Ok (0, s1) else pop_ap s1) = Ok (if ig then 0 else p, SS (inp s1) (ch s1) (skip s1) (cnt s1) (mt s1) (mm s1) args)).
  { unfold pop_ap. rewrite AA, AP. destruct ig; [|reflexivity]. cbn [app]. destruct s1; cbn in *; congruence. }
  rewrite POP. cbn [bind inp ch cnt skip mt mm ap]. rewrite CH, IN, MM, MT.
  assert (MEM : forall c, member neg set c = true <-> in_set neg items dash c).
  { intro c. unfold member, in_set. specialize (SI c). assert (X : existsb (Z.eqb c) set = true <-> In c set).
    { rewrite existsb_exists. split; [intros (y & I & Q); apply Z.eqb_eq in Q; subst; exact I|intro I; exists c; split; [exact I|apply Z.eqb_refl]]. }
    destruct (existsb (Z.eqb c) set), neg; cbn; intuition discriminate. }
  rewrite len_app in M. change (len [0]) with 1 in M.
  destruct (set_loop_ok (negb ig) neg set t x rest (cnt s1) (width wd) (mm s) (if ig then 0 else p) false) as (i1 & c1 & n1 & eof & m1 & SL & LI & WR).
  { eapply Forall_impl; [|exact TS]. intros c I. apply MEM. exact I. }
  { exact WL. }
  { destruct E as [E|[E|E]]; auto. right; right. destruct (member neg set (hd 0 rest)) eqn:Q; [elim E; apply MEM; exact Q|reflexivity]. }
  { destruct ig; cbn [negb]; [intros z Z0; lia|]. intros z Z0. apply M. lia. }
  rewrite SL. cbn [bind inp ch cnt skip mt mm ap].
  assert (FIN : exists m', (if (if negb ig then true else false) : bool
      then m <- st m1 ((if ig then 0 else p) + (if negb ig then len (x :: t) else 0)) 0 ;; Ok (Go (inc (SS i1 c1 (skip s1) n1 (mt s) m args)), wsub (width wd) (len (x :: t)), eof, F)
      else Ok (Go (SS i1 c1 (skip s1) n1 (mt s) m1 args), wsub (width wd) (len (x :: t)), eof, F)) =
    Ok (Go (SS i1 c1 (skip s1) n1 (mt s + if ig then 0 else 1) m' args), wsub (width wd) (len (x :: t)), eof, F) /\
    (if ig then m' = mm s else stored (mm s) m' p ((x :: t) ++ [0]))).
  { destruct ig; cbn [negb wrote] in *.
    - exists m1. split; [rewrite Z.add_0_r; reflexivity|exact WR].
    - unfold st. pose proof (stored_mapped _ _ _ _ p (len (x :: t) + 1) WR M) as MP.
      destruct (MP (p + len (x :: t))) as (b & X); [pose proof (len_nonneg (x :: t)); lia|].
      rewrite X. cbn [bind]. eexists. split; [reflexivity|]. eapply stored_snoc; [exact WR|reflexivity]. }
  destruct FIN as (m' & FIN & ST). rewrite FIN. cbn [bind mt mm].
  assert (SK1 : skip s1 = skip s) by exact SK.
  destruct LI as [(LW & LI & ->)|[(LW & LR & ->)|(LW & LR & ->)]].
  - rewrite LW. cbn [wsub]. rewrite Z.sub_diag, Z.eqb_refl. cbn [Z.eqb negb]. eexists. split; [reflexivity|]. exists m'. split; [exact ST|]. left. eexists. split; [reflexivity|]. cbn.
    split; [reflexivity|]. split; [reflexivity|]. split; [reflexivity|]. destruct (U1 LW) as [->|U]; [|left; exact U]. right.
    assert (S0 : skip s1 = false) by (rewrite SK; apply HO; reflexivity). split; [intros _; exact S0|]. left. cbn. auto.
  - eexists. split; [reflexivity|]. exists m'. split; [exact ST|]. right. split; [|reflexivity]. destruct (U2 LW) as [U|U]; [contradiction|exact U].
  - assert (W0 : (match wsub (width wd) (len (x :: t)) with Some n0 => n0 =? 0 | None => false end) = false).
    { destruct (width wd) as [n0|]; [|reflexivity]. cbn [wsub]. destruct (Z.eqb_spec (n0 - len (x :: t)) 0); [|reflexivity]. exfalso. apply LW. f_equal. lia. }
    assert (W3 : (match width wd with Some n0 => n0 =? len (x :: t) | None => false end) = false).
    { destruct (width wd) as [n0|]; [|reflexivity]. destruct (Z.eqb_spec n0 (len (x :: t))); [|reflexivity]. exfalso. apply LW. f_equal. lia. }
    rewrite W0, W3. cbn [negb]. eexists. split; [reflexivity|]. exists m'. split; [exact ST|]. left. eexists. split; [reflexivity|]. cbn.
    split; [reflexivity|]. split; [reflexivity|]. split; [reflexivity|]. right. split; [discriminate|]. right. cbn. auto.
Qed.

Lemma percent_did fuel s u w rest fresh (last : bool) F : holds s u fresh -> u = w ++ 37 :: rest -> ascii u -> Forall isspace w ->
  (rest <> [] \/ last = true) ->
  exists r, scan_conv fuel s (37 :: F) = Ok (r, F) /\ did s true 0 [] rest false (ap s) last r.
Proof.
  intros HO -> A W U. destruct (keep_ok s (w ++ 37 :: rest) fresh HO) as (s1 & K & CI & SK & MT & MM & AA); [destruct w; discriminate|].
  destruct (white_ok s1 w 37 rest CI W A eq_refl) as (n & WH).
  unfold scan_conv. cbn [nc Z.eqb Pos.eqb]. assert (WDX : width_digits F 37 [] = ([], 37, F)) by (destruct F; reflexivity). rewrite WDX.
  cbn [width_of]. assert (PS : pop_size (37 :: F) IInt = (IInt, 37 :: F)) by (apply (pop_size_spec IInt (37 :: F)); cbn; lia). rewrite PS. cbn [nc].
  unfold start. cbn [Z.eqb Pos.eqb]. rewrite K, WH. cbn [ch Z.eqb Pos.eqb negb]. unfold rd. cbn [inp]. destruct rest as [|y rest].
  - destruct U as [U|U]; [congruence|]. cbn [bind mt mm]. eexists. split; [reflexivity|]. exists (mm s). split; [reflexivity|]. right. split; [exact U|]. rewrite MT, MM, Z.add_0_r. reflexivity.
  - cbn [bind negb andb Z.eqb Pos.eqb]. eexists. split; [reflexivity|]. exists (mm s). split; [reflexivity|]. left. eexists. split; [reflexivity|]. cbn.
    split; [exact MM|]. split; [lia|]. split; [exact AA|]. right. split; [discriminate|]. right. cbn. auto.
Qed.
(* going on after a conversion *)
Lemma after_did s (ig : bool) p bytes rest fresh l st fu F r :
  did s ig p bytes rest fresh (pointers l) (match l with [] => true | _ => false end) r -> F = text_of l -> ascii rest -> Forall good_directive l ->
  Forall (fun x => mapped (mm s) (fst x) (len (snd x))) ((if ig then [] else [(p, bytes)]) ++ st) -> (length F < fu)%nat ->
  (l = [] -> st = []) ->
  (forall s fuel, ascii rest -> Forall good_directive l -> holds s rest fresh -> ap s = pointers l -> Forall (fun x => mapped (mm s) (fst x) (len (snd x))) st ->
     (length (text_of l) < fuel)%nat -> exists m', scan fuel s (text_of l) = Ok (m', mt s + len st) /\ stores (mm s) st m') ->
  exists m', (match r with Ret v m => Ok (m, v) | Go s => scan fu s F end) = Ok (m', mt s + len ((if ig then [] else [(p, bytes)]) ++ st)) /\
    stores (mm s) ((if ig then [] else [(p, bytes)]) ++ st) m'.
Proof.
  intros (m1 & ST & D) -> A G MP FU LS IH.
  assert (LST : mt s + len ((if ig then [] else [(p, bytes)]) ++ st) = mt s + (if ig then 0 else 1) + len st) by (rewrite len_app; destruct ig; [change (len (@nil (Z * list Z))) with 0|change (len [(p, bytes)]) with 1]; lia).
  assert (FIN : forall m', stores m1 st m' -> stores (mm s) ((if ig then [] else [(p, bytes)]) ++ st) m').
  { intros m' S. destruct ig; [rewrite <- ST; exact S|]. cbn [app]. econstructor; [exact ST|exact S]. }
  assert (MP2 : Forall (fun y => mapped m1 (fst y) (len (snd y))) st).
  { apply Forall_app in MP. destruct MP as (_ & MP). eapply Forall_impl; [|exact MP]. intros y Hy. destruct ig; [rewrite ST; exact Hy|].
    eapply stored_mapped; [exact ST|exact Hy]. }
  rewrite LST. destruct D as [(s' & -> & M1 & M2 & M3 & HO)|(L & ->)].
  - destruct l as [|d l].
    + rewrite (LS eq_refl) in *. destruct fu as [|fu]; [cbn in FU; lia|]. exists m1. cbn [text_of map concat scan]. rewrite M1, M2. split; [change (@len (Z * list Z) []) with 0; rewrite Z.add_0_r; reflexivity|]. apply FIN. constructor.
    + destruct HO as [HO|HO]; [discriminate|]. destruct (IH s' fu A G HO M3) as (m' & E & S); [rewrite M1; exact MP2|exact FU|].
      exists m'. rewrite E, M2. split; [reflexivity|]. apply FIN. rewrite <- M1. exact S.
  - destruct l; [|discriminate]. rewrite (LS eq_refl) in *. exists m1. split; [change (@len (Z * list Z) []) with 0; rewrite Z.add_0_r; reflexivity|]. apply FIN. constructor.
Qed.
Lemma last_iff (l : list directive) : l = [] -> (match l with [] => true | _ => false end) = true.
Proof. intros ->. reflexivity. Qed.
Lemma scans_nil fresh u st : scans fresh [] u st -> st = [].
Proof. intro H. inversion H. reflexivity. Qed.

Lemma scan_ok fresh l u st : scans fresh l u st -> forall s fuel, ascii u -> Forall good_directive l -> holds s u fresh ->
  ap s = pointers l -> Forall (fun x => mapped (mm s) (fst x) (len (snd x))) st -> (length (text_of l) < fuel)%nat ->
  exists m', scan fuel s (text_of l) = Ok (m', mt s + len st) /\ stores (mm s) st m'.
Proof.
  intro H. induction H as [fresh u|fresh c l u st H IH|fresh w x u l st W NX H IH|fresh ig wd k c p l w t rest v st W IT FT PT H IH CUT UNC ZX
    |fresh l w rest st W H IH U|fresh ig wd p l w t rest st W TN TS WL E H IH U|fresh ig wd p l t rest st LT H IH U1 U2
    |fresh ig wd neg items dash p l t rest st TN TS WL E H IH U1 U2];
    intros s fuel A G HO AP MP FU; (destruct fuel as [|fu]; [lia|]).
  - exists (mm s). split; [|constructor]. cbn. change (len []) with 0. rewrite Z.add_0_r. reflexivity.
  - inversion G as [|? ? G1 G2]; subst. inversion A; subst. destruct G1 as (G37 & GS).
    change (text_of (SLit c :: l)) with (c :: text_of l) in *. cbn [length] in FU.
    cbn [scan]. destruct (Z.eqb_spec c 32) as [E|_]; [exfalso; apply GS; right; exact E|]. destruct (Z.eqb_spec c 37); [contradiction|]. cbn [negb].
    destruct (keep_ok s (c :: u) fresh HO ltac:(discriminate)) as (s1 & K & CI & SK & MT & MM & AA).
    unfold mr_reset. rewrite K. injection CI as CH IN. cbn [set_skip ch]. rewrite CH, Z.eqb_refl. cbn [bind].
    destruct (IH (set_skip false s1) fu) as (m' & E1 & E2); auto; cbn [set_skip mm ap mt skip inp] in *.
    + split; [reflexivity|left; auto].
    + rewrite AA. exact AP.
    + rewrite MM. exact MP.
    + lia.
    + exists m'. rewrite E1, MT. rewrite MM in E2. auto.
  - inversion G as [|? ? G1 G2]; subst. 
    change (text_of (SSpace :: l)) with (32 :: text_of l) in *. cbn [length] in FU.
    cbn [scan Z.eqb Pos.eqb].
    destruct (keep_ok s (w ++ x :: u) fresh HO) as (s1 & K & CI & SK & MT & MM & AA); [destruct w; discriminate|].
    rewrite K. apply Forall_app in A. destruct A as (AW & AX). inversion AX; subst.
    assert (NXW : ws x = false) by (destruct (ws x) eqn:EW; [exfalso; apply NX; apply ws_iff; auto|reflexivity]).
    destruct (white_ok s1 w x u CI W) as (n & WH); [apply Forall_app; auto|exact NXW|]. rewrite WH. cbn [bind].
    destruct (IH (set_skip true (SS u x (skip s1) n (mt s1) (mm s1) (ap s1))) fu) as (m' & E1 & E2); auto; cbn [set_skip mm ap mt skip inp ch] in *.
    + split; [discriminate|right; auto].
    + rewrite AA. exact AP.
    + rewrite MM. exact MP.
    + lia.
    + exists m'. rewrite E1, MT. rewrite MM in E2. auto.
  - inversion G as [|? ? G1 G2]; subst. destruct G1 as (IC & FW & WB).
    assert (TX : text_of (SInt ig wd k c p :: l) = 37 :: (if ig then [42] else []) ++ map (fun d => 48 + d) wd ++ modifier_text k ++ c :: text_of l).
    { unfold text_of. cbn [map concat dtext app]. rewrite <- !app_assoc. reflexivity. }
    rewrite TX in *. cbn [length] in FU. rewrite !app_length in FU. cbn [length] in FU.
    pose proof IT as (SJ & WL & _). pose proof PT as (P1 & P2 & _).
    assert (CT : constant c t v) by (inversion SJ; subst; auto; cbn in P1, P2; congruence).
    destruct (constant_nonneg c t v CT) as (V0 & TN). destruct t as [|x t]; [congruence|].
    assert (WX : ws x = false).
    { clear - CT. assert (B : exists b, base_digit b x).
      { inversion CT as [? ? ? ? D|? ? D|? ? ? ? D|? ? ? ? ? ? D|? ? ? D|? ? D|? ? ? ? D]; subst;
          try (destruct D as (_ & F & _); inversion F; subst; eauto; fail); exists 10; unfold base_digit; cbn; lia. }
      destruct B as (b & B & _). unfold ws. lia. }
    destruct (keep_ok s (w ++ (x :: t) ++ rest) fresh HO) as (s1 & K & CI & SK & MT & MM & AA); [destruct w; discriminate|].
    cbn [scan Z.eqb Pos.eqb negb]. rewrite scan_conv_parse by auto. rewrite K.
    cbn [app] in CI. destruct (white_ok s1 w x (t ++ rest) CI W) as (n & WH); [exact A|exact WX|].
    destruct (num_item c (width wd) x t rest v n (imax k ((c =? 111) || (c =? 117) || (c =? 120) || (c =? 88))) IC IT PT) as (i1 & c1 & n1 & w1 & r1 & ds & NL & VAL & W1 & RI).
    { intros X (X1 & X2). destruct (CUT X) as (_ & Q). apply Q. auto. }
    { exact ZX. }
    { apply fits_max; assumption. }
    assert (C112 : c =? 112 = false) by (unfold int_conv6 in IC; cbn [In] in IC; lia).
    assert (SI : exists s2, scan_int s1 c ig k (width wd) = Ok (Go s2, w1) /\ inp s2 = i1 /\ ch s2 = c1 /\ skip s2 = skip s /\
      mt s2 = mt s + (if ig then 0 else 1) /\ ap s2 = pointers l /\
      (if ig then mm s2 = mm s else stored (mm s) (mm s2) p (le_bytes (nbytes k) v))).
    { unfold scan_int. rewrite WH. cbn [inp ch cnt skip mt mm ap]. rewrite C112, orb_false_r. fold (radix_of c).
      unfold radix_of in NL. rewrite C112 in NL. rewrite NL. cbn zeta.
      rewrite VAL. unfold pointers in AP. cbn [map concat] in AP. fold (pointers l) in AP. destruct ig.
      - eexists. split; [reflexivity|]. cbn. rewrite SK, MT, MM, AA, AP. repeat split. lia.
      - cbn [app] in AP. unfold pop_ap. cbn [ap]. rewrite AA, AP. cbn [bind]. unfold put. cbn [mm inp ch skip cnt mt ap].
        inversion MP as [|? ? MP1 MP2]; subst. cbn [fst snd] in MP1. rewrite (fits_range k c v FT V0) in MP1.
        rewrite MM. assert (PN : psize k = nbytes k) by (destruct k; reflexivity). rewrite PN.
        destruct (st_bytes_ok (le_bytes (nbytes k) v) (mm s) p MP1) as (m1 & SB & SD). rewrite SB. cbn [bind].
        eexists. split; [reflexivity|]. cbn. rewrite SK, MT. repeat split; auto; apply SD. }
    destruct SI as (s2 & SI & I2 & C2 & K2 & M2 & A2 & ST2). rewrite SI. cbn [bind].
    assert (MP2 : Forall (fun y => mapped (mm s2) (fst y) (len (snd y))) st).
    { apply Forall_app in MP. destruct MP as (_ & MP). eapply Forall_impl; [|exact MP]. intros y Hy. destruct ig; [rewrite ST2; exact Hy|].
      eapply stored_mapped; [exact ST2|exact Hy]. }
    assert (LST : len ((if ig then [] else [(p, le_bytes (nbytes k) (v mod 256 ^ Z.of_nat (nbytes k)))]) ++ st) = (if ig then 0 else 1) + len st).
    { rewrite len_app. destruct ig; reflexivity. }
    assert (FIN : forall m', stores (mm s2) st m' ->
      stores (mm s) ((if ig then [] else [(p, le_bytes (nbytes k) (v mod 256 ^ Z.of_nat (nbytes k)))]) ++ st) m').
    { intros m' S. destruct ig; [rewrite <- ST2; exact S|]. cbn [app]. econstructor; [|exact S]. rewrite (fits_range k c v FT V0). exact ST2. }
    apply Forall_app in A. destruct A as (_ & A). cbn [app] in A. inversion A as [|? ? _ A']; subst. apply Forall_app in A'. destruct A' as (_ & AR).
    destruct RI as (RI1 & RI2).
    assert (DEC : {width wd = Some (len (x :: t))} + {width wd <> Some (len (x :: t))}) by (destruct (width wd) as [n0|]; [destruct (Z.eq_dec n0 (len (x :: t))); [left|right]; congruence|right; discriminate]).
    destruct DEC as [CT1|CT1].
    + (* cut by the width *)
      rewrite CT1 in *. cbn [wsub]. rewrite Z.sub_diag. cbn [Z.eqb negb]. destruct (CUT eq_refl) as (-> & _). rewrite Z.eqb_refl in *.
      destruct (IH s2 fu) as (m' & E1 & E2); auto.
      { split; [intros _; rewrite K2; apply HO; reflexivity|]. left. rewrite K2. split; [apply HO; reflexivity|apply RI1; reflexivity]. }
      { lia. }
      exists m'. cbn [bind]. rewrite E1. split; [|apply FIN; exact E2]. rewrite LST, M2, Z.add_assoc. reflexivity.
    + specialize (RI2 CT1). specialize (UNC CT1).
      assert (W0 : (match wsub (width wd) (len (x :: t)) with Some n0 => n0 =? 0 | None => false end) = false).
      { destruct (width wd) as [n0|]; [|reflexivity]. cbn [wsub]. destruct (Z.eqb_spec (n0 - len (x :: t)) 0); [|reflexivity]. exfalso. apply CT1. f_equal. lia. }
      rewrite W0. cbn [negb bind].
      assert (W3 : (match width wd with Some n0 => n0 =? len (x :: t) | None => false end) = false).
      { destruct (width wd) as [n0|]; [|reflexivity]. destruct (Z.eqb_spec n0 (len (x :: t))); [|reflexivity]. exfalso. apply CT1. f_equal. lia. }
      rewrite W3 in *. destruct rest as [|y rest].
      * destruct UNC as [U|U]; [congruence|]. subst l. inversion H; subst. exists (mm s2). destruct fu as [|fu]; [lia|]. cbn [scan set_skip mm mt].
        split; [rewrite LST, M2; change (@len (Z * list Z) []) with 0; rewrite Z.add_0_r; reflexivity|]. apply FIN. constructor.
      * destruct RI2 as [RI2|RI2]; [|discriminate].
        destruct (IH (set_skip true s2) fu) as (m' & E1 & E2); auto; cbn [set_skip mm ap mt skip inp ch] in *.
        { split; [discriminate|right]. split; [reflexivity|exact RI2]. }
        { lia. }
        exists m'. rewrite E1. split; [|apply FIN; exact E2]. rewrite LST, M2, Z.add_assoc. reflexivity.
  - inversion G as [|? ? G1 G2]; subst. change (text_of (SPercent :: l)) with (37 :: 37 :: text_of l) in *. cbn [length] in FU.
    assert (AR : ascii rest) by (apply Forall_app in A; destruct A as (_ & A); inversion A; assumption).
    cbn [scan Z.eqb Pos.eqb negb].
    destruct (percent_did fu s _ w rest fresh (match l with [] => true | _ => false end) (text_of l) HO eq_refl A W) as (r & E & D).
    { destruct U as [U|U]; [left; exact U|right; apply last_iff; exact U]. }
    rewrite E. cbn [bind]. apply (after_did s true 0 [] rest false l st fu (text_of l) r); auto; [change (pointers (SPercent :: l)) with (pointers l) in AP; rewrite <- AP; exact D|lia|intros ->; apply scans_nil in H; exact H].
  - inversion G as [|? ? G1 G2]; subst.
    assert (TX : text_of (SWord ig wd p :: l) = 37 :: (if ig then [42] else []) ++ map (fun d => 48 + d) wd ++ 115 :: text_of l).
    { unfold text_of. cbn [map concat dtext]. unfold spec_text. cbn [app]. rewrite <- !app_assoc. reflexivity. }
    rewrite TX in *. cbn [length] in FU. rewrite !app_length in FU. cbn [length] in FU.
    assert (AR : ascii rest) by (apply Forall_app in A; destruct A as (_ & A); apply Forall_app in A; apply A).
    cbn [scan Z.eqb Pos.eqb negb].
    destruct (word_did fu s ig wd p _ w t rest fresh (pointers l) (match l with [] => true | _ => false end) (text_of l) G1 HO eq_refl A W TN TS WL E) as (r & E1 & D).
    { destruct U as [U|U]; [left; apply last_iff; exact U|right; exact U]. }
    { rewrite AP. unfold pointers. cbn [map concat]. destruct ig; reflexivity. }
    { destruct ig; [intros z Z0; lia|]. apply Forall_app in MP. destruct MP as (MP & _). inversion MP; subst. assumption. }
    rewrite E1. cbn [bind]. apply (after_did s ig p (t ++ [0]) rest false l st fu (text_of l) r); auto; [lia|intros ->; apply scans_nil in H; exact H].
  - inversion G as [|? ? G1 G2]; subst.
    assert (TX : text_of (SChars ig wd p :: l) = 37 :: (if ig then [42] else []) ++ map (fun d => 48 + d) wd ++ 99 :: text_of l).
    { unfold text_of. cbn [map concat dtext]. unfold spec_text. cbn [app]. rewrite <- !app_assoc. reflexivity. }
    rewrite TX in *. cbn [length] in FU. rewrite !app_length in FU. cbn [length] in FU.
    assert (AR : ascii rest) by (apply Forall_app in A; apply A).
    cbn [scan Z.eqb Pos.eqb negb].
    destruct (chars_did fu s ig wd p _ t rest fresh (pointers l) (match l with [] => true | _ => false end) (text_of l) G1 HO eq_refl LT) as (r & E1 & D).
    { intro X. destruct (U1 X) as [U|U]; [left; exact U|right; apply last_iff; exact U]. }
    { intro X. destruct (U2 X) as [U|U]; [left; exact U|right; apply last_iff; exact U]. }
    { rewrite AP. unfold pointers. cbn [map concat]. destruct ig; reflexivity. }
    { destruct ig; [intros z Z0; lia|]. apply Forall_app in MP. destruct MP as (MP & _). inversion MP; subst. assumption. }
    rewrite E1. cbn [bind]. apply (after_did s ig p t rest (match wd with [] => false | _ => fresh end) l st fu (text_of l) r); auto; [lia|intros ->; apply scans_nil in H; exact H].
  - inversion G as [|? ? G1 G2]; subst. destruct G1 as (GW & GS).
    assert (TX : text_of (SSet ig wd neg items dash p :: l) = 37 :: (if ig then [42] else []) ++ map (fun d => 48 + d) wd ++ 91 :: (if neg then [94] else []) ++ set_tail items dash ++ text_of l).
    { unfold text_of, set_tail. cbn [map concat dtext]. unfold spec_text. cbn [app]. rewrite <- !app_assoc. cbn [app]. rewrite <- !app_assoc. reflexivity. }
    rewrite TX in *. cbn [length] in FU. rewrite !app_length in FU. cbn [length] in FU. rewrite !app_length in FU.
    assert (AR : ascii rest) by (apply Forall_app in A; apply A).
    cbn [scan Z.eqb Pos.eqb negb].
    destruct (set_did fu s ig wd neg items dash p _ t rest fresh (pointers l) (match l with [] => true | _ => false end) (text_of l) GW GS ltac:(lia) HO eq_refl TN TS WL E) as (r & E1 & D).
    { intro X. destruct (U1 X) as [U|U]; [left; exact U|right; apply last_iff; exact U]. }
    { intro X. destruct (U2 X) as [U|U]; [left; exact U|right; apply last_iff; exact U]. }
    { rewrite AP. unfold pointers. cbn [map concat]. destruct ig; reflexivity. }
    { destruct ig; [intros z Z0; lia|]. apply Forall_app in MP. destruct MP as (MP & _). inversion MP; subst. assumption. }
    rewrite E1. cbn [bind]. apply (after_did s ig p (t ++ [0]) rest _ l st fu (text_of l) r D); auto; [lia|intros ->; apply scans_nil in H; exact H].
Qed.
