From Coq Require Import ZArith String List Bool Lia.
From Verif Require Import Base Numeral Ctype_spec Strfmon_model Strfmon_spec.
Import ListNotations.
Open Scope list_scope.
Open Scope Z_scope.

(* blit *)
Lemma blit_len buf pos t : 0 <= pos -> pos + len t <= len buf -> len (blit buf pos t) = len buf.
Proof.
  intros P L. unfold blit, len in *. rewrite !app_length, firstn_length, skipn_length.
  pose proof (len_nonneg t). unfold len in *. lia.
Qed.
(* what the loop maintains: the text so far, and the rest of the buffer as it was *)
Definition holds (buf0 buf : list Z) (t : list Z) : Prop := buf = t ++ skipn (length t) buf0 /\ len t <= len buf0.
Lemma holds_len b0 b t : holds b0 b t -> len b = len b0.
Proof. intros [-> L]. unfold len in *. rewrite app_length, skipn_length. lia. Qed.
Lemma skipn_skipn' {A} (i j : nat) (l : list A) : skipn i (skipn j l) = skipn (j + i) l.
Proof. revert l. induction j as [|j IH]; intros l; [reflexivity|]. destruct l; [rewrite !skipn_nil; reflexivity|]. cbn. apply IH. Qed.
Lemma holds_blit b0 b t u : holds b0 b t -> len t + len u <= len b0 -> holds b0 (blit b (len t) u) (t ++ u).
Proof.
  intros [-> L] L2. split; [|rewrite len_app; lia]. unfold blit. unfold len at 1. rewrite Nat2Z.id.
  rewrite firstn_app, firstn_all, Nat.sub_diag, firstn_O, app_nil_r, <- app_assoc. f_equal. f_equal.
  rewrite skipn_app. replace (Z.to_nat (len t + len u)) with (length t + length u)%nat by (unfold len; lia).
  rewrite skipn_all2 by lia. cbn [app]. rewrite skipn_skipn', app_length. f_equal. lia.
Qed.

Definition sound (b0 : list Z) (r : res (list Z * Z)) : Prop :=
  match r with
  | Ok (b, r) => len b = len b0 /\ (r = -1 \/ exists t, holds b0 b (t ++ [0]) /\ r = len t)
  | _ => True
  end.
Lemma go_sound b0 : forall fuel b t l args, holds b0 b t -> sound b0 (go fuel b (len t) l args).
Proof.
  induction fuel as [|n IH]; intros b t l args H; [exact I|]. cbn [go]. pose proof (holds_len _ _ _ H) as LB.
  assert (F : sound b0 (Ok (b, -1))) by (cbn; auto).
  assert (ONE : forall c l args, (len b <=? len t) = false -> sound b0 (go n (blit b (len t) [c]) (len t + 1) l args)).
  { intros c l' a' E. apply Z.leb_gt in E. replace (len t + 1) with (len (t ++ [c])) by (rewrite len_app; reflexivity).
    apply IH. apply holds_blit; [exact H|change (len [c]) with 1; lia]. }
  destruct l as [|c l].
  - destruct (len b <=? len t) eqn:E; [exact F|]. apply Z.leb_gt in E. split.
    + rewrite blit_len; [exact LB|apply len_nonneg|change (len [0]) with 1; lia].
    + right. exists t. split; [|reflexivity]. apply holds_blit; [exact H|change (len [0]) with 1; lia].
  - destruct (negb (c =? 37)); [destruct (len b <=? len t) eqn:E; [exact F|apply ONE; reflexivity]|].
    assert (G : sound b0 (let (f, l) := parse_spec l in
                match l with
                | c :: l =>
                    if (c =? 105) || (c =? 110) then
                      match args with
                      | v :: args =>
                          match format_monetary v (if c =? 105 then international f else f) with
                          | Some u =>
                              if len b - len t <? len u then Ok (b, -1)
                              else go n (blit b (len t) u) (len t + len u) l args
                          | None => Ok (b, -1)
                          end
                      | [] => Fault
                      end
                    else Ok (b, -1)
                | [] => Ok (b, -1)
                end)).
    { destruct (parse_spec l) as [f [|d k]]; [exact F|]. destruct ((d =? 105) || (d =? 110)); [|exact F].
      destruct args as [|v a]; [exact I|]. destruct (format_monetary v _) as [u|]; [|exact F].
      destruct (Z.ltb_spec (len b - len t) (len u)); [exact F|].
      rewrite <- len_app. apply IH. apply holds_blit; [exact H|lia]. }
    destruct l as [|d l]; [exact G|].
    destruct (Z.eq_dec d 37) as [->|ND].
    + destruct (len b <=? len t) eqn:E; [exact F|]. apply ONE. reflexivity.
    + repeat (match goal with |- sound _ (match ?x with _ => _ end) => is_var x; destruct x end); try exact G; congruence.
Qed.

(* the rest of a format is never longer *)
Lemma parse_flags_len l : forall f, (length (snd (parse_flags f l)) <= length l)%nat.
Proof. induction l as [|c l IH]; intros f; cbn; [lia|]. destruct (set_flag f c); [|cbn; lia]. specialize (IH f0). lia. Qed.
Lemma take_digits_len l : (length (snd (take_digits l)) <= length l)%nat.
Proof. induction l as [|c l IH]; cbn; [lia|]. destruct (is_digit c); [|cbn; lia]. destruct (take_digits l); cbn in *. lia. Qed.
Lemma parse_prec_len m l : (length (snd (parse_prec m l)) <= length l)%nat.
Proof. destruct l as [|c l]; cbn; [lia|]. destruct (c =? m); [|cbn; lia]. pose proof (take_digits_len l). destruct (take_digits l); cbn in *. lia. Qed.
Lemma parse_spec_len l : (length (snd (parse_spec l)) <= length l)%nat.
Proof.
  unfold parse_spec. pose proof (parse_flags_len l no_flags) as A. destruct (parse_flags no_flags l) as [f l1]. cbn in A.
  pose proof (take_digits_len l1) as B. destruct (take_digits l1) as [d l2]. cbn in B.
  pose proof (parse_prec_len 35 l2) as C. destruct (parse_prec 35 l2) as [p l3]. cbn in C.
  pose proof (parse_prec_len 46 l3) as D. destruct (parse_prec 46 l3) as [q l4]. cbn in *. lia.
Qed.
Lemma go_total : forall fuel b pos l args, (length l < fuel)%nat -> (length l <= length args)%nat -> exists r, go fuel b pos l args = Ok r.
Proof.
  induction fuel as [|n IH]; intros b pos l args FU AR; [lia|]. cbn [go].
  destruct l as [|c l]; [destruct (len b <=? pos); eauto|]. cbn in FU, AR.
  destruct (negb (c =? 37)); [destruct (len b <=? pos); [eauto|apply IH; lia]|].
  assert (G : exists r, (let (f, l) := parse_spec l in
                match l with
                | c :: l =>
                    if (c =? 105) || (c =? 110) then
                      match args with
                      | v :: args =>
                          match format_monetary v (if c =? 105 then international f else f) with
                          | Some u =>
                              if len b - pos <? len u then Ok (b, -1)
                              else go n (blit b pos u) (pos + len u) l args
                          | None => Ok (b, -1)
                          end
                      | [] => Fault
                      end
                    else Ok (b, -1)
                | [] => Ok (b, -1)
                end) = Ok r).
  { pose proof (parse_spec_len l) as L. destruct (parse_spec l) as [f [|d k]]; [eauto|]. cbn in L. destruct ((d =? 105) || (d =? 110)); [|eauto].
    destruct args as [|v a]; [cbn in AR; lia|]. cbn in AR. destruct (format_monetary v _) as [u|]; [|eauto].
    destruct (len b - pos <? len u); [eauto|]. apply IH; lia. }
  destruct l as [|d l]; [exact G|]. cbn in FU, AR.
  destruct (Z.eq_dec d 37) as [->|ND].
  - destruct (len b <=? pos); [eauto|]. apply IH; lia.
  - repeat (match goal with |- exists _, (match ?x with _ => _ end) = _ => is_var x; destruct x end); try exact G; congruence.
Qed.

(* display *)
Lemma display_numeral n : 0 <= n -> numeral_text (display n) n.
Proof. intros H. exists (to_digits 10 n). split; [apply to_digits_numeral; lia|reflexivity]. Qed.
(* grouping *)
Lemma group_app l1 : forall k l2, group_loop k (l1 ++ l2) = group_loop k l1 ++ group_loop (k + len l1) l2.
Proof.
  induction l1 as [|c l1 IH]; intros k l2; cbn [app group_loop]; [f_equal; unfold len; cbn; lia|].
  rewrite IH, <- app_assoc, len_cons. do 2 f_equal. f_equal. lia.
Qed.
Lemma sep_no k : k mod 3 <> 0 -> 0 <= k < 256 -> (0 <? k) && ((k mod 256) mod 3 =? 0) = false.
Proof. intros M K. rewrite (Z.mod_small k 256) by lia. destruct (Z.eqb_spec (k mod 3) 0); [contradiction|apply andb_false_r]. Qed.
Lemma group_three q a b c : 0 < q -> 3 * q + 2 < 256 -> group_loop (3 * q) [a; b; c] = [44; a; b; c].
Proof.
  intros Q L. cbn [group_loop]. rewrite (sep_no (3 * q + 1)), (sep_no (3 * q + 1 + 1)).
  - rewrite (Z.mod_small (3 * q) 256) by lia. replace (3 * q) with (q * 3) by lia. rewrite Z_mod_mult. destruct (Z.ltb_spec 0 (q * 3)); [reflexivity|lia].
  - replace (3 * q + 1 + 1) with (2 + q * 3) by lia. rewrite Z_mod_plus_full. discriminate.
  - lia.
  - replace (3 * q + 1) with (1 + q * 3) by lia. rewrite Z_mod_plus_full. discriminate.
  - lia.
Qed.
Lemma group_mult : forall q l, (1 <= q)%nat -> length l = (3 * q)%nat -> Z.of_nat (3 * q) < 256 -> grouped l (apply_grouping l).
Proof.
  induction q as [|q IH]; intros l Q L B; [lia|].
  destruct (Nat.eq_dec q 0) as [->|NQ].
  { destruct l as [|a [|b [|c [|]]]]; cbn in L; try lia. change (grouped [a; b; c] [a; b; c]). apply g_small. cbn [length]. lia. }
  pose proof (firstn_skipn (3 * q) l) as E.
  pose proof (firstn_length (3 * q) l) as F. pose proof (skipn_length (3 * q) l) as G.
  destruct (skipn (3 * q) l) as [|a [|b [|c [|]]]] eqn:SK; cbn in G; try lia.
  rewrite <- E. unfold apply_grouping. rewrite group_app.
  replace (0 + len (firstn (3 * q) l)) with (3 * Z.of_nat q) by (unfold len; rewrite F; lia).
  rewrite group_three by lia. apply g_more. apply IH; lia.
Qed.
Lemma group_ok l : l <> [] -> (len l <= 3 \/ (len l mod 3 = 0 /\ len l < 256)) -> grouped l (apply_grouping l).
Proof.
  intros N [L|[M L]].
  - unfold len in L. destruct l as [|a [|b [|c [|]]]]; [congruence| | | |cbn [length] in L; lia];
      match goal with |- grouped ?x _ => change (grouped x x) end; apply g_small; cbn [length]; lia.
  - assert (length l = (3 * Z.to_nat (len l / 3))%nat) by (pose proof (Z.div_mod (len l) 3 ltac:(lia)); pose proof (len_nonneg l); unfold len in *; lia).
    assert (0 < length l)%nat by (destruct l; [congruence|cbn; lia]).
    eapply group_mult; [|eassumption|unfold len in L; lia]. lia.
Qed.

(* format_monetary without a left precision *)
Lemma numeral_text_ne t n : numeral_text t n -> t <> [].
Proof. intros [ds [(_ & _ & N & _) ->]] C. destruct ds; [congruence|discriminate]. Qed.
Lemma format_ok v f i fr d : rprec f = Some d \/ (rprec f = None /\ d = 2) -> lprec f = None -> left_justify f = false -> space_sign f = false ->
  parts v d = Some (i, fr) -> 0 <= i -> 0 <= d -> 0 <= fr < 10 ^ d -> (len (display i) <= 3 \/ (len (display i) mod 3 = 0 /\ len (display i) < 256)) ->
  exists t o, format_monetary v f = Some o /\ money (is_neg v) (suppress f) (intl f) i fr d t /\ in_field (width f) t o.
Proof.
  intros RP LP LJ SS PA I0 D0 FR GR. unfold format_monetary.
  replace (match rprec f with Some p => p | None => 2 end) with d by (destruct RP as [-> |[-> ->]]; reflexivity).
  rewrite PA, LP.
  set (t := sign (is_neg v) f ++ symbol f ++ apply_grouping (display i) ++ (if 0 <? d then 46 :: pad0 d (display fr) else [])).
  exists t, (pad f t). split; [reflexivity|]. split.
  - exists (display i), (apply_grouping (display i)), (if 0 <? d then 46 :: pad0 d (display fr) else []).
    pose proof (display_numeral i I0) as N. split; [exact N|]. split; [apply group_ok; [eapply numeral_text_ne; exact N|exact GR]|].
    split.
    + destruct (Z.ltb_spec 0 d); [|reflexivity]. pose proof (display_numeral fr ltac:(lia)) as NF.
      exists (display fr), (Z.to_nat (d - len (display fr))). split; [exact NF|]. split; [reflexivity|].
      assert (len (display fr) <= d); [|lia].
      destruct NF as [ds [ND E]]. rewrite E. unfold len. rewrite map_length. eapply numeral_len; [| exact ND| |]; lia.
    + unfold t, sign, symbol. rewrite SS. destruct (is_neg v), (force_sign f), (suppress f), (intl f); reflexivity.
  - unfold pad, in_field. destruct (width f) as [w|]; [|reflexivity]. rewrite LJ. destruct (Z.ltb_spec (len t) w).
    + right. exists (Z.to_nat (w - len t)). split; [lia|reflexivity].
    + left. split; [lia|reflexivity].
Qed.

(* the parsing of a conversion *)
Lemma take_digits_ok w c l : Forall (fun c => 48 <= c <= 57) w -> is_digit c = false -> take_digits (w ++ c :: l) = (w, c :: l).
Proof.
  intros W C. induction W as [|x w X W IH]; cbn [app take_digits]; [rewrite C; reflexivity|].
  unfold is_digit at 1. destruct (Z.leb_spec 48 x); [|lia]. destruct (Z.leb_spec x 57); [|lia]. cbn [andb]. rewrite IH. reflexivity.
Qed.
Lemma parse_ok w n : opt_number w n -> parse w = n.
Proof.
  destruct n as [n|]; cbn; [|intros ->; reflexivity]. intros (N & _ & V & B). unfold parse. destruct w as [|x w]; [congruence|].
  assert (E : forall l a, fold_left (fun a c => a * 10 + (c - 48)) l a = fold_left (fun a d => a * 10 + d) (map (fun c => c - 48) l) a).
  { induction l as [|y l IH]; intros a; [reflexivity|]. cbn [map fold_left]. apply IH. }
  unfold dvalue in V. rewrite E, V. destruct (Z.ltb_spec n (2 ^ 64)); [reflexivity|lia].
Qed.
Lemma opt_number_digits w n : opt_number w n -> Forall (fun c => 48 <= c <= 57) w.
Proof. destruct n as [n|]; cbn; [intros (_ & H & _); exact H|intros ->; constructor]. Qed.
Definition plain_flag (c : Z) : Prop := c = 43 \/ c = 33.
Lemma parse_flags_ok : forall fl f l, Forall plain_flag fl -> (match l with c :: _ => forall f, set_flag f c = None | [] => True end) ->
  exists f', parse_flags f (fl ++ l) = (f', l) /\ left_justify f' = left_justify f /\ space_sign f' = space_sign f /\
    suppress f' = suppress f || existsb (Z.eqb 33) fl.
Proof.
  induction fl as [|c fl IH]; intros f l F L.
  - exists f. cbn [app]. split; [|rewrite orb_false_r; auto]. destruct l as [|c l]; [reflexivity|]. cbn. rewrite L. reflexivity.
  - inversion F as [|? ? C F']; subst. destruct C as [->| ->]; cbn [app parse_flags];
      [change (set_flag f 43) with (Some {| left_justify := left_justify f; force_sign := true; space_sign := space_sign f; use_parens := use_parens f; suppress := suppress f; width := width f; lprec := lprec f; rprec := rprec f; intl := intl f |})
      |change (set_flag f 33) with (Some {| left_justify := left_justify f; force_sign := force_sign f; space_sign := space_sign f; use_parens := use_parens f; suppress := true; width := width f; lprec := lprec f; rprec := rprec f; intl := intl f |})];
    cbv iota beta; match goal with |- context[parse_flags ?g _] => destruct (IH g l F' L) as (f' & E & A & B & C) end;
    exists f'; (split; [exact E|]); (split; [exact A|]); (split; [exact B|]); rewrite C; cbn; [reflexivity|rewrite orb_true_r; reflexivity].
Qed.
Definition opt_prec (p : list Z) (n : option Z) : Prop :=
  match n with Some n => exists d, p = 46 :: d /\ number d n | None => p = [] end.
Lemma parse_spec_ok fl w wn p pn c l : Forall plain_flag fl -> opt_number w wn -> opt_prec p pn -> c = 105 \/ c = 110 ->
  exists f, parse_spec (fl ++ w ++ p ++ c :: l) = (f, c :: l) /\ left_justify f = false /\ space_sign f = false /\
    suppress f = existsb (Z.eqb 33) fl /\ width f = wn /\ lprec f = None /\ rprec f = pn /\ intl f = false.
Proof.
  intros F W P C. unfold parse_spec.
  assert (SF : forall d, (d = 105 \/ d = 110 \/ d = 46 \/ 48 <= d <= 57) -> forall f, set_flag f d = None).
  { intros d D f. unfold set_flag. repeat (match goal with |- context[d =? ?k] => destruct (Z.eqb_spec d k); [lia|] end). reflexivity. }
  assert (HD : forall q, opt_prec p pn -> exists d l', p ++ q = d :: l' /\ (d = 46 \/ (p = [] /\ d :: l' = q)) \/ q = []).
  { intros q PP. destruct pn as [n|]; cbn in PP; [destruct PP as [ds [-> _]]; exists 46, (ds ++ q); auto|subst p]. destruct q as [|d q]; [exists 0, []; auto|]. exists d, q. left. auto. }
  destruct (HD (c :: l) P) as (d & l' & [[E D]|X]); [|discriminate X].
  assert (DD : d = 105 \/ d = 110 \/ d = 46) by (destruct D as [->|[_ D]]; [auto|injection D as -> _; tauto]).
  destruct (parse_flags_ok fl no_flags (w ++ p ++ c :: l) F) as (f & E1 & A1 & A2 & A3).
  { rewrite E. pose proof (opt_number_digits _ _ W) as WD. destruct WD as [|x w X WD]; cbn [app]; [apply SF; tauto|apply SF; lia]. }
  rewrite E1. clear E1. rewrite E.
  rewrite (take_digits_ok w d l' (opt_number_digits _ _ W)) by (unfold is_digit; destruct DD as [->|[->| ->]]; reflexivity).
  replace (parse_prec 35 (d :: l')) with (@None Z, d :: l') by (destruct DD as [->|[->| ->]]; reflexivity).
  assert (PR : parse_prec 46 (d :: l') = (pn, c :: l)).
  { destruct pn as [n|]; cbn in P.
    - destruct P as [ds [-> N]]. cbn [app] in E. injection E as <- <-. cbn [parse_prec]. change (46 =? 46) with true. cbv iota.
      rewrite take_digits_ok; [rewrite (parse_ok ds (Some n) N); reflexivity|apply N|destruct C as [->| ->]; reflexivity].
    - subst p. cbn [app] in E. injection E as <- <-. cbn [parse_prec]. destruct C as [->| ->]; reflexivity. }
  rewrite PR. eexists. split; [reflexivity|]. cbn. rewrite A1, A2, A3. rewrite (parse_ok _ _ W). auto 10.
Qed.

(* the specification determines the text *)
Lemma app3_inj (l l' : list Z) a b c a' b' c' : l ++ [a; b; c] = l' ++ [a'; b'; c'] -> l = l' /\ a = a' /\ b = b' /\ c = c'.
Proof.
  intros E. change [a; b; c] with ([a] ++ [b] ++ [c]) in E. change [a'; b'; c'] with ([a'] ++ [b'] ++ [c']) in E. rewrite !app_assoc in E.
  apply app_inj_tail in E. destruct E as [E ->]. apply app_inj_tail in E. destruct E as [E ->]. apply app_inj_tail in E. tauto.
Qed.
Lemma grouped_len l g : grouped l g -> (1 <= length l)%nat.
Proof. induction 1; [lia|]. rewrite app_length. lia. Qed.
Lemma grouped_fun l g : grouped l g -> forall g', grouped l g' -> g = g'.
Proof.
  induction 1 as [l L|l g a b c G IH]; intros g' H; inversion H as [l' L' E|l' h a' b' c' H' E]; subst; try reflexivity.
  - apply grouped_len in H'. rewrite app_length in L. cbn in L. lia.
  - apply grouped_len in G. rewrite app_length in L'. cbn in L'. lia.
  - apply app3_inj in E. destruct E as (-> & -> & -> & ->). rewrite (IH _ H'). reflexivity.
Qed.
Lemma numeral_text_fun t t' n : numeral_text t n -> numeral_text t' n -> t = t'.
Proof. intros [d [D ->]] [d' [D' ->]]. rewrite (numeral_inj 10 d d' n ltac:(lia) D D'). reflexivity. Qed.
Lemma money_fun a b c i fr d t t' : money a b c i fr d t -> money a b c i fr d t' -> t = t'.
Proof.
  intros (ti & g & tf & N & G & F & ->) (ti' & g' & tf' & N' & G' & F' & ->).
  pose proof (numeral_text_fun _ _ _ N N') as <-. pose proof (grouped_fun _ _ G _ G') as <-. do 3 f_equal.
  destruct (0 <? d); [|congruence]. destruct F as (n & z & A & -> & B), F' as (n' & z' & A' & -> & B').
  pose proof (numeral_text_fun _ _ _ A A') as <-. assert (z = z') as <- by lia. reflexivity.
Qed.
Lemma in_field_fun w t o o' : in_field w t o -> in_field w t o' -> o = o'.
Proof.
  destruct w as [w|]; cbn; [|congruence]. intros [[A ->]|(k & A & ->)] [[B ->]|(k' & B & ->)]; try reflexivity.
  - assert (k' = O) as -> by lia. reflexivity.
  - assert (k = O) as -> by lia. reflexivity.
  - assert (k = k') as -> by lia. reflexivity.
Qed.

(* what the items of a format produce *)
Inductive produces : list item -> list amount -> list Z -> Prop :=
| p_nil a : produces [] a []
| p_char c is a o : 0 < c < 128 -> c <> 37 -> produces is a o -> produces (Char c :: is) a (c :: o)
| p_percent is a o : produces is a o -> produces (Percent :: is) a (37 :: o)
| p_conv fl w wn p pn c v i fr t u is a o :
    Forall plain_flag fl -> opt_number w wn -> opt_prec p pn -> c = 105 \/ c = 110 ->
    parts v (match pn with Some d => d | None => 2 end) = Some (i, fr) -> 0 <= i -> 0 <= fr < 10 ^ (match pn with Some d => d | None => 2 end) ->
    (forall ti, numeral_text ti i -> len ti <= 3 \/ (len ti mod 3 = 0 /\ len ti < 256)) ->
    money (is_neg v) (existsb (Z.eqb 33) fl) (c =? 105) i fr (match pn with Some d => d | None => 2 end) t -> in_field wn t u ->
    produces is a o -> produces (Conv fl w p c :: is) (v :: a) (u ++ o).

Lemma number_nonneg l n : number l n -> 0 <= n.
Proof.
  intros (_ & F & <- & _). apply (dvalue_range 10); [lia|]. rewrite Forall_map. eapply Forall_impl; [|exact F]. cbn. lia.
Qed.
Lemma go_produces b0 : forall is args out, produces is args out -> forall fuel b t, holds b0 b t ->
  (length (concat (map text_of is)) < fuel)%nat ->
  exists b' r, go fuel b (len t) (concat (map text_of is)) args = Ok (b', r) /\
    (if len t + len out <? len b0 then r = len (t ++ out) /\ holds b0 b' ((t ++ out) ++ [0]) else r = -1).
Proof.
  induction 1 as [a|c is a o C NC P IH|is a o P IH|fl w wn p pn c v i fr tm u is a o FL W PR C PA I0 FR GR MO FI P IH];
    intros fuel b t H FU; destruct fuel as [|n]; try lia; pose proof (holds_len _ _ _ H) as LB.
  - cbn [map concat go]. change (len []) with 0. rewrite Z.add_0_r, LB.
    destruct (Z.leb_spec (len b0) (len t)).
    + exists b, (-1). split; [reflexivity|]. destruct (Z.ltb_spec (len t) (len b0)); [lia|reflexivity].
    + eexists _, _. split; [reflexivity|]. destruct (Z.ltb_spec (len t) (len b0)); [|lia]. rewrite app_nil_r. split; [reflexivity|].
      apply holds_blit; [exact H|change (len [0]) with 1; lia].
  - cbn [map concat text_of app go] in *. cbn [length] in FU. destruct (Z.eqb_spec c 37); [contradiction|]. cbn [negb]. rewrite LB, len_cons.
    pose proof (len_nonneg o). rewrite (Z.mod_small c 256) by lia.
    destruct (Z.leb_spec (len b0) (len t)).
    + exists b, (-1). split; [reflexivity|]. destruct (Z.ltb_spec (len t + (len o + 1)) (len b0)); [lia|reflexivity].
    + destruct (IH n (blit b (len t) [c]) (t ++ [c])) as (b' & r & E & R); [apply holds_blit; [exact H|change (len [c]) with 1; lia]|lia|].
      rewrite len_app in E, R. change (len [c]) with 1 in E, R. exists b', r. split; [exact E|].
      replace (len t + (len o + 1)) with (len t + 1 + len o) by lia. rewrite <- app_assoc in R. exact R.
  - cbn [map concat text_of app go] in *. change (codes "%%") with [37; 37] in *. cbn [app length] in *. change (negb (37 =? 37)) with false. cbv iota. rewrite LB, len_cons.
    pose proof (len_nonneg o).
    destruct (Z.leb_spec (len b0) (len t)).
    + exists b, (-1). split; [reflexivity|]. destruct (Z.ltb_spec (len t + (len o + 1)) (len b0)); [lia|reflexivity].
    + destruct (IH n (blit b (len t) [37]) (t ++ [37])) as (b' & r & E & R); [apply holds_blit; [exact H|change (len [37]) with 1; lia]|lia|].
      rewrite len_app in E, R. change (len [37]) with 1 in E, R. exists b', r. split; [exact E|].
      replace (len t + (len o + 1)) with (len t + 1 + len o) by lia. rewrite <- app_assoc in R. exact R.
  - set (rest := concat (map text_of is)) in *. cbn [map concat text_of app] in *. fold rest in FU. fold rest.
    change (codes "%") with [37] in *. cbn [app] in *. rewrite <- !app_assoc in *. cbn [app] in *.
    destruct (parse_spec_ok fl w wn p pn c rest FL W PR C) as (f & E & F1 & F2 & F3 & F4 & F5 & F6 & F7).
    set (d := match pn with Some d => d | None => 2 end) in *.
    assert (D0 : 0 <= d). { unfold d. destruct pn as [k|]; [|lia]. destruct PR as [ds [_ N]]. eapply number_nonneg; exact N. }
    set (f2 := if c =? 105 then international f else f).
    destruct (format_ok v f2 i fr d) as (t2 & o2 & E2 & M2 & I2).
    { unfold f2, d. destruct (c =? 105); cbn; rewrite F6; destruct pn; auto. }
    { unfold f2. destruct (c =? 105); exact F5. }
    { unfold f2. destruct (c =? 105); exact F1. }
    { unfold f2. destruct (c =? 105); exact F2. }
    { exact PA. } { exact I0. } { exact D0. } { exact FR. }
    { apply GR. apply display_numeral. exact I0. }
    replace (suppress f2) with (existsb (Z.eqb 33) fl) in M2 by (unfold f2; destruct (c =? 105); symmetry; exact F3).
    replace (intl f2) with (c =? 105) in M2 by (unfold f2; destruct (c =? 105); [reflexivity|symmetry; exact F7]).
    replace (width f2) with wn in I2 by (unfold f2; destruct (c =? 105); symmetry; exact F4).
    pose proof (money_fun _ _ _ _ _ _ _ _ MO M2) as <-. pose proof (in_field_fun _ _ _ _ FI I2) as <-.
    assert (G : exists b' r, (let (f, l) := parse_spec (fl ++ w ++ p ++ c :: rest) in
                match l with
                | c :: l =>
                    if (c =? 105) || (c =? 110) then
                      match v :: a with
                      | v :: args =>
                          match format_monetary v (if c =? 105 then international f else f) with
                          | Some u =>
                              if len b - len t <? len u then Ok (b, -1)
                              else go n (blit b (len t) u) (len t + len u) l args
                          | None => Ok (b, -1)
                          end
                      | [] => Fault
                      end
                    else Ok (b, -1)
                | [] => Ok (b, -1)
                end) = Ok (b', r) /\ (if len t + len (u ++ o) <? len b0 then r = len (t ++ (u ++ o)) /\ holds b0 b' ((t ++ (u ++ o)) ++ [0]) else r = -1)).
    { rewrite E. replace ((c =? 105) || (c =? 110)) with true by (destruct C as [->| ->]; reflexivity). fold f2. rewrite E2, LB, len_app.
      pose proof (len_nonneg o). destruct (Z.ltb_spec (len b0 - len t) (len u)).
      - exists b, (-1). split; [reflexivity|]. destruct (Z.ltb_spec (len t + (len u + len o)) (len b0)); [lia|reflexivity].
      - destruct (IH n (blit b (len t) u) (t ++ u)) as (b' & r & E' & R).
        + apply holds_blit; [exact H|lia].
        + cbn [length] in FU. rewrite !app_length in FU. cbn [length] in FU. lia.
        + rewrite len_app in E', R. exists b', r. split; [exact E'|]. rewrite <- app_assoc in R. rewrite Z.add_assoc. exact R. }
    cbn [go]. change (negb (37 =? 37)) with false. cbv iota.
    assert (NH : match fl ++ w ++ p ++ c :: rest with x :: _ => x <> 37 | [] => True end).
    { destruct FL as [|x fl X _]; cbn [app]; [|destruct X; lia].
      pose proof (opt_number_digits _ _ W) as WD. destruct WD as [|x w X _]; cbn [app]; [|lia].
      destruct pn as [k|]; cbn in PR; [destruct PR as [ds [-> _]]; cbn; lia|subst p; cbn; lia]. }
    replace ((t ++ u ++ o) ++ [0]) with (t ++ u ++ o ++ [0]) in G by (rewrite <- !app_assoc; reflexivity).
    destruct (fl ++ w ++ p ++ c :: rest) as [|x l]; [exact G|].
    repeat (match goal with |- exists _ _, (match ?x with _ => _ end) = _ /\ _ => is_var x; destruct x end); try exact G; congruence.
Qed.
