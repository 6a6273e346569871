From Coq Require Import String.
From Verif Require Import Base Ctype_spec Numeral Utf8_model Tz_model Tz_spec.
Open Scope list_scope.
Open Scope Z_scope.

Lemma split_one : forall sep a, ~ In sep a -> split sep a = [a].
Proof.
  induction a as [|c a IH]; intros N; cbn [split]; [reflexivity|]. destruct (Z.eqb_spec c sep) as [->|_]; [exfalso; apply N; left; reflexivity|].
  rewrite IH by (intros I; apply N; right; exact I). reflexivity.
Qed.
Lemma split_sep : forall sep a b, ~ In sep a -> split sep (a ++ sep :: b) = a :: split sep b.
Proof.
  induction a as [|c a IH]; intros b N; cbn [split app]; [rewrite Z.eqb_refl; reflexivity|].
  destruct (Z.eqb_spec c sep) as [->|_]; [exfalso; apply N; left; reflexivity|].
  rewrite IH by (intros I; apply N; right; exact I). reflexivity.
Qed.
Lemma break_app : forall f a b, Forall (fun c => f c = false) a -> match b with [] => True | c :: _ => f c = true end -> break f (a ++ b) = (a, b).
Proof.
  intros f a b H B. induction H as [|c a C H IH]; cbn [app break].
  - destruct b as [|c b]; [reflexivity|]. cbn. rewrite B. reflexivity.
  - rewrite C, IH. reflexivity.
Qed.
Lemma alpha_letter : forall c, letter c -> alpha c = true.
Proof. intros c H. unfold alpha. destruct H as [H|H]; lia. Qed.

Lemma by_cases : forall (n : nat) (P : Z -> bool), forallb P (map Z.of_nat (seq 0 n)) = true -> forall v, 0 <= v < Z.of_nat n -> P v = true.
Proof.
  intros n P H v V. rewrite forallb_forall in H. apply H. apply in_map_iff. exists (Z.to_nat v). split; [lia|]. apply in_seq. lia.
Qed.
Definition is (o : option Z) (v : Z) : bool := match o with Some x => x =? v | None => false end.
Lemma is_ok : forall o v, is o v = true -> o = Some v.
Proof. intros [x|] v H; [|discriminate]. apply Z.eqb_eq in H. subst. reflexivity. Qed.
Lemma parse_two : forall v, 0 <= v <= 59 -> parse_i32 (two v) = Some v.
Proof.
  intros v H. apply is_ok. revert v H. pose proof (by_cases 60 (fun v => is (parse_i32 (two v)) v) eq_refl) as Q.
  intros v H. apply Q. lia.
Qed.
Definition sval (sg : sign) : Z := match sg with Minus => -1 | _ => 1 end.
Lemma parse_hour : forall sg h ht, 0 <= h <= 24 -> hour_text h ht -> parse_i32 (sign_text sg ++ ht) = Some (sval sg * h).
Proof.
  intros sg h ht H [->|[L ->]]; apply is_ok.
  - revert h H. pose proof (by_cases 25 (fun h => is (parse_i32 (sign_text sg ++ two h)) (sval sg * h))) as Q.
    intros h H. apply Q; [destruct sg; reflexivity|lia].
  - revert h L H. pose proof (by_cases 10 (fun h => is (parse_i32 (sign_text sg ++ [48 + h])) (sval sg * h))) as Q.
    intros h L H. apply Q; [destruct sg; reflexivity|lia].
Qed.
(** the characters of the texts *)
Definition plain (c : Z) : Prop := 48 <= c <= 57 \/ c = 43 \/ c = 45.
Lemma two_plain : forall v, 0 <= v <= 99 -> Forall plain (two v).
Proof. intros v H. unfold two. apply Forall_cons; [|apply Forall_cons; [|constructor]]; unfold plain; Z.div_mod_to_equations; lia. Qed.
Lemma hour_plain : forall sg h ht, 0 <= h <= 24 -> hour_text h ht -> Forall plain (sign_text sg ++ ht).
Proof.
  intros sg h ht H T. apply Forall_app. split; [destruct sg; [constructor| |]; (apply Forall_cons; [unfold plain; lia|constructor])|].
  destruct T as [->|[L ->]]; [apply two_plain; lia|]. apply Forall_cons; [unfold plain; lia|constructor].
Qed.
Lemma plain_notin : forall c l, Forall plain l -> (c = 58 \/ c = 44) -> ~ In c l.
Proof. intros c l H C I. rewrite Forall_forall in H. specialize (H c I). unfold plain in H. lia. Qed.
Lemma to_i32_small : forall v, -2147483648 <= v <= 2147483647 -> to_i32 v = v.
Proof. intros v H. unfold to_i32. rewrite Z.mod_small by lia. lia. Qed.

Lemma offset_seconds : forall sg h ot v, offset sg h ot v -> (sg = Minus -> h <> 0) -> time_to_seconds ot = Some v.
Proof.
  intros sg h0 ot v O N. inversion O as [sg' h ht ms H T K B]; subst. clear O. rewrite app_assoc.
  pose proof (hour_plain sg h0 ht H T) as P. set (hd := sign_text sg ++ ht) in *.
  assert (PH : parse_i32 hd = Some (sval sg * h0)) by (apply parse_hour; assumption).
  assert (Sg : to_i32 (to_i32 (sval sg * h0 * 60) * 60) = sval sg * h0 * 3600).
  { rewrite (to_i32_small (sval sg * h0 * 60)) by (destruct sg; cbn [sval]; lia). rewrite to_i32_small by (destruct sg; cbn [sval]; lia). ring. }
  assert (Ng : (sval sg * h0 * 3600 <? 0) = match sg with Minus => true | _ => false end).
  { destruct sg; cbn [sval]; [| |specialize (N eq_refl)]; lia. }
  assert (Ab : to_i32 (Z.abs (sval sg * h0 * 3600)) = h0 * 3600).
  { rewrite to_i32_small by (destruct sg; cbn [sval]; lia). destruct sg; cbn [sval]; lia. }
  assert (Fin : forall x, 0 <= x <= 2147483647 -> (if match sg with Minus => true | _ => false end then to_i32 (x * -1) else x) = sval sg * x).
  { intros x X. destruct sg; cbn [sval]; [lia|lia|]. rewrite to_i32_small by lia. lia. }
  unfold time_to_seconds. destruct ms as [|m|m s]; cbn [minsec_text minsec_value minsec_ok] in *.
  - rewrite app_nil_r, split_one by (apply plain_notin; auto). rewrite PH. cbv zeta. rewrite Sg, Ng, Ab, Fin by lia. apply f_equal. destruct sg; cbn [sval]; ring.
  - cbn [app]. rewrite split_sep by (apply plain_notin; auto). rewrite split_one by (apply plain_notin; [apply two_plain; lia|auto]).
    rewrite PH, parse_two by lia. cbv zeta. rewrite Sg, Ng, Ab. rewrite (to_i32_small (m * 60)) by lia. rewrite (to_i32_small (h0 * 3600 + m * 60)) by lia.
    rewrite Fin by lia. apply f_equal. destruct sg; reflexivity.
  - cbn [app]. rewrite split_sep by (apply plain_notin; auto).
    change (48 + m / 10 :: 48 + m mod 10 :: 58 :: two s) with (two m ++ 58 :: two s).
    rewrite split_sep by (apply plain_notin; [apply two_plain; lia|auto]). rewrite split_one by (apply plain_notin; [apply two_plain; lia|auto]).
    rewrite PH, !parse_two by lia. cbv zeta. rewrite Sg, Ng, Ab. rewrite (to_i32_small (m * 60)) by lia. rewrite (to_i32_small (h0 * 3600 + m * 60)) by lia.
    rewrite (to_i32_small (h0 * 3600 + m * 60 + s)) by lia. rewrite Fin by lia. apply f_equal. rewrite <- Z.add_assoc. destruct sg; reflexivity.
Qed.

(** no letter and no comma in an offset, which is not empty *)
Lemma offset_text : forall sg h ot v, offset sg h ot v -> Forall (fun c => plain c \/ c = 58) ot /\ exists c t, ot = c :: t.
Proof.
  intros sg h0 ot v O. inversion O as [sg' h ht ms H T K B]; subst. clear O. rewrite app_assoc. split.
  - apply Forall_app. split; [eapply Forall_impl; [|eapply hour_plain; eassumption]; intros; left; assumption|].
    destruct ms as [|m|m s]; cbn [minsec_text minsec_ok] in *; [constructor| |].
    + constructor; [right; reflexivity|]. eapply Forall_impl; [|apply two_plain; lia]. intros; left; assumption.
    + constructor; [right; reflexivity|]. apply Forall_app. split; [eapply Forall_impl; [|apply two_plain; lia]; intros; left; assumption|].
      constructor; [right; reflexivity|]. eapply Forall_impl; [|apply two_plain; lia]. intros; left; assumption.
  - destruct sg; cbn; [|eexists; eexists; reflexivity|eexists; eexists; reflexivity].
    destruct T as [->|[_ ->]]; eexists; eexists; reflexivity.
Qed.
Lemma not_alpha : forall c, plain c \/ c = 58 -> alpha c = false.
Proof. intros c H. unfold plain in H. unfold alpha. lia. Qed.

Lemma letters : forall n, Forall letter n -> Forall (fun c => negb (alpha c) = false) n.
Proof. intros n H. eapply Forall_impl; [|exact H]. intros c C. cbn. rewrite alpha_letter by exact C. reflexivity. Qed.
Lemma collect_ok : forall n o r, zone_name n -> Forall (fun c => plain c \/ c = 58) o -> match r with [] => True | c :: _ => letter c /\ o <> [] end ->
  collect (n ++ o ++ r) = (n, time_to_seconds o, r).
Proof.
  intros n o r [L N] O R. unfold collect. rewrite break_app; [| |].
  - rewrite break_app; [| |].
    + replace (3 <=? len n) with true by lia. reflexivity.
    + eapply Forall_impl; [|exact O]. intros c C. apply not_alpha, C.
    + destruct r as [|c r]; [exact I|]. apply alpha_letter, R.
  - apply letters, L.
  - destruct O as [|c o C O]; cbn [app].
    + destruct r as [|c r]; [exact I|]. destruct R as [_ R]. contradiction.
    + rewrite not_alpha by exact C. reflexivity.
Qed.
Lemma letter_notin : forall n, Forall letter n -> ~ In 44 n.
Proof. intros n H I. rewrite Forall_forall in H. specialize (H _ I). unfold letter in H. lia. Qed.
Lemma text_notin : forall o, Forall (fun c => plain c \/ c = 58) o -> ~ In 44 o.
Proof. intros n H I. rewrite Forall_forall in H. specialize (H _ I). unfold plain in H. lia. Qed.
Lemma offset_range : forall sg h ot v, offset sg h ot v -> clamp v = v.
Proof. intros sg h0 ot v O. inversion O as [sg' h ht ms H T K B]; subst. unfold clamp.
  assert (0 <= minsec_value ms) by (destruct ms; cbn in *; lia). destruct sg; lia. Qed.

Lemma tz_front : forall std sg h ot v d r, zone_name std -> offset sg h ot v -> (sg = Minus -> h <> 0) -> rest d r ->
  tzset (std ++ ot ++ r) = (std, match d with Some n => n | None => std end, match d with Some _ => 1 | None => 0 end, v).
Proof.
  intros std sg h ot v d r [SL SN] O N R. destruct (offset_text _ _ _ _ O) as [OT (c0 & t0 & One)].
  pose proof (offset_seconds _ _ _ _ O N) as OS. pose proof (offset_range _ _ _ _ O) as OR.
  assert (Ne : exists a b, std = a :: b) by (destruct std as [|a b]; [exfalso; apply SN; reflexivity|eauto]). destruct Ne as (a & b & Es).
  assert (Fr : exists fr tl, split 44 (std ++ ot ++ r) = fr :: tl /\ collect fr = (std, Some v, snd (collect fr)) /\
    match d with None => tl = [] /\ fr = std ++ ot | Some n => fst (fst (collect (snd (collect fr)))) = n end).
  { destruct R as [|n o q [NL NN] Oo Q].
    - exists (std ++ ot), []. rewrite app_nil_r. rewrite split_one.
      + split; [reflexivity|]. split; [|split; reflexivity].
        rewrite <- (app_nil_r ot). rewrite collect_ok; [rewrite OS; reflexivity|split; assumption|exact OT|exact I].
      + intros J. apply in_app_or in J as [J|J]; [exact (letter_notin _ SL J)|exact (text_notin _ OT J)].
    - assert (OO : Forall (fun c => plain c \/ c = 58) o).
      { destruct Oo as [->|(sg2 & h2 & v2 & O2)]; [constructor|]. exact (proj1 (offset_text _ _ _ _ O2)). }
      assert (Nn : exists x y, n = x :: y /\ letter x).
      { destruct n as [|x y]; [exfalso; apply NN; reflexivity|]. exists x, y. split; [reflexivity|]. inversion NL; assumption. }
      destruct Nn as (x & y & En & Lx).
      assert (C1 : collect (std ++ ot ++ n ++ o) = (std, Some v, n ++ o)).
      { rewrite collect_ok; [rewrite OS; reflexivity|split; assumption|exact OT|]. rewrite En. cbn. split; [exact Lx|]. rewrite One. discriminate. }
      assert (C2 : fst (fst (collect (n ++ o))) = n).
      { rewrite <- (app_nil_r o). rewrite collect_ok; [reflexivity|split; assumption|exact OO|exact I]. }
      assert (Nc : ~ In 44 (std ++ ot ++ n ++ o)).
      { intros J. repeat (apply in_app_or in J as [J|J]); [exact (letter_notin _ SL J)|exact (text_notin _ OT J)|exact (letter_notin _ NL J)|exact (text_notin _ OO J)]. }
      exists (std ++ ot ++ n ++ o). destruct Q as [->|[q' ->]].
      + exists []. rewrite app_nil_r, split_one by exact Nc. split; [reflexivity|]. rewrite C1. split; [reflexivity|exact C2].
      + exists (split 44 q').
        replace (std ++ ot ++ n ++ o ++ 44 :: q') with ((std ++ ot ++ n ++ o) ++ 44 :: q') by (rewrite <- !app_assoc; reflexivity).
        rewrite split_sep by exact Nc. split; [reflexivity|]. rewrite C1. split; [reflexivity|exact C2]. }
  destruct Fr as (fr & tl & E & C & D). unfold tzset, tz_parse.
  assert (Ex : exists p q, std ++ ot ++ r = p :: q) by (rewrite Es; cbn; eauto). destruct Ex as (p & q & Ex).
  rewrite E. rewrite Ex. cbn [hd]. rewrite C. clear Es Ex. destruct std as [|a1 b1]; [exfalso; apply SN; reflexivity|]. cbv beta iota.
  destruct d as [n|].
  - destruct (collect (snd (collect fr))) as [[dst doff] drem] eqn:Cd. cbn in D. subst dst.
    inversion R as [|n' o q' [NL NN] Oo Q]; subst. destruct n as [|x y]; [exfalso; apply NN; reflexivity|].
    cbn [negb andb orb p_std p_dst p_daylight p_timezone]. rewrite OR. reflexivity.
  - destruct D as [-> Df]. assert (Rm : snd (collect fr) = []).
    { rewrite Df. rewrite <- (app_nil_r ot). rewrite collect_ok; [reflexivity|split; assumption|exact OT|exact I]. }
    rewrite Rm. change (collect []) with (@nil Z, time_to_seconds [], @nil Z). cbn [negb andb orb p_std p_dst p_daylight p_timezone]. rewrite OR. reflexivity.
Qed.
