From Coq Require Import String.
From Verif Require Import Base Ctype_spec Numeral Time_model Time_spec Time_proofs Cal_model Cal_spec.
Open Scope list_scope.
Open Scope Z_scope.

Lemma usw_ok : forall l m p, mapped m p (len l + 1) -> exists m', usw m p l = Ok m' /\ stored m m' p (l ++ [0]).
Proof.
  induction l as [|b l IH]; intros m p H.
  - cbn. rewrite st_ok by (apply H; cbv [len length Z.of_nat]; lia). eexists. split; [reflexivity|].
    apply stored_cons, stored_nil.
  - rewrite len_cons in H. pose proof (len_nonneg l). cbn. rewrite st_ok by (apply H; lia). cbn.
    destruct (IH (upd m p b) (p + 1)) as (m' & E & S).
    + apply mapped_upd. eapply mapped_sub; [exact H|lia|lia].
    + exists m'. split; [exact E|]. apply stored_cons, S.
Qed.
Lemma stored_over : forall m m1 m2 p l k, stored m m1 p (l ++ [0]) -> stored m1 m2 (p + len l) k -> 1 <= len k -> stored m m2 p (l ++ k).
Proof.
  intros m m1 m2 p l k [A B] [C D] L. pose proof (len_nonneg l). rewrite len_app in B. change (len [0]) with 1 in B. split.
  - apply bytes_at_app. split; [|exact C]. apply bytes_at_app in A as [A _].
    eapply bytes_at_ext; [|exact A]. intros x X. apply D. lia.
  - intros x X. rewrite len_app in X. rewrite D by lia. apply B. lia.
Qed.
Lemma usw_all_ok : forall ps m p, ps <> [] -> mapped m p (len (concat ps) + 1) ->
  exists m', usw_all m p ps = Ok m' /\ stored m m' p (concat ps ++ [0]).
Proof.
  induction ps as [|l ps IH]; intros m p N H; [contradiction|]. cbn [concat] in *. rewrite len_app in H.
  pose proof (len_nonneg l). pose proof (len_nonneg (concat ps)). cbn [usw_all].
  destruct (usw_ok l m p) as (m1 & E & S); [eapply mapped_sub; [exact H|lia|lia]|]. rewrite E. cbn [bind].
  destruct ps as [|k ps].
  - cbn [usw_all concat]. exists m1. split; [reflexivity|]. rewrite app_nil_r. exact S.
  - destruct (IH m1 (p + len l)) as (m2 & E2 & S2); [discriminate| |].
    + eapply mapped_sub; [eapply stored_mapped; [exact S|exact H]|lia|lia].
    + exists m2. split; [exact E2|]. rewrite <- app_assoc. eapply stored_over; [exact S|exact S2|].
      rewrite len_app. change (len [0]) with 1. pose proof (len_nonneg (concat (k :: ps))). lia.
Qed.

Lemma decw_3 : forall v, 1 <= v <= 31 -> decw 3 v = [32] ++ space_padded v.
Proof.
  intros v H. unfold decw, space_padded. destruct (Z.ltb_spec v 10).
  - rewrite dec_1 by lia. reflexivity.
  - rewrite dec_2 by lia. reflexivity.
Qed.
Lemma dec_len : forall v, -999 <= v <= 9999 -> 1 <= len (dec v) <= 4 /\ (1000 <= v -> len (dec v) = 4).
Proof.
  intros v H. unfold dec.
  assert (M : forall l, len (map (fun x => 48 + x) l) = len l) by (intros l; unfold len; rewrite map_length; reflexivity).
  pose proof (to_digits_numeral 10 (Z.abs v) ltac:(lia) ltac:(lia)) as N.
  assert (1 <= len (to_digits 10 (Z.abs v))).
  { pose proof (numeral_ne _ _ _ N). destruct (to_digits 10 (Z.abs v)); [contradiction|]. rewrite len_cons. pose proof (len_nonneg l). lia. }
  destruct (Z.ltb_spec v 0).
  - rewrite len_cons, M. pose proof (numeral_len 10 _ _ 3 ltac:(lia) N ltac:(lia) ltac:(lia)). lia.
  - rewrite M. pose proof (numeral_len 10 _ _ 4 ltac:(lia) N ltac:(lia) ltac:(lia)). split; [lia|]. intros G.
    assert (~ len (to_digits 10 (Z.abs v)) <= 3); [|lia]. intros Q. destruct N as (F & V & _).
    pose proof (dvalue_range 10 _ ltac:(lia) F) as R. rewrite V in R.
    assert (10 ^ len (to_digits 10 (Z.abs v)) <= 10 ^ 3) by (apply Z.pow_le_mono_r; lia). lia.
Qed.

Lemma asc_fits : forall m t buf, asc_ok t -> mapped m buf 26 ->
  exists m' y, asctime_r m t buf = Ok (m', buf) /\ decimal (year t) y /\ stored m m' buf (asc_text t y ++ [0]) /\
    len (asc_text t y ++ [0]) <= 26 /\ (1000 <= year t -> len (asc_text t y ++ [0]) = 26).
Proof.
  intros m t buf (S & I & H & D & M & W & Y) Mp. unfold asctime_r, within.
  unfold year in Y.
  repeat match goal with |- context [?a <=? ?b] => destruct (Z.leb_spec a b); [|lia] end. cbn [andb].
  set (ps := [_; _; _; _; _; _; _; _; _; _; _; _; _]).
  assert (E : concat ps = asc_text t (dec (year t))).
  { unfold ps, asc_text, hms. cbn [concat]. rewrite decw_3, !dec0_2 by lia. rewrite !app_nil_r, <- !app_assoc.
    f_equal; [|f_equal; f_equal; [|unfold year; rewrite (Z.add_comm 1900); reflexivity]].
    - unfold weekday. assert (Q : tm_wday t = 0 \/ tm_wday t = 1 \/ tm_wday t = 2 \/ tm_wday t = 3 \/ tm_wday t = 4 \/ tm_wday t = 5 \/ tm_wday t = 6) by lia.
      destruct Q as [->|[->|[->|[->|[->|[->| ->]]]]]]; reflexivity.
    - unfold month. assert (Q : tm_mon t = 0 \/ tm_mon t = 1 \/ tm_mon t = 2 \/ tm_mon t = 3 \/ tm_mon t = 4 \/ tm_mon t = 5 \/ tm_mon t = 6 \/
        tm_mon t = 7 \/ tm_mon t = 8 \/ tm_mon t = 9 \/ tm_mon t = 10 \/ tm_mon t = 11) by lia.
      destruct Q as [->|[->|[->|[->|[->|[->|[->|[->|[->|[->|[->| ->]]]]]]]]]]]; reflexivity. }
  assert (L : len (asc_text t (dec (year t)) ++ [0]) = 22 + len (dec (year t))).
  { unfold asc_text, hms, dd, abbrev. repeat rewrite len_app.
    assert (len (firstn 3 (weekday t)) = 3).
    { unfold weekday. assert (Q : tm_wday t = 0 \/ tm_wday t = 1 \/ tm_wday t = 2 \/ tm_wday t = 3 \/ tm_wday t = 4 \/ tm_wday t = 5 \/ tm_wday t = 6) by lia.
      destruct Q as [->|[->|[->|[->|[->|[->| ->]]]]]]; reflexivity. }
    assert (len (firstn 3 (month t)) = 3).
    { unfold month. assert (Q : tm_mon t = 0 \/ tm_mon t = 1 \/ tm_mon t = 2 \/ tm_mon t = 3 \/ tm_mon t = 4 \/ tm_mon t = 5 \/ tm_mon t = 6 \/
        tm_mon t = 7 \/ tm_mon t = 8 \/ tm_mon t = 9 \/ tm_mon t = 10 \/ tm_mon t = 11) by lia.
      destruct Q as [->|[->|[->|[->|[->|[->|[->|[->|[->|[->|[->| ->]]]]]]]]]]]; reflexivity. }
    assert (len (space_padded (tm_mday t)) = 2) by (unfold space_padded, dd; destruct (_ <? _); reflexivity).
    repeat rewrite ?len_cons, ?len_nil. lia. }
  pose proof (dec_len (year t) ltac:(unfold year; lia)) as [L1 L2].
  destruct (usw_all_ok ps m buf) as (m' & R & St); [discriminate| |].
  { rewrite E. rewrite len_app in L. change (len [0]) with 1 in L. eapply mapped_sub; [exact Mp|lia|lia]. }
  rewrite R. cbn [bind]. exists m', (dec (year t)). split; [reflexivity|]. split; [apply decimal_dec|]. rewrite E in St. split; [exact St|]. rewrite L. split; [lia|]. intros G. rewrite L2 by exact G. reflexivity.
Qed.

(** Whatever the members: nothing is stored beyond the 26 bytes. *)
Lemma dec0_len : forall v, 0 <= v <= 99 -> len (dec0 2 v) = 2.
Proof. intros v H. rewrite dec0_2 by lia. reflexivity. Qed.
Lemma decw_len : forall v, -99 <= v <= 999 -> len (decw 3 v) = 3.
Proof.
  intros v H. unfold decw. pose proof (len_nonneg (dec v)).
  assert (len (dec v) <= 3).
  { unfold dec. pose proof (to_digits_numeral 10 (Z.abs v) ltac:(lia) ltac:(lia)) as N.
    assert (M : forall l, len (map (fun x => 48 + x) l) = len l) by (intros l; unfold len; rewrite map_length; reflexivity).
    destruct (Z.ltb_spec v 0).
    - rewrite len_cons, M. pose proof (numeral_len 10 _ _ 2 ltac:(lia) N ltac:(lia) ltac:(lia)). lia.
    - rewrite M. pose proof (numeral_len 10 _ _ 3 ltac:(lia) N ltac:(lia) ltac:(lia)). lia. }
  rewrite len_app. unfold len at 1. rewrite repeat_length. lia.
Qed.
Lemma asc_bounds : forall m t buf, mapped m buf 26 ->
  asctime_r m t buf = Panic \/
  exists m', asctime_r m t buf = Ok (m', buf) /\ (forall a, ~ buf <= a < buf + 26 -> m' a = m a) /\ mapped m' buf 26.
Proof.
  intros m t buf Mp. unfold asctime_r. destruct (_ && _) eqn:G; [|auto]. right. unfold within in G.
  repeat (apply andb_true_iff in G; let G2 := fresh in destruct G as [G G2]). 
  repeat match goal with H : (_ && _)%bool = true |- _ => apply andb_true_iff in H; destruct H end.
  repeat match goal with H : (_ <=? _) = true |- _ => apply Z.leb_le in H end.
  set (ps := [_; _; _; _; _; _; _; _; _; _; _; _; _]).
  assert (L : len (concat ps) + 1 <= 26).
  { unfold ps. cbn [concat]. repeat rewrite len_app. rewrite !dec0_len, decw_len by lia.
    pose proof (dec_len (1900 + tm_year t) ltac:(lia)) as [LY _].
    assert (len (nth (Z.to_nat (tm_wday t)) DAY_NAMES []) = 3).
    { assert (Q : tm_wday t = 0 \/ tm_wday t = 1 \/ tm_wday t = 2 \/ tm_wday t = 3 \/ tm_wday t = 4 \/ tm_wday t = 5 \/ tm_wday t = 6) by lia.
      destruct Q as [->|[->|[->|[->|[->|[->| ->]]]]]]; reflexivity. }
    assert (len (nth (Z.to_nat (tm_mon t)) MON_NAMES []) = 3).
    { assert (Q : tm_mon t = 0 \/ tm_mon t = 1 \/ tm_mon t = 2 \/ tm_mon t = 3 \/ tm_mon t = 4 \/ tm_mon t = 5 \/ tm_mon t = 6 \/
        tm_mon t = 7 \/ tm_mon t = 8 \/ tm_mon t = 9 \/ tm_mon t = 10 \/ tm_mon t = 11) by lia.
      destruct Q as [->|[->|[->|[->|[->|[->|[->|[->|[->|[->|[->| ->]]]]]]]]]]]; reflexivity. }
    repeat rewrite ?len_cons, ?len_nil. lia. }
  destruct (usw_all_ok ps m buf) as (m' & R & St); [discriminate|eapply mapped_sub; [exact Mp|lia|lia]|].
  rewrite R. cbn [bind]. exists m'. split; [reflexivity|]. split.
  - intros a A. apply St. rewrite len_app. change (len [0]) with 1. lia.
  - eapply stored_mapped; [exact St|exact Mp].
Qed.
