From Verif Require Import Base Timespec_model.

(** Specification vocabulary: a timespec as a number of nanoseconds. *)
Definition ns (t : timespec) : Z := tv_sec t * 1000000000 + tv_nsec t.
Definition ts_valid (t : timespec) : Prop :=
  - 2 ^ 63 <= tv_sec t < 2 ^ 63 /\ 0 <= tv_nsec t < 1000000000.

Ltac p63 := change (2 ^ 63) with 9223372036854775808 in *; change (2 ^ 64) with 18446744073709551616 in *.
Lemma wrap64_id v : - 2 ^ 63 <= v < 2 ^ 63 -> wrap64 v = v.
Proof. intros H. unfold wrap64. p63. rewrite Z.mod_small by lia. lia. Qed.
Lemma checked_some v : - 2 ^ 63 <= v < 2 ^ 63 -> checked v = Some v.
Proof. intros H. unfold checked. p63. replace (_ && _) with true by lia. reflexivity. Qed.
Lemma checked_none v : ~ (- 2 ^ 63 <= v < 2 ^ 63) -> checked v = None.
Proof. intros H. unfold checked. p63. replace (_ && _) with false by lia. reflexivity. Qed.

Ltac Zify.zify_post_hook ::= Z.quot_rem_to_equations.

Lemma ts_add_ok a b : ts_valid a -> ts_valid b -> 0 <= tv_sec a + tv_sec b ->
  ns a + ns b < 2 ^ 63 * 1000000000 ->
  exists r, ts_add a b = Some r /\ ts_valid r /\ ns r = ns a + ns b.
Proof.
  destruct a as [s1 n1], b as [s2 n2]. unfold ts_valid, ns. cbn [tv_sec tv_nsec]. intros [A1 A2] [B1 B2] Hp Ho.
  unfold ts_add. cbn [tv_sec tv_nsec]. unfold NANOSECONDS. rewrite !checked_some by (p63; lia).
  replace (_ || _) with false by lia. eexists. split; [reflexivity|]. cbn [tv_sec tv_nsec]. rewrite wrap64_id by (p63; lia).
  p63. lia.
Qed.
Lemma ts_add_none a b : ts_valid a -> ts_valid b ->
  (tv_sec a + tv_sec b < 0 \/ 2 ^ 63 <= tv_sec a + tv_sec b) -> ts_add a b = None.
Proof.
  destruct a as [s1 n1], b as [s2 n2]. unfold ts_valid, ns. cbn [tv_sec tv_nsec]. intros [A1 A2] [B1 B2] H.
  unfold ts_add. cbn [tv_sec tv_nsec]. destruct (Z_lt_dec (s1 + s2) (- 2 ^ 63)); [rewrite checked_none by (p63; lia); reflexivity|].
  destruct (Z_lt_dec (s1 + s2) (2 ^ 63)); [|rewrite checked_none by (p63; lia); reflexivity].
  rewrite !checked_some by (p63; lia). replace (_ || _) with true by lia. reflexivity.
Qed.
Lemma ts_sub_ok a b : ts_valid a -> ts_valid b -> tv_nsec b <= tv_nsec a ->
  - 2 ^ 63 <= tv_sec a - tv_sec b < 2 ^ 63 ->
  (0 <= ns a - ns b -> exists r, ts_subtract a b = Some r /\ ts_valid r /\ ns r = ns a - ns b) /\
  (ns a - ns b < 0 -> ts_subtract a b = None).
Proof.
  destruct a as [s1 n1], b as [s2 n2]. unfold ts_valid, ns. cbn [tv_sec tv_nsec]. intros [A1 A2] [B1 B2] Hn Hr.
  unfold ts_subtract. cbn [tv_sec tv_nsec]. unfold NANOSECONDS. rewrite !checked_some by (p63; lia).
  replace (n1 - n2 <? 0) with false by lia. cbn zeta. cbn [tv_sec tv_nsec].
  assert (Q : Z.quot (n1 - n2) 1000000000 = 0) by lia. rewrite Q, Z.add_0_r, wrap64_id by (p63; lia).
  split; intros H.
  - replace (s1 - s2 <? 0) with false by lia. eexists. split; [reflexivity|]. cbn [tv_sec tv_nsec]. p63. lia.
  - replace (s1 - s2 <? 0) with true by lia. reflexivity.
Qed.
(** What subtract computes when a borrow is needed. *)
Lemma ts_sub_borrow a b : ts_valid a -> ts_valid b -> tv_nsec a < tv_nsec b ->
  - 2 ^ 63 < tv_sec a - tv_sec b < 2 ^ 63 ->
  (tv_sec a - tv_sec b < 1 -> ts_subtract a b = None) /\
  (1 <= tv_sec a - tv_sec b -> ts_subtract a b = Some {| tv_sec := tv_sec a - tv_sec b - 1; tv_nsec := 1000000000 + (tv_nsec b - tv_nsec a) |}).
Proof.
  destruct a as [s1 n1], b as [s2 n2]. unfold ts_valid, ns. cbn [tv_sec tv_nsec]. intros [A1 A2] [B1 B2] Hn Hr.
  unfold ts_subtract. cbn [tv_sec tv_nsec]. unfold NANOSECONDS. rewrite !checked_some by (p63; lia).
  replace (n1 - n2 <? 0) with true by lia. cbn zeta. cbn [tv_sec tv_nsec].
  rewrite (wrap64_id (- (n1 - n2))) by (p63; lia).
  assert (Q : Z.quot (- (n1 - n2)) 1000000000 = 0) by lia. rewrite Q. rewrite (wrap64_id (0 + 1)) by (p63; lia).
  rewrite (wrap64_id ((0 + 1) * 1000000000 - (n1 - n2))) by (p63; lia).
  rewrite wrap64_id by (p63; lia). split; intros H.
  - replace (_ <? 0) with true by lia. reflexivity.
  - replace (_ <? 0) with false by lia. do 2 f_equal; lia.
Qed.

(** The subtraction fails exactly when the difference is negative. *)
Lemma ts_sub_none a b : ts_valid a -> ts_valid b -> - 2 ^ 63 < tv_sec a - tv_sec b < 2 ^ 63 ->
  (ts_subtract a b = None <-> ns a - ns b < 0).
Proof.
  intros A B R. destruct (Z_le_dec (tv_nsec b) (tv_nsec a)) as [L|L].
  - destruct (ts_sub_ok a b A B L ltac:(lia)) as [H1 H2]. split; intros H; [|auto].
    destruct (Z_lt_dec (ns a - ns b) 0); [lia|]. destruct H1 as [r [E _]]; [lia|]. congruence.
  - destruct (ts_sub_borrow a b A B ltac:(lia) R) as [H1 H2]. unfold ns. destruct A as [_ A], B as [_ B]. split; intros H.
    + destruct (Z_lt_dec (tv_sec a - tv_sec b) 1) as [H'|H']; [lia|]. rewrite H2 in H by lia. discriminate.
    + apply H1. lia.
Qed.

Lemma deadline_ok rt mono abs : ts_valid rt -> ts_valid mono -> ts_valid abs ->
  0 <= tv_sec rt -> 0 <= tv_sec mono -> 0 <= tv_sec abs ->
  (ns abs < ns rt -> realtime_to_monotonic rt mono abs = DlTimedOut) /\
  (ns rt <= ns abs -> ns mono + (ns abs - ns rt) + 2000000000 < 2 ^ 63 * 1000000000 ->
     exists r, realtime_to_monotonic rt mono abs = DlOk r /\ ts_valid r /\
       ns mono + (ns abs - ns rt) <= ns r < ns mono + (ns abs - ns rt) + 2000000000 /\
       (tv_nsec rt <= tv_nsec abs -> ns r = ns mono + (ns abs - ns rt))).
Proof.
  intros R M A R0 M0 A0. unfold realtime_to_monotonic.
  assert (Rg : - 2 ^ 63 < tv_sec abs - tv_sec rt < 2 ^ 63) by (destruct R, A; p63; lia). split.
  - intros H. rewrite (proj2 (ts_sub_none abs rt A R Rg)) by lia. reflexivity.
  - intros H Ho. destruct (Z_le_dec (tv_nsec rt) (tv_nsec abs)) as [L|L].
    + destruct (proj1 (ts_sub_ok abs rt A R L ltac:(lia)) ltac:(lia)) as [d [E [V D]]]. rewrite E.
      assert (0 <= tv_sec d) by (destruct V; unfold ns in *; lia).
      destruct (ts_add_ok mono d M V ltac:(lia) ltac:(p63; lia)) as [r [E2 [V2 D2]]]. rewrite E2. exists r. repeat split; try apply V2; lia.
    + destruct (ts_sub_borrow abs rt A R ltac:(lia) Rg) as [_ H2].
      assert (1 <= tv_sec abs - tv_sec rt) by (destruct R as [_ R], A as [_ A]; unfold ns in *; lia). rewrite H2 by lia.
      destruct mono as [s1 n1], abs as [s2 n2], rt as [s3 n3]. unfold ts_valid, ns, ts_add in *. cbn [tv_sec tv_nsec] in *. unfold NANOSECONDS.
      rewrite !checked_some by (p63; lia). replace (_ || _) with false by lia. eexists. split; [reflexivity|]. cbn [tv_sec tv_nsec].
      rewrite wrap64_id by (p63; lia). p63. lia.
Qed.
