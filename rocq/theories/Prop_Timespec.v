(** C26: timespec arithmetic.  [ns t] is the time in nanoseconds, [ts_valid t]
    says tv_sec fits in time_t and 0 <= tv_nsec < 10^9. *)
From Verif Require Import Base Timespec_model Timespec_proofs.

(** Exact sum whenever it is representable and not negative in seconds.  Missing for
    the full claim: the refutation below. *)
Theorem C26_add_partial : forall a b, ts_valid a -> ts_valid b ->
  0 <= tv_sec a + tv_sec b -> ns a + ns b < 2 ^ 63 * 1000000000 ->
  exists r, ts_add a b = Some r /\ ts_valid r /\ ns r = ns a + ns b.
Proof. exact ts_add_ok. Qed.
Print Assumptions C26_add_partial.

Theorem C26_add_fails : forall a b, ts_valid a -> ts_valid b ->
  tv_sec a + tv_sec b < 0 \/ 2 ^ 63 <= tv_sec a + tv_sec b -> ts_add a b = None.
Proof. exact ts_add_none. Qed.
Print Assumptions C26_add_fails.

(** The carry out of the nanoseconds wraps to a time 2^64 seconds earlier. *)
Theorem C26_add_carry_wraps_refuted :
  exists a b r, ts_valid a /\ ts_valid b /\ ts_add a b = Some r /\ tv_sec r < 0 /\
    0 <= tv_sec a /\ 0 <= tv_sec b.
Proof.
  exists {| tv_sec := 9223372036854775807; tv_nsec := 999999999 |}, {| tv_sec := 0; tv_nsec := 1 |}.
  eexists. unfold ts_valid. cbn [tv_sec tv_nsec]. repeat split; try (vm_compute; congruence).
Qed.
Print Assumptions C26_add_carry_wraps_refuted.

(** Subtraction without borrow is exact; it fails exactly on negative differences.
    Missing: the borrow case, refuted below. *)
Theorem C26_subtract_partial : forall a b, ts_valid a -> ts_valid b -> tv_nsec b <= tv_nsec a ->
  - 2 ^ 63 <= tv_sec a - tv_sec b < 2 ^ 63 ->
  (0 <= ns a - ns b -> exists r, ts_subtract a b = Some r /\ ts_valid r /\ ns r = ns a - ns b) /\
  (ns a - ns b < 0 -> ts_subtract a b = None).
Proof. exact ts_sub_ok. Qed.
Print Assumptions C26_subtract_partial.

Theorem C26_subtract_fails_on_negative : forall a b, ts_valid a -> ts_valid b ->
  - 2 ^ 63 < tv_sec a - tv_sec b < 2 ^ 63 ->
  (ts_subtract a b = None <-> ns a - ns b < 0).
Proof. exact ts_sub_none. Qed.
Print Assumptions C26_subtract_fails_on_negative.

(** 5.0 s - 3.5 s gives 1 s + 1.5e9 ns: not normalised and one second too long. *)
Theorem C26_subtract_borrow_refuted :
  exists a b r, ts_valid a /\ ts_valid b /\ ts_subtract a b = Some r /\
    ~ ts_valid r /\ ns r = ns a - ns b + 1000000000.
Proof.
  exists {| tv_sec := 5; tv_nsec := 0 |}, {| tv_sec := 3; tv_nsec := 500000000 |}.
  eexists. unfold ts_valid. cbn [tv_sec tv_nsec]. repeat split; try (vm_compute; congruence).
  cbn [tv_sec tv_nsec]. intros [_ [_ H]]. vm_compute in H. discriminate.
Qed.
Print Assumptions C26_subtract_borrow_refuted.

(** Deadlines on the realtime clock turned into monotonic ones: never early, never
    wrapped, timed out exactly when already past; up to two seconds late. *)
Theorem C26_deadline_partial : forall rt mono abs, ts_valid rt -> ts_valid mono -> ts_valid abs ->
  0 <= tv_sec rt -> 0 <= tv_sec mono -> 0 <= tv_sec abs ->
  (ns abs < ns rt -> realtime_to_monotonic rt mono abs = DlTimedOut) /\
  (ns rt <= ns abs -> ns mono + (ns abs - ns rt) + 2000000000 < 2 ^ 63 * 1000000000 ->
     exists r, realtime_to_monotonic rt mono abs = DlOk r /\ ts_valid r /\
       ns mono + (ns abs - ns rt) <= ns r < ns mono + (ns abs - ns rt) + 2000000000 /\
       (tv_nsec rt <= tv_nsec abs -> ns r = ns mono + (ns abs - ns rt))).
Proof. exact deadline_ok. Qed.
Print Assumptions C26_deadline_partial.

Theorem C26_deadline_exact_refuted :
  exists rt mono abs r, ts_valid rt /\ ts_valid mono /\ ts_valid abs /\
    realtime_to_monotonic rt mono abs = DlOk r /\
    ns r = ns mono + (ns abs - ns rt) + 1999999998.
Proof.
  exists {| tv_sec := 100; tv_nsec := 999999999 |}, {| tv_sec := 7; tv_nsec := 0 |}, {| tv_sec := 101; tv_nsec := 0 |}.
  eexists. unfold ts_valid. cbn [tv_sec tv_nsec]. repeat split; try (vm_compute; congruence).
Qed.
Print Assumptions C26_deadline_exact_refuted.

Example C26_case :
  ts_valid {| tv_sec := 1; tv_nsec := 700000000 |} /\
  ts_add {| tv_sec := 1; tv_nsec := 700000000 |} {| tv_sec := 2; tv_nsec := 600000000 |} =
    Some {| tv_sec := 4; tv_nsec := 300000000 |} /\
  ts_subtract {| tv_sec := 4; tv_nsec := 300000000 |} {| tv_sec := 1; tv_nsec := 200000000 |} =
    Some {| tv_sec := 3; tv_nsec := 100000000 |} /\
  ts_subtract {| tv_sec := 1; tv_nsec := 0 |} {| tv_sec := 1; tv_nsec := 5 |} = None /\
  realtime_to_monotonic {| tv_sec := 50; tv_nsec := 1 |} {| tv_sec := 3; tv_nsec := 999999999 |}
    {| tv_sec := 52; tv_nsec := 2 |} = DlOk {| tv_sec := 6; tv_nsec := 0 |}.
Proof. unfold ts_valid. cbn [tv_sec tv_nsec]. repeat split; try (vm_compute; congruence). Qed.
