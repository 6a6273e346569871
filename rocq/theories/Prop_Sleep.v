(* Property C144: sleep, usleep and nanosleep. *)
From Verif Require Import Base Timespec_model Timespec_proofs Sleep_model Sleep_proofs.

(* C144, sleep returns the whole seconds that were not slept, 0 when none is left *)
Theorem C144_sleep k slept n : sound k slept -> 0 <= n < 2 ^ 32 ->
  sleep k n * 1000000000 <= Z.max 0 (n * 1000000000 - slept {| tv_sec := n; tv_nsec := 0 |} {| tv_sec := 0; tv_nsec := 0 |}) < (sleep k n + 1) * 1000000000.
Proof. exact (sleep_ok k slept n). Qed.
Print Assumptions C144_sleep.
(* a kernel that is interrupted after 2.3 seconds *)
Definition interrupted : kernel := fun r _ =>
  let left := ns r - 2300000000 in if left <=? 0 then (None, {| tv_sec := 0; tv_nsec := 0 |}) else (Some 4, {| tv_sec := left / 1000000000; tv_nsec := left mod 1000000000 |}).
Lemma interrupted_sound : sound interrupted (fun _ _ => 2300000000).
Proof.
  intros r m V P. unfold interrupted. cbv zeta. destruct (Z.leb_spec (ns r - 2300000000) 0); [lia|]. split; [reflexivity|].
  unfold ts_valid in V. unfold ns in *. split; [|split; [lia|]]; unfold ts_valid; cbn [tv_sec tv_nsec].
  - pose proof (Z.mod_pos_bound (tv_sec r * 1000000000 + tv_nsec r - 2300000000) 1000000000 ltac:(lia)).
    split; [|lia]. split; [pose proof (Z.div_pos (tv_sec r * 1000000000 + tv_nsec r - 2300000000) 1000000000); lia|apply Z.div_lt_upper_bound; lia].
  - pose proof (Z.div_mod (tv_sec r * 1000000000 + tv_nsec r - 2300000000) 1000000000 ltac:(lia)). lia.
Qed.
Example C144_sleep_case : sleep interrupted 10 = 7 /\ sleep interrupted 2 = 0 /\ sound interrupted (fun _ _ => 2300000000).
Proof. split; [reflexivity|]. split; [reflexivity|exact interrupted_sound]. Qed.

(* C144, usleep sleeps the microseconds asked for, or is interrupted and says so *)
Theorem C144_usleep k slept u : sound k slept -> 0 <= u < 2 ^ 32 ->
  let t := slept {| tv_sec := u / 1000000; tv_nsec := u mod 1000000 * 1000 |} {| tv_sec := 0; tv_nsec := 0 |} in
  (usleep k u = (0, None) /\ u * 1000 <= t) \/ (usleep k u = (-1, Some 4) /\ 0 <= t <= u * 1000).
Proof. exact (usleep_ok k slept u). Qed.
Print Assumptions C144_usleep.
Example C144_usleep_case : usleep interrupted 4000000 = (-1, Some 4) /\ usleep interrupted 1999999 = (0, None).
Proof. split; reflexivity. Qed.

(* C144, nanosleep: a valid request is slept in full, or EINTR is given with what is left in *rmtp if there is one.
   Missing: malformed requests (see C144_range_refuted). *)
Theorem C144_nanosleep_partial k slept rq rm : sound k slept -> ts_valid rq -> 0 <= tv_sec rq -> (forall t, rm = Some t -> ts_valid t) ->
  exists t, match nanosleep k rq rm with
            | (rm', None) => rm' = rm /\ ns rq <= t
            | (rm', Some e) => e = 4 /\ 0 <= t /\ t <= ns rq /\ (rm = None -> rm' = None) /\ (rm <> None -> exists left, rm' = Some left /\ ts_valid left /\ ns left = ns rq - t)
            end /\ t = slept rq (match rm with Some x => x | None => {| tv_sec := 0; tv_nsec := 0 |} end).
Proof. exact (nanosleep_ok k slept rq rm). Qed.
Print Assumptions C144_nanosleep_partial.
Example C144_nanosleep_case : nanosleep interrupted {| tv_sec := 3; tv_nsec := 1 |} (Some {| tv_sec := 0; tv_nsec := 0 |}) = (Some {| tv_sec := 0; tv_nsec := 700000001 |}, Some 4).
Proof. reflexivity. Qed.

(* C144, errors: what the kernel refuses is reported with its errno, and the remainder is left alone *)
Theorem C144_errors k rq rm e left : ts_valid rq -> (forall t, rm = Some t -> ts_valid t) -> e <> 4 ->
  k rq (match rm with Some x => x | None => {| tv_sec := 0; tv_nsec := 0 |} end) = (Some e, left) -> nanosleep k rq rm = (rm, Some e).
Proof.
  intros V VR N K. assert (R : forall t, ts_valid t -> to_redox t = t).
  { intros [x y] (Y1 & Y2). unfold to_redox, i32. cbn [tv_sec tv_nsec] in *. rewrite Z.mod_small by lia. f_equal. lia. }
  unfold nanosleep. rewrite (R rq V). replace (match rm with Some t => to_redox t | None => _ end) with (match rm with Some x => x | None => {| tv_sec := 0; tv_nsec := 0 |} end).
  - rewrite K. unfold EINTR. destruct (Z.eqb_spec e 4); [contradiction|reflexivity].
  - destruct rm as [t|]; [symmetry; apply R; apply VR; reflexivity|reflexivity].
Qed.
Print Assumptions C144_errors.
Example C144_errors_case : nanosleep (fun _ r => (Some 22, r)) {| tv_sec := -1; tv_nsec := 5 |} None = (None, Some 22).
Proof. eapply C144_errors; [split; cbn; lia|discriminate|discriminate|reflexivity]. Qed.

(* C144, range: nanoseconds of 2^32 are taken for none, whatever the kernel checks *)
Theorem C144_range_refuted k rm : nanosleep k {| tv_sec := 0; tv_nsec := 2 ^ 32 |} rm = nanosleep k {| tv_sec := 0; tv_nsec := 0 |} rm.
Proof. reflexivity. Qed.
Print Assumptions C144_range_refuted.
