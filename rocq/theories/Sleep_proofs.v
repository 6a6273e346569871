From Verif Require Import Base Timespec_model Timespec_proofs Sleep_model.

(* The kernel sleeps for slept nanoseconds: no less than asked unless it is interrupted (EINTR 4), when it
   tells what is left. *)
Definition sound (k : kernel) (slept : timespec -> timespec -> Z) : Prop :=
  forall r m, ts_valid r -> 0 <= tv_sec r ->
    match k r m with
    | (None, _) => ns r <= slept r m
    | (Some e, rem) => e = 4 /\ ts_valid rem /\ 0 <= slept r m /\ 0 <= ns rem /\ ns rem = ns r - slept r m
    end.
Lemma i32_small x : 0 <= x < 2 ^ 31 -> i32 x = x.
Proof. intro H. unfold i32. rewrite Z.mod_small by lia. lia. Qed.
Lemma to_redox_valid t : ts_valid t -> to_redox t = t.
Proof. destruct t as [s n]. unfold ts_valid, to_redox. cbn. intros (_ & H). rewrite i32_small by lia. reflexivity. Qed.
Lemma zero_valid : ts_valid {| tv_sec := 0; tv_nsec := 0 |}.
Proof. unfold ts_valid. cbn. lia. Qed.

Lemma nanosleep_ok k slept rq rm : sound k slept -> ts_valid rq -> 0 <= tv_sec rq -> (forall t, rm = Some t -> ts_valid t) ->
  exists t, match nanosleep k rq rm with
            | (rm', None) => rm' = rm /\ ns rq <= t
            | (rm', Some e) => e = 4 /\ 0 <= t /\ t <= ns rq /\ (rm = None -> rm' = None) /\ (rm <> None -> exists left, rm' = Some left /\ ts_valid left /\ ns left = ns rq - t)
            end /\ t = slept rq (match rm with Some x => x | None => {| tv_sec := 0; tv_nsec := 0 |} end).
Proof.
  intros K V P M. set (m := match rm with Some x => x | None => {| tv_sec := 0; tv_nsec := 0 |} end). exists (slept rq m). split; [|reflexivity].
  unfold nanosleep. assert (E : (match rm with Some t => to_redox t | None => {| tv_sec := 0; tv_nsec := 0 |} end) = m).
  { unfold m. destruct rm as [t|]; [apply to_redox_valid; apply M; reflexivity|reflexivity]. }
  rewrite E, (to_redox_valid rq V). specialize (K rq m V P). destruct (k rq m) as [[e|] rem].
  - destruct K as (-> & A & B & C & D). cbn [Z.eqb Pos.eqb EINTR]. split; [reflexivity|]. split; [exact B|]. split; [lia|]. split.
    + intros ->. reflexivity.
    + intro NE. exists rem. destruct rm as [t|]; [|contradiction NE; reflexivity]. auto.
  - auto.
Qed.
Lemma sleep_ok k slept n : sound k slept -> 0 <= n < 2 ^ 32 ->
  sleep k n * 1000000000 <= Z.max 0 (n * 1000000000 - slept {| tv_sec := n; tv_nsec := 0 |} {| tv_sec := 0; tv_nsec := 0 |}) < (sleep k n + 1) * 1000000000.
Proof.
  intros K N. set (rq := {| tv_sec := n; tv_nsec := 0 |}). set (z := {| tv_sec := 0; tv_nsec := 0 |}).
  assert (V : ts_valid rq) by (unfold ts_valid, rq; cbn; lia).
  destruct (nanosleep_ok k slept rq (Some z) K V ltac:(cbn; lia)) as (t & R & T); [intros u U; injection U as <-; apply zero_valid|]. cbn beta iota in T. subst t.
  unfold sleep. fold rq z. assert (NR : ns rq = n * 1000000000) by (unfold ns, rq; cbn; lia). rewrite NR in R.
  destruct (nanosleep k rq (Some z)) as [rm' [e|]].
  - destruct R as (-> & A & B & _ & C). destruct (C ltac:(discriminate)) as (left & -> & VL & NL). destruct left as [s u]. unfold ts_valid in VL. unfold ns in NL. cbn in *.
    assert (0 <= s < 2 ^ 32) by lia. rewrite Z.mod_small by lia. lia.
  - destruct R as (-> & A). lia.
Qed.
Lemma usleep_ok k slept u : sound k slept -> 0 <= u < 2 ^ 32 ->
  let t := slept {| tv_sec := u / 1000000; tv_nsec := u mod 1000000 * 1000 |} {| tv_sec := 0; tv_nsec := 0 |} in
  (usleep k u = (0, None) /\ u * 1000 <= t) \/ (usleep k u = (-1, Some 4) /\ 0 <= t <= u * 1000).
Proof.
  intros K U. set (rq := {| tv_sec := u / 1000000; tv_nsec := (u mod 1000000 * 1000) mod 2 ^ 32 |}).
  assert (MB : 0 <= u mod 1000000 < 1000000) by (apply Z.mod_pos_bound; lia).
  assert (DB : 0 <= u / 1000000 <= u) by (split; [apply Z.div_pos; lia|apply Z.div_le_upper_bound; lia]).
  assert (NR : ns rq = u * 1000).
  { unfold ns, rq. cbn [tv_sec tv_nsec]. rewrite (Z.mod_small (u mod 1000000 * 1000)) by lia. pose proof (Z.div_mod u 1000000 ltac:(lia)). lia. }
  assert (V : ts_valid rq) by (unfold ts_valid, rq; cbn [tv_sec tv_nsec]; rewrite (Z.mod_small (u mod 1000000 * 1000)) by lia; lia).
  destruct (nanosleep_ok k slept rq None K V ltac:(cbn [rq tv_sec]; lia)) as (t & R & T); [discriminate|]. cbn beta iota in T. unfold usleep. fold rq. rewrite NR in R.
  replace {| tv_sec := u / 1000000; tv_nsec := u mod 1000000 * 1000 |} with rq by (unfold rq; rewrite Z.mod_small by lia; reflexivity). cbv zeta. rewrite <- T.
  destruct (nanosleep k rq None) as [rm' [e|]]; [right|left].
  - destruct R as (-> & A & B & _). auto.
  - destruct R as (_ & A). auto.
Qed.
