(* C138: timers.  C139: alarm. *)
From Verif Require Import Base Timespec_model Timer_model Timer_spec Timer_proofs.
From Coq Require Import List Lia.
Import ListNotations.
Open Scope Z_scope.

(* A new timer has a name no other has and does not touch the others. *)
Theorem C138_create : forall c l0 w clock_id n s f w1 id, acts (boot c) l0 = Some w -> timer_create w clock_id n s f = (w1, inl id) ->
  find_timer (timers w) id = None /\ (exists t, find_timer (timers w1) id = Some t /\ idle t /\ clock t = clock_id /\ notify t = n /\ signo t = s /\ has_function t = f) /\
  forall i, i <> id -> find_timer (timers w1) i = find_timer (timers w) i.
Proof. exact created. Qed.
Print Assumptions C138_create.

(* A timer that rests, armed: whatever others do and whenever its thread runs, it notifies, once for
   each expiry, never before it is due; when it is due it can notify, before it cannot, and having
   run out it rests.  Partial: a timer that runs, see below, and intervals count from when the thread
   ran. *)
Theorem C138_runs_partial : forall c l0 w id t flags iv v old w1 res l w', acts (boot c) l0 = Some w -> find_timer (timers w) id = Some t -> idle t -> notifies t -> clocks_sane w ->
  sane iv -> sane v -> nanos v <> 0 -> timer_settime w id flags iv v old = (w1, res) -> Forall (hands_off id) l -> acts w1 l = Some w' ->
  let d := if Z.land flags 1 =? 0 then nanos (clk w (clock t)) + nanos v else nanos v in
  exists new, snd res = None /\ sent w' = sent w ++ new /\ on_time d (nanos iv) (times id new) /\
    match due d (nanos iv) (times id new) with
    | Some x => (x <= nanos (clk w' (clock t)) -> exists k w2, acts w' k = Some w2 /\ sent w2 = sent w' ++ [(id, clk w' (clock t))]) /\
                forall n q w2, act w' (Expire id n q) = Some w2 -> x <= nanos (clk w' (clock t))
    | None => (exists t', find_timer (timers w') id = Some t' /\ idle t' /\ clock t' = clock t /\ notify t' = notify t /\ signo t' = signo t /\ has_function t' = has_function t) /\
              forall n q, act w' (Expire id n q) = None
    end.
Proof. exact timer_runs. Qed.
Print Assumptions C138_runs_partial.

(* timer_gettime on the way: the interval and the time that remains.  Partial: when there is no
   borrow; otherwise only the seconds, rounded up. *)
Theorem C138_gettime_partial : forall c l0 w id t flags iv v old w1 res l w', acts (boot c) l0 = Some w -> find_timer (timers w) id = Some t -> idle t -> notifies t -> clocks_sane w ->
  sane iv -> sane v -> nanos v <> 0 -> timer_settime w id flags iv v old = (w1, res) -> Forall (hands_off id) l -> acts w1 l = Some w' ->
  let d := if Z.land flags 1 =? 0 then nanos (clk w (clock t)) + nanos v else nanos v in
  exists new iv' v', sent w' = sent w ++ new /\ snd (timer_gettime w' id) = inl (iv', v') /\
    let now := nanos (clk w' (clock t)) in
    match due d (nanos iv) (times id new) with
    | Some x => iv' = iv /\ (x < now -> v' = ts_zero) /\ (now <= x -> tv_nsec (clk w' (clock t)) <= x mod 1000000000 -> nanos v' = x - now) /\
                (now <= x -> 0 <= tv_sec v' /\ tv_sec v' + (if 0 <? tv_nsec v' then 1 else 0) = seconds_up (x - now))
    | None => iv' = ts_zero /\ v' = ts_zero
    end.
Proof. exact timer_shows. Qed.
Print Assumptions C138_gettime_partial.

(* A timer deleted never notifies again, whatever happens, and its name is not given again. *)
Theorem C138_delete : forall c l0 w id t l w', acts (boot c) l0 = Some w -> find_timer (timers w) id = Some t -> acts (fst (timer_delete w id)) l = Some w' ->
  snd (timer_delete w id) = None /\ find_timer (timers w') id = None /\ exists new, sent w' = sent w ++ new /\ times id new = [].
Proof. exact deleted. Qed.
Print Assumptions C138_delete.

Theorem C138_unknown : forall w id, find_timer (timers w) id = None -> forall flags iv v old,
  timer_delete w id = (w, Some 22) /\ timer_gettime w id = (w, inr 22) /\ timer_settime w id flags iv v old = (w, (None, Some 22)).
Proof. exact unknown. Qed.
Print Assumptions C138_unknown.

Definition C138_sec (n : Z) : timespec := {| tv_sec := n; tv_nsec := 0 |}.
Definition C138_c0 : Z -> timespec := fun _ => C138_sec 100.
(* A timer of 10 seconds, then each 5 seconds; its thread is late by 2 seconds once. *)
Definition C138_ex : list action :=
  [Create 1 0 14 false; Settime 1 0 (C138_sec 5) (C138_sec 10) false; Start 1; Tick 1 (C138_sec 112); Expire 1 0 true; Gettime 1; Create 4 0 14 false; Tick 1 (C138_sec 118); Expire 1 0 true].
Example C138_runs_nonvacuous : exists w t w', acts (boot C138_c0) [Create 1 0 14 false] = Some w /\ find_timer (timers w) 1 = Some t /\ idle t /\ notifies t /\ clocks_sane w /\
  Forall (hands_off 1) (skipn 2 C138_ex) /\ acts (boot C138_c0) C138_ex = Some w' /\ sent w' = [(1, C138_sec 112); (1, C138_sec 118)] /\
  on_time 110000000000 5000000000 (times 1 (sent w')) /\ due 110000000000 5000000000 (times 1 (sent w')) = Some 123000000000.
Proof.
  do 3 eexists. split; [vm_compute; reflexivity|]. split; [vm_compute; reflexivity|]. split; [unfold idle; cbn; auto|]. split; [left; vm_compute; reflexivity|].
  split; [intro c; unfold sane; cbn; lia|]. split; [repeat constructor; unfold sane; cbn; lia|]. split; [vm_compute; reflexivity|]. split; [vm_compute; reflexivity|]. split; [vm_compute; repeat split; discriminate|vm_compute; reflexivity].
Qed.
Example C138_gettime_nonvacuous : exists w, acts (boot C138_c0) (firstn 5 C138_ex) = Some w /\ snd (timer_gettime w 1) = inl (C138_sec 5, C138_sec 5).
Proof. eexists. split; [vm_compute; reflexivity|vm_compute; reflexivity]. Qed.
Example C138_delete_nonvacuous : exists w w', acts (boot C138_c0) (firstn 5 C138_ex) = Some w /\ acts (fst (timer_delete w 1)) [Tick 1 (C138_sec 300); Create 1 0 14 false] = Some w' /\ find_timer (timers w') 1 = None /\ next_id w' = 3.
Proof. do 2 eexists. split; [vm_compute; reflexivity|]. split; [vm_compute; reflexivity|]. split; [vm_compute; reflexivity|vm_compute; reflexivity]. Qed.

(* A periodic timer that is disarmed goes on. *)
Theorem C138_disarm_refuted : exists w, acts (boot C138_c0)
  [Create 1 0 14 false; Settime 1 0 (C138_sec 5) (C138_sec 10) false; Start 1; Settime 1 0 ts_zero ts_zero false;
   Tick 1 (C138_sec 110); Expire 1 0 true; Tick 1 (C138_sec 115); Expire 1 0 true] = Some w /\ sent w = [(1, C138_sec 115)].
Proof. eexists. split; [vm_compute; reflexivity|vm_compute; reflexivity]. Qed.
Print Assumptions C138_disarm_refuted.

(* Armed anew for later, a timer notifies at the old time and not at the new one. *)
Theorem C138_rearm_refuted : exists w, acts (boot C138_c0)
  [Create 1 0 14 false; Settime 1 0 ts_zero (C138_sec 10) false; Start 1; Settime 1 0 ts_zero (C138_sec 100) false;
   Tick 1 (C138_sec 110); Expire 1 0 true; Tick 1 (C138_sec 200)] = Some w /\ sent w = [(1, C138_sec 110)] /\ (forall n q, act w (Expire 1 n q) = None) /\ act w (Start 1) = None.
Proof. eexists. split; [vm_compute; reflexivity|]. split; [vm_compute; reflexivity|]. split; [intros; vm_compute; reflexivity|vm_compute; reflexivity]. Qed.
Print Assumptions C138_rearm_refuted.

(* Disarmed and armed anew, it does not notify at all. *)
Theorem C138_lost_refuted : exists w, acts (boot C138_c0)
  [Create 1 0 14 false; Settime 1 0 ts_zero (C138_sec 10) false; Start 1; Settime 1 0 ts_zero ts_zero false; Settime 1 0 ts_zero (C138_sec 20) false;
   Tick 1 (C138_sec 110); Expire 1 0 true; Tick 1 (C138_sec 120)] = Some w /\ sent w = [] /\ (forall n q, act w (Expire 1 n q) = None) /\ act w (Start 1) = None.
Proof. eexists. split; [vm_compute; reflexivity|]. split; [vm_compute; reflexivity|]. split; [intros; vm_compute; reflexivity|vm_compute; reflexivity]. Qed.
Print Assumptions C138_lost_refuted.

(* Disarmed before its thread started, it notifies all the same. *)
Theorem C138_start_race_refuted : exists w, acts (boot C138_c0)
  [Create 1 0 14 false; Settime 1 0 ts_zero (C138_sec 10) false; Settime 1 0 ts_zero ts_zero false; Start 1; Tick 1 (C138_sec 110); Expire 1 0 true] = Some w /\ sent w = [(1, C138_sec 110)].
Proof. eexists. split; [vm_compute; reflexivity|vm_compute; reflexivity]. Qed.
Print Assumptions C138_start_race_refuted.

(* timer_gettime of a disarmed timer tells a time. *)
Theorem C138_disarmed_shown_refuted : exists w, acts (boot C138_c0)
  [Create 1 0 14 false; Settime 1 0 ts_zero (C138_sec 10) false; Settime 1 0 ts_zero ts_zero false] = Some w /\ snd (timer_gettime w 1) = inl (ts_zero, C138_sec 10).
Proof. eexists. split; [vm_compute; reflexivity|vm_compute; reflexivity]. Qed.
Print Assumptions C138_disarmed_shown_refuted.

(* At 100.5 seconds 9.5 seconds remain to 110; shown are 9 seconds and 1.5 times 10^9 nanoseconds. *)
Theorem C138_remaining_refuted : exists w, acts (boot C138_c0)
  [Create 1 0 14 false; Settime 1 0 ts_zero (C138_sec 10) false; Tick 1 {| tv_sec := 100; tv_nsec := 500000000 |}] = Some w /\
  snd (timer_gettime w 1) = inl (ts_zero, {| tv_sec := 9; tv_nsec := 1500000000 |}).
Proof. eexists. split; [vm_compute; reflexivity|vm_compute; reflexivity]. Qed.
Print Assumptions C138_remaining_refuted.

(* An interval counts from when the thread ran: due at 110 and handled at 112, the next is not at 115. *)
Theorem C138_drift_refuted : exists w, acts (boot C138_c0) (firstn 5 C138_ex ++ [Tick 1 (C138_sec 116)]) = Some w /\ forall n q, act w (Expire 1 n q) = None.
Proof. eexists. split; [vm_compute; reflexivity|]. intros [|[|n]] q; vm_compute; reflexivity. Qed.
Print Assumptions C138_drift_refuted.

(* If once the signal cannot be queued, the timer is dead, armed anew or not. *)
Theorem C138_queue_full_refuted : exists w, acts (boot C138_c0)
  [Create 1 0 14 false; Settime 1 0 (C138_sec 5) (C138_sec 10) false; Start 1; Tick 1 (C138_sec 110); Expire 1 0 false; Settime 1 0 (C138_sec 5) (C138_sec 10) false; Tick 1 (C138_sec 200)] = Some w /\
  (forall n q, act w (Expire 1 n q) = None) /\ act w (Start 1) = None.
Proof. eexists. split; [vm_compute; reflexivity|]. split; [intros; vm_compute; reflexivity|vm_compute; reflexivity]. Qed.
Print Assumptions C138_queue_full_refuted.

(* Of the real-time signals only the first can be used, and 2 times 10^9 nanoseconds are accepted. *)
Theorem C138_arguments_refuted : (forall w c s f, 36 <= s <= 64 -> timer_create w c 0 s f = (w, inr 22)) /\
  exists w w' r, acts (boot C138_c0) [Create 1 0 14 false] = Some w /\ timer_settime w 1 0 ts_zero {| tv_sec := 0; tv_nsec := 2000000000 |} false = (w', (r, None)).
Proof.
  split.
  - intros w c s f S. unfold timer_create. change (0 =? SIGEV_THREAD) with false. change (0 =? SIGEV_SIGNAL) with true. unfold NSIG, SIGRTMIN. destruct (Z.ltb_spec s 32); [lia|]. destruct (Z.eqb_spec s 35); [lia|].
    rewrite Bool.andb_false_r. vm_compute; reflexivity.
  - do 3 eexists. split; [vm_compute; reflexivity|vm_compute; reflexivity].
Qed.
Print Assumptions C138_arguments_refuted.

(* alarm with no alarm outstanding: SIGALRM once, when the time has come, not before; another call on
   the way tells the seconds that remain, rounded up, and 0 when there is none.  Partial: alarms that
   replace one, see below. *)
Theorem C139_alarm_partial : forall c l0 w a n, acts (boot c) l0 = Some w -> clocks_sane w -> ready w a -> 0 < n < 2 ^ 32 ->
  exists w1 id t, alarm w a n = (w1, Some id, 0) /\ find_timer (timers w1) id = Some t /\ clock t = 1 /\ notify t = 0 /\ signo t = 14 /\
  forall l w', Forall (hands_off id) l -> acts w1 l = Some w' ->
  let d := nanos (clk w 1) + n * 1000000000 in
  let now := nanos (clk w' 1) in
  exists new, sent w' = sent w ++ new /\ on_time d 0 (times id new) /\
    match due d 0 (times id new) with
    | Some x => (x <= now -> exists k w2, acts w' k = Some w2 /\ sent w2 = sent w' ++ [(id, clk w' 1)]) /\
                (forall k q w2, act w' (Expire id k q) = Some w2 -> x <= now) /\
                forall m, snd (alarm w' (Some id) m) = if now <=? x then seconds_up (x - now) else 0
    | None => ready w' (Some id) /\ (forall k q, act w' (Expire id k q) = None) /\ forall m, snd (alarm w' (Some id) m) = 0
    end.
Proof. exact alarm_ok. Qed.
Print Assumptions C139_alarm_partial.

Example C139_alarm_nonvacuous : exists w1 w' w2, alarm (boot C138_c0) None 10 = (w1, Some 1, 0) /\ acts w1 [Start 1; Tick 1 {| tv_sec := 106; tv_nsec := 1 |}] = Some w' /\ snd (alarm w' (Some 1) 0) = 4 /\
  acts w' [Tick 1 (C138_sec 110); Expire 1 0 true] = Some w2 /\ sent w2 = [(1, C138_sec 110)] /\ snd (alarm w2 (Some 1) 3) = 0.
Proof. do 3 eexists. split; [vm_compute; reflexivity|]. split; [vm_compute; reflexivity|]. split; [vm_compute; reflexivity|]. split; [vm_compute; reflexivity|]. split; [vm_compute; reflexivity|vm_compute; reflexivity]. Qed.

(* Ten seconds remain of an alarm that was cancelled. *)
Theorem C139_cancelled_refuted : exists w1 w2, alarm (boot C138_c0) None 10 = (w1, Some 1, 0) /\ alarm w1 (Some 1) 0 = (w2, Some 1, 10) /\ snd (alarm w2 (Some 1) 0) = 10.
Proof. do 2 eexists. split; [vm_compute; reflexivity|]. split; [vm_compute; reflexivity|vm_compute; reflexivity]. Qed.
Print Assumptions C139_cancelled_refuted.

(* alarm(1) and then alarm(100): SIGALRM after a second, and none later. *)
Theorem C139_replaced_refuted : exists w1 w2 w3 w4, alarm (boot C138_c0) None 1 = (w1, Some 1, 0) /\ acts w1 [Start 1] = Some w2 /\ alarm w2 (Some 1) 100 = (w3, Some 1, 1) /\
  acts w3 [Tick 1 (C138_sec 101); Expire 1 0 true; Tick 1 (C138_sec 200)] = Some w4 /\ sent w4 = [(1, C138_sec 101)] /\ (forall n q, act w4 (Expire 1 n q) = None) /\ act w4 (Start 1) = None.
Proof. do 4 eexists. do 5 (split; [vm_compute; reflexivity|]). split; [intros; vm_compute; reflexivity|vm_compute; reflexivity]. Qed.
Print Assumptions C139_replaced_refuted.

(* alarm(10), alarm(0) and alarm(20): no SIGALRM at all. *)
Theorem C139_lost_refuted : exists w1 w2 w3 w4 w5, alarm (boot C138_c0) None 10 = (w1, Some 1, 0) /\ acts w1 [Start 1] = Some w2 /\ alarm w2 (Some 1) 0 = (w3, Some 1, 10) /\
  fst (fst (alarm w3 (Some 1) 20)) = w4 /\ acts w4 [Tick 1 (C138_sec 110); Expire 1 0 true; Tick 1 (C138_sec 120)] = Some w5 /\ sent w5 = [] /\ (forall n q, act w5 (Expire 1 n q) = None) /\ act w5 (Start 1) = None.
Proof. do 5 eexists. do 6 (split; [vm_compute; reflexivity|]). split; [intros; vm_compute; reflexivity|vm_compute; reflexivity]. Qed.
Print Assumptions C139_lost_refuted.
