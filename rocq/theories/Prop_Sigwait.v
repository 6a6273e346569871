(* C155: sigwait, sigwaitinfo and sigtimedwait. *)
From Verif Require Import Base Sigwait_model Sigwait_spec Sigwait_proofs.
Open Scope Z_scope.

Definition only (l : list Z) : Z -> bool := fun i => existsb (Z.eqb i) l.
(* signals 10 (of the process) and 15 (of the thread) are pending, and 34 is queued twice *)
Definition s0 : state := State (only [14]) (fun i => (100 + i, 1)) (only [9; 33]) (fun i => (200 + i, 2)) (fun i => if i =? 33 then [(-1, 7, 8, 9); (-1, 7, 8, 10)] else []).
Definition no_nap : (Z -> bool) -> state -> state * slept := fun _ s => (s, Timeout).

(* whatever other threads and the kernel do meanwhile: the signal returned is in the set, was pending, and this instance of it is the only thing taken;
   after a failure nothing has been taken *)
Theorem C155_once : forall e nap n s set s' r err out, keeps e -> sigtimedwait e nap n s set = (s', r, err, out) ->
  match out with
  | Some x => err = None /\ r = signo x /\ 1 <= r <= 64 /\ set (r - 1) = true /\ exists s1, evolves e nap set s s1 /\ takes s1 s' x
  | None => r = -1 /\ err <> None /\ evolves e nap set s s'
  end.
Proof.
  intros e nap n s set s' r err out K E. unfold sigtimedwait in E. pose proof (await_ok e nap set K n s) as A. destruct (await_signal_sync e nap n s set) as [[n1 s1] [x|c]].
  - assert (s' = s1 /\ r = signo x /\ err = None /\ out = Some x) as (-> & -> & -> & ->) by (repeat split; congruence). destruct A as ((A1 & A2) & A3). auto.
  - assert (s' = s1 /\ r = -1 /\ err = Some c /\ out = None) as (-> & -> & -> & ->) by (repeat split; congruence). split; [reflexivity|]. split; [discriminate|exact A].
Qed.
Print Assumptions C155_once.
(* another thread takes signal 10 before this one can: it gets 15 *)
Definition thief : env := fun n s => if Nat.eqb n 3 then State (thread s) (thread_sender s) (clear (process s) 9) (process_sender s) (queue s) else s.
Example C155_once_case : exists s' x, sigtimedwait thief no_nap 0 s0 (only [9; 14]) = (s', 15, None, Some x) /\ exists s1, evolves thief no_nap (only [9; 14]) s0 s1 /\ takes s1 s' x.
Proof.
  destruct (sigtimedwait thief no_nap 0 s0 (only [9; 14])) as [[[s' r] err] out] eqn:E.
  assert (K : keeps thief) by (intros n s i H; unfold thief; destruct (Nat.eqb n 3); exact H). pose proof (C155_once _ _ _ _ _ _ _ _ _ K E) as H.
  vm_compute in E. assert (R : r = 15) by congruence. assert (O : out <> None) by congruence. destruct out as [x|]; [|contradiction]. exists s', x. destruct H as (-> & _ & _ & _ & H). subst r. split; [reflexivity|exact H].
Qed.

(* nothing else happening, a pending signal of the set is taken at once, the lowest first, the thread's before the process's, and its sender is reported *)
Theorem C155_pending_partial : forall nap n s set i, queued s -> first s set i ->
  exists s' x, sigtimedwait quiet nap n s set = (s', i + 1, None, Some x) /\ takes s s' x /\ sender s i x.
Proof.
  intros nap n s set i Q F. destruct (quiet_some 64 (S (S n)) s set i Q F) as (n' & s' & x & E & T & S1 & S2). exists s', x. unfold sigtimedwait. rewrite await_quiet.
  rewrite E. rewrite S1. auto.
Qed.
Print Assumptions C155_pending_partial.
Example C155_pending_case : exists s' x, sigtimedwait quiet no_nap 0 s0 (only [33; 63]) = (s', 34, None, Some x) /\ value x = 9 /\ queue s' 33 = [(-1, 7, 8, 10)].
Proof.
  assert (Q : queued s0) by (intros i B P E; cbn [queue s0] in E; destruct (Z.eqb_spec i 33) as [->|]; [discriminate|]; cbn [process s0 only existsb] in P; lia).
  destruct (C155_pending_partial no_nap 0 s0 (only [33; 63]) 33 Q) as (s' & x & E & T & S).
  - split; [repeat split; try lia; right; reflexivity|]. intros j (B & M & W). cbn [only existsb] in M. lia.
  - exists s', x. split; [exact E|]. cbn in S. destruct S as (q & S). split; [congruence|].
    vm_compute in E. injection E as <- <-. reflexivity.
Qed.
(* otherwise it is waited for *)
Theorem C155_arrives_partial : forall hs rest n s set i, (forall k, (k < length hs)%nat -> none (after (firstn k hs) s) set) -> hs <> [] ->
  queued (after hs s) -> first (after hs s) set i ->
  exists s' x, sigtimedwait quiet (sleep (hs ++ rest)) n s set = (s', i + 1, None, Some x) /\ takes (after hs s) s' x /\ sender (after hs s) i x.
Proof.
  intros hs rest n s set i N NE Q F. unfold sigtimedwait. rewrite await_quiet.
  rewrite (quiet_none 65 (S (S n)) s set) by (apply (N 0%nat); destruct hs; [contradiction|cbn; lia]). rewrite sleep_skip by exact N. rewrite (some_sleep rest _ set i (proj1 F)).
  destruct (quiet_some 64 (S (S (S (S n)))) (after hs s) set i Q F) as (n' & s' & x & E & T & S1 & S2). exists s', x. rewrite E, S1. auto.
Qed.
Print Assumptions C155_arrives_partial.
Definition arrives (i : Z) (s : state) : state := State (thread s) (thread_sender s) (fun j => (j =? i) || process s j) (process_sender s) (queue s).
Example C155_arrives_case : exists s' x, sigtimedwait quiet (sleep [arrives 3; arrives 4; arrives 5]) 0 s0 (only [4; 5]) = (s', 5, None, Some x) /\ pid x = 204.
Proof.
  destruct (C155_arrives_partial [arrives 3; arrives 4] [arrives 5] 0 s0 (only [4; 5]) 4) as (s' & x & E & T & S).
  - intros k B j (J & M & W). cbn [only existsb] in M. assert (j = 4 \/ j = 5) as [-> | ->] by lia; (destruct k as [|[|k]]; [| |cbn in B; lia]); destruct W as [W|W]; vm_compute in W; discriminate.
  - discriminate.
  - intros i B P. cbn [after arrives process s0 queue] in P |- *. destruct (Z.eqb_spec i 33); [discriminate|]. cbn [only existsb] in P. lia.
  - split; [repeat split; try lia; right; reflexivity|]. intros j (J & M & _). cbn [only existsb] in M. lia.
  - exists s', x. split; [exact E|]. assert (P : (pid x, uid x) = (204, 2)) by exact S. congruence.
Qed.
(* if none comes in time the call fails with EAGAIN, having taken nothing *)
Theorem C155_timeout : forall hs n s set, (forall k, (k <= length hs)%nat -> none (after (firstn k hs) s) set) ->
  sigtimedwait quiet (sleep hs) n s set = (after hs s, -1, Some EAGAIN, None).
Proof.
  intros hs n s set N. unfold sigtimedwait. rewrite await_quiet. rewrite (quiet_none 65 (S (S n)) s set) by (exact (N 0%nat ltac:(lia))).
  rewrite <- (app_nil_r hs) at 1. rewrite sleep_skip by (intros; apply N; lia). assert (NA : none (after hs s) set) by (rewrite <- (firstn_all hs) at 1; apply N; lia).
  cbn [sleep]. rewrite none_sleep by exact NA. rewrite quiet_none by exact NA. reflexivity.
Qed.
Print Assumptions C155_timeout.
Example C155_timeout_case : snd (sigtimedwait quiet (sleep [arrives 3]) 0 s0 (only [4])) = None.
Proof.
  rewrite C155_timeout; [reflexivity|]. intros k B j (J & M & W). cbn [only existsb] in M. assert (j = 4) as -> by lia. destruct k as [|[|k]]; [| |cbn in B; lia]; destruct W as [W|W]; vm_compute in W; discriminate.
Qed.
(* sigwait stores what sigtimedwait returns *)
Theorem C155_sigwait_partial : forall e nap n s set s' r x, keeps e -> sigtimedwait e nap n s set = (s', r, None, Some x) -> sigwait e nap n s set = (s', 0, Some r).
Proof.
  intros e nap n s set s' r x K E. pose proof (C155_once _ _ _ _ _ _ _ _ _ K E) as (_ & -> & B & _). unfold sigwait. rewrite E. destruct (Z.ltb_spec (signo x) 0); [lia|reflexivity].
Qed.
Print Assumptions C155_sigwait_partial.
Example C155_sigwait_case : exists s', sigwait quiet no_nap 0 s0 (only [14]) = (s', 0, Some 15).
Proof.
  destruct (sigtimedwait quiet no_nap 0 s0 (only [14])) as [[[s' r] err] out] eqn:E. pose proof E as E'. vm_compute in E'. exists s'. destruct err as [c|]; [discriminate|]. destruct out as [x|]; [|discriminate].
  assert (r = 15) as -> by congruence. apply (C155_sigwait_partial _ _ _ _ _ _ _ x); [intros n s i H; exact H|exact E].
Qed.
(* errors of sigwait are returned as -1, not as their number *)
Theorem C155_sigwait_refuted : exists e nap n s set s' err, keeps e /\ sigtimedwait e nap n s set = (s', -1, Some err, None) /\ sigwait e nap n s set = (s', -1, None) /\ err <> -1.
Proof. exists quiet, no_nap, 0%nat, s0, (only [4]). do 2 eexists. split; [intros n s i H; exact H|]. split; [vm_compute; reflexivity|]. split; [vm_compute; reflexivity|discriminate]. Qed.
Print Assumptions C155_sigwait_refuted.
(* EAGAIN although the time is not over: the sleep is interrupted, and another thread takes the signal first *)
Theorem C155_early_refuted : exists e hs n s set s', keeps e /\ snd (sleep hs set s) = Interrupted /\ sigtimedwait e (sleep hs) n s set = (s', -1, Some EAGAIN, None).
Proof.
  exists (fun n s => if Nat.eqb n 3 then State (thread s) (thread_sender s) (clear (process s) 4) (process_sender s) (queue s) else s), [arrives 4], 0%nat, s0, (only [4]). eexists.
  split; [intros n s i H; cbn; destruct (Nat.eqb n 3); exact H|]. split; vm_compute; reflexivity.
Qed.
Print Assumptions C155_early_refuted.
(* a signal the thread does not block (allowed), for which there is a handler, does not interrupt the wait if it is not in the set *)
Theorem C155_interrupt_refuted : exists (allowed : Z -> bool) hs s set i, allowed i = true /\ set i = false /\ process s i = false /\ process (after hs s) i = true /\ none s allowed /\
  snd (sleep hs allowed s) = Interrupted /\ sigtimedwait quiet (sleep hs) 0 s set = (after hs s, -1, Some EAGAIN, None).
Proof.
  exists (only [2]), [arrives 2; arrives 3], s0, (only [4]), 2. split; [reflexivity|]. split; [reflexivity|]. split; [reflexivity|]. split; [reflexivity|].
  split; [intros j (B & M & W); cbn [only existsb] in M; assert (j = 2) as -> by lia; destruct W as [W|W]; vm_compute in W; discriminate|]. split; [vm_compute; reflexivity|].
  apply C155_timeout. intros k B j (J & M & W). cbn [only existsb] in M. assert (j = 4) as -> by lia. destruct k as [|[|[|k]]]; [| | |cbn in B; lia]; destruct W as [W|W]; vm_compute in W; discriminate.
Qed.
Print Assumptions C155_interrupt_refuted.
(* the sender of a real-time signal sent to the thread is not reported *)
Theorem C155_sender_refuted : exists s s' x, first s (only [40]) 40 /\ thread s 40 = true /\ sigtimedwait quiet no_nap 0 s (only [40]) = (s', 41, None, Some x) /\ (pid x, uid x) <> thread_sender s 40 /\ pid x = 0.
Proof.
  exists (State (only [40]) (fun i => (77, 5)) (only []) (fun i => (0, 0)) (fun _ => [])). do 2 eexists. split; [split; [repeat split; try lia; left; reflexivity|intros j (B & M & W); cbn [only existsb] in M; lia]|].
  split; [reflexivity|]. split; [vm_compute; reflexivity|]. split; [discriminate|reflexivity].
Qed.
Print Assumptions C155_sender_refuted.
