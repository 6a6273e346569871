(* C51, C57, C58, C59: signal masks. *)
From Verif Require Import Base Signal_model Signal_spec Signal_proofs.

(* sigprocmask with a set: the new mask, the old mask, no pending signal lost (arrivals
   during the call included) and none invented. *)
Theorem C51_sigprocmask : forall env pp how set s, good s -> sigset set -> how = SIG_BLOCK \/ how = SIG_UNBLOCK \/ how = SIG_SETMASK ->
  exists old s' t, sigprocmask env pp how (Some set) s = Some (old, s', t) /\ good s' /\
  forall n, signal n ->
    member old n = blocked s n && negb (reserved n) /\ blocked s' n = new_mask how (member set) (blocked s) n /\
    pending s' n = pending s n || arrives_in env 0 4 n.
Proof.
  intros env pp how set s G S H. destruct (sigprocmask_set env pp how set s G S H) as (old & s' & t & E & G' & _ & _ & R).
  exists old, s', t. split; [exact E|]. split; [exact G'|exact R].
Qed.
Print Assumptions C51_sigprocmask.

(* If a pending signal is unblocked afterwards, delivery is started before the call returns;
   it is started only if there is one. *)
Theorem C51_delivery : forall env pp how set s old s' t, good s -> sigset set -> how = SIG_BLOCK \/ how = SIG_UNBLOCK \/ how = SIG_SETMASK ->
  sigprocmask env pp how (Some set) s = Some (old, s', t) ->
  (t = true -> exists n, signal n /\ blocked s' n = false /\ (pending s' n = true \/ member pp n = true)) /\
  (forall n, signal n -> unblockable n = false -> blocked s' n = false -> pending s n = true \/ member pp n = true -> t = true).
Proof.
  intros env pp how set s old s' t G S H E. destruct (sigprocmask_set env pp how set s G S H) as (old0 & s0 & t0 & E0 & _ & T1 & T2 & _).
  rewrite E in E0. injection E0 as E1 E2 E3. subst. split; assumption.
Qed.
Print Assumptions C51_delivery.

(* Without a set the mask is only read; any other [how] is an error. *)
Theorem C51_query : forall env pp how s, good s ->
  (exists old s', sigprocmask env pp how None s = Some (old, s', false) /\ good s' /\
   forall n, signal n -> member old n = blocked s n && negb (reserved n) /\ blocked s' n = blocked s n /\ pending s' n = pending s n || arrives_in env 0 2 n) /\
  (forall set, sigprocmask env pp how (Some set) s = None <-> how <> SIG_BLOCK /\ how <> SIG_UNBLOCK /\ how <> SIG_SETMASK).
Proof.
  intros env pp how s G. split; [apply sigprocmask_get; exact G|]. intro set. unfold sigprocmask, sys_sigprocmask.
  destruct (Z.eqb_spec how SIG_SETMASK) as [->|N1]; [destruct (set_sigmask _ _ _ _) as ((?, ?), ?); split; [discriminate|tauto]|].
  destruct (Z.eqb_spec how SIG_BLOCK) as [->|N2]; [destruct (or_sigmask _ _ _ _) as ((?, ?), ?); split; [discriminate|tauto]|].
  destruct (Z.eqb_spec how SIG_UNBLOCK) as [->|N3]; [destruct (andn_sigmask _ _ _ _) as ((?, ?), ?); split; [discriminate|tauto]|]. tauto.
Qed.
Print Assumptions C51_query.

Definition quiet : nat -> Z * Z := fun _ => (0, 0).
(* SIGUSR1 (10) blocked, nothing pending *)
Definition usr1_blocked : words := W (Z.shiftl (2 ^ 32 - 1 - 2 ^ 9) 32) (Z.shiftl (2 ^ 32 - 1) 32).
(* SIG_SETMASK to all signals while SIGINT (2) and signal 40 arrive. *)
Example C51_case : good usr1_blocked /\
  exists old s', sigprocmask (fun k => if (k =? 2)%nat then (2, 0) else if (k =? 3)%nat then (0, 128) else (0, 0)) 0 SIG_SETMASK (Some (2 ^ 64 - 1)) usr1_blocked = Some (old, s', false) /\
  old = 2 ^ 9 /\ blocked s' 2 = true /\ pending s' 2 = true /\ pending s' 40 = true /\ blocked s' 9 = false /\ blocked s' 19 = false.
Proof. split; [split; split; vm_compute; congruence|]. do 2 eexists. split; [vm_compute; reflexivity|]. repeat split. Qed.

(* ---- C57 ---- *)
(* Missing from C57: masks containing SIGKILL or SIGSTOP (sigsuspend, epoll_pwait), sets
   lacking either (sigtimedwait, sigwait); refuted below. *)
Theorem C57_suspend_partial : forall env sleep mask s, good s -> sigset mask -> keeps_mask sleep -> (forall n, unblockable n = true -> blocked s n = false) ->
  (forall n, unblockable n = true -> member mask n = false) ->
  (forall n, signal n -> blocked (sigsuspend env sleep mask s) n = blocked s n) /\
  (forall n, signal n -> blocked (epoll_pwait_mask env sleep (Some mask) s) n = blocked s n).
Proof. intros env sleep mask s G M K U UM. split; apply (suspend_ok env sleep mask s G M K U UM). Qed.
Print Assumptions C57_suspend_partial.

Theorem C57_timedwait_partial : forall env now claim sleep set s, good s -> sigset set -> keeps_mask sleep -> keeps_mask claim -> (forall n, unblockable n = true -> blocked s n = false) ->
  (forall n, unblockable n = true -> member set n = true) ->
  forall n, signal n -> blocked (sigtimedwait env now claim sleep set s) n = blocked s n.
Proof. intros env now claim sleep set s G M K KC U UM. apply (timedwait_ok env now claim sleep set s G M K KC U UM). Qed.
Print Assumptions C57_timedwait_partial.

Lemma keeps_id : keeps_mask (fun s => s). Proof. intros s G. auto. Qed.
Lemma usr1_ok : good usr1_blocked /\ forall n, unblockable n = true -> blocked usr1_blocked n = false.
Proof. split; [split; split; vm_compute; congruence|]. intros n U. unfold unblockable in U. apply orb_true_iff in U. destruct U as [U|U]; apply Z.eqb_eq in U; subst n; reflexivity. Qed.

(* sigtimedwait({SIGUSR1}) with SIGUSR1 blocked: afterwards SIGUSR1 is unblocked, and
   SIGKILL and the signals 19 to 32 are blocked. *)
Theorem C57_timedwait_refuted : ~ forall env now claim sleep set s, good s -> sigset set -> keeps_mask sleep -> keeps_mask claim -> (forall n, unblockable n = true -> blocked s n = false) ->
  forall n, signal n -> blocked (sigtimedwait env now claim sleep set s) n = blocked s n.
Proof.
  intro H. pose proof (H quiet true (fun s => s) (fun s => s) (2 ^ 9) usr1_blocked (proj1 usr1_ok) ltac:(split; vm_compute; congruence) keeps_id keeps_id (proj2 usr1_ok) 10 ltac:(split; vm_compute; congruence)) as X.
  vm_compute in X. discriminate.
Qed.
Print Assumptions C57_timedwait_refuted.
(* sigsuspend with the full set *)
Theorem C57_suspend_refuted : ~ forall env sleep mask s, good s -> sigset mask -> keeps_mask sleep -> (forall n, unblockable n = true -> blocked s n = false) ->
  forall n, signal n -> blocked (sigsuspend env sleep mask s) n = blocked s n.
Proof.
  intro H. pose proof (H quiet (fun s => s) (2 ^ 64 - 1) usr1_blocked (proj1 usr1_ok) ltac:(split; vm_compute; congruence) keeps_id (proj2 usr1_ok) 9 ltac:(split; vm_compute; congruence)) as X.
  vm_compute in X. discriminate.
Qed.
Print Assumptions C57_suspend_refuted.
(* pselect and ppoll likewise *)
Theorem C57_pwait_refuted : ~ forall env sleep mask s, good s -> sigset mask -> keeps_mask sleep -> (forall n, unblockable n = true -> blocked s n = false) ->
  forall n, signal n -> blocked (epoll_pwait_mask env sleep (Some mask) s) n = blocked s n.
Proof.
  intro H. pose proof (H quiet (fun s => s) (2 ^ 64 - 1) usr1_blocked (proj1 usr1_ok) ltac:(split; vm_compute; congruence) keeps_id (proj2 usr1_ok) 9 ltac:(split; vm_compute; congruence)) as X.
  vm_compute in X. discriminate.
Qed.
Print Assumptions C57_pwait_refuted.

Lemma empty_ok : forall n, unblockable n = true -> member (2 ^ 1) n = false.
Proof. intros n U. unfold unblockable in U. apply orb_true_iff in U. destruct U as [U|U]; apply Z.eqb_eq in U; subst n; reflexivity. Qed.
Example C57_case : good usr1_blocked /\ keeps_mask (arrive (6, 0)) /\ (forall n, unblockable n = true -> member (2 ^ 1) n = false) /\
  (let s := sigsuspend quiet (arrive (6, 0)) (2 ^ 1) usr1_blocked in blocked s 10 = true /\ blocked s 2 = false /\ pending s 3 = true).
Proof.
  split; [apply usr1_ok|]. split; [|split; [exact empty_ok|vm_compute; auto]].
  intros s G. destruct (arrive_ok (6, 0) s G) as (G' & _ & R). split; [exact G'|]. intros n N. apply R; exact N.
Qed.

(* ---- C58 ---- *)
(* Missing from C58: uc_sigmask as the set of blocked signals (refuted below). *)
Theorem C58_handler_mask_partial : forall env sig sa_mask nodefer run s, good s -> signal sig -> sigset sa_mask ->
  (forall x u, good x -> good (fst (run x u)) /\ sigset (snd (run x u))) ->
  exists s1 uc s', deliver env sig sa_mask nodefer run s = (s1, uc, s') /\ good s' /\
  forall n, signal n ->
    blocked s1 n = (blocked s n || member sa_mask n || (negb nodefer && (n =? sig))) && negb (unblockable n) /\
    pending s1 n = pending s n || arrives_in env 0 4 n /\
    pending s' n = pending (fst (run s1 uc)) n || arrives_in env 4 4 n /\
    ((forall k, unblockable k = true -> blocked s k = false) -> snd (run s1 uc) = uc -> blocked s' n = blocked s n).
Proof.
  intros env sig sa_mask nodefer run s G SG M R. destruct (deliver_ok env sig sa_mask nodefer run s G SG M R) as (s1 & uc & s' & E & G' & _ & Q).
  exists s1, uc, s'. split; [exact E|]. split; [exact G'|]. intros n N. destruct (Q n N) as (Q1 & Q2 & Q3 & Q4 & Q5). split; [exact Q1|]. split; [exact Q2|]. split; [exact Q5|].
  intros U X. rewrite Q4, X, Q3, negb_orb, negb_involutive. destruct (unblockable n) eqn:E'; [rewrite (U n E'); reflexivity|apply andb_true_r].
Qed.
Print Assumptions C58_handler_mask_partial.
(* uc_sigmask holds the complement of the blocked set. *)
Theorem C58_ucontext_refuted : ~ forall env sig sa_mask nodefer run s, good s -> signal sig -> sigset sa_mask ->
  forall n, signal n -> member (snd (fst (deliver env sig sa_mask nodefer run s))) n = blocked s n.
Proof.
  intro H. pose proof (H quiet 2 0 false (fun x u => (x, u)) usr1_blocked (proj1 usr1_ok) ltac:(split; vm_compute; congruence) ltac:(split; vm_compute; congruence) 10 ltac:(split; vm_compute; congruence)) as X.
  vm_compute in X. discriminate.
Qed.
Print Assumptions C58_ucontext_refuted.
Example C58_case : good usr1_blocked /\
  exists s1 uc s', deliver quiet 2 (2 ^ 14) false (fun x u => (arrive (4, 0) x, u)) usr1_blocked = (s1, uc, s') /\
  blocked s1 2 = true /\ blocked s1 15 = true /\ blocked s1 10 = true /\ blocked s' 2 = false /\ blocked s' 15 = false /\ blocked s' 10 = true /\ pending s' 3 = true.
Proof. split; [apply usr1_ok|]. do 3 eexists. split; [vm_compute; reflexivity|]. repeat split. Qed.

(* ---- C59 ---- *)
Theorem C59_sets : forall set n, sigset set ->
  (signal n -> (exists v, sigaddset set n = (v, 0) /\ sigset v /\ forall k, signal k -> member v k = member set k || (k =? n)) /\
     (exists v, sigdelset set n = (v, 0) /\ sigset v /\ forall k, signal k -> member v k = member set k && negb (k =? n)) /\
     sigismember set n = if member set n then 1 else 0) /\
  (~ signal n -> sigaddset set n = (set, -1) /\ sigdelset set n = (set, -1) /\ sigismember set n = -1).
Proof. exact set_functions. Qed.
Print Assumptions C59_sets.
Theorem C59_empty_full : forall x, (exists v, sigemptyset x = (v, 0) /\ forall k, signal k -> sigismember v k = 0) /\
  (exists v, sigfillset x = (v, 0) /\ forall k, signal k -> sigismember v k = 1).
Proof.
  intro x. split; eexists; (split; [reflexivity|]); intros k K; unfold sigismember, bad_signo; pose proof (full_set k K) as F; unfold member in F; unfold signal in K; replace ((k <=? 0) || (64 <? k)) with false by lia;
    [rewrite Z.bits_0; reflexivity|rewrite F; reflexivity].
Qed.
Print Assumptions C59_empty_full.
(* sigpending: every signal that was blocked and pending when the call began is reported;
   every one reported is blocked, and pending by the time the call ends. *)
Theorem C59_sigpending : forall env pp s, good s -> sigset pp ->
  exists set s', currently_pending_blocked env pp s = (set, s') /\ good s' /\
  forall n, signal n -> blocked s' n = blocked s n /\ pending s' n = pending s n || arrives_in env 0 2 n /\
    (blocked s n = true -> pending s n = true \/ member pp n = true -> member set n = true) /\
    (member set n = true -> blocked s n = true /\ (pending s' n = true \/ member pp n = true)).
Proof.
  intros env pp s G PP. destruct (pending_ok env pp s G PP) as (set & s' & E & G' & R). exists set, s'. split; [exact E|]. split; [exact G'|].
  intros n N. destruct (R n N) as (R1 & R2 & R3). split; [exact R1|]. split; [exact R2|]. rewrite R3, R2. cbn [arrives_in].
  destruct (blocked s n), (pending s n), (member pp n), (arrives (env 0%nat) n), (arrives (env 1%nat) n), (32 <? n); cbn; intuition (try discriminate; auto).
Qed.
Print Assumptions C59_sigpending.
Example C59_case : exists v, sigaddset 0 64 = (v, 0) /\ sigismember v 64 = 1 /\ sigismember v 63 = 0 /\ sigaddset v 65 = (v, -1) /\ fst (sigdelset v 64) = 0 /\
  fst (currently_pending_blocked (fun k => (2 ^ 9, 0)) 0 usr1_blocked) = 2 ^ 9.
Proof. eexists. split; [vm_compute; reflexivity|]. vm_compute. repeat split. Qed.
