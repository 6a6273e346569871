(* C30: pthread_mutex_t of every type, robust or not.  [held s t] is how many
   times thread t was told "locked" and has not since called unlock (without
   being told EPERM). *)
From Coq Require Import ZArith List Bool Lia.
From Verif Require Import Conc Waituntil_model Pmutex_model Pmutex_proofs Pmutex_proofs2.
Import ListNotations.
Open Scope Z_scope.

(* Mutual exclusion, for all types. *)
Theorem C30_mutual_exclusion : forall k robust s t u, reachable (pm_exec k robust) pm_init s ->
  0 < held s t -> 0 < held s u -> t = u.
Proof. exact pm_exclusion. Qed.
Print Assumptions C30_mutual_exclusion.

(* The owner of a recursive mutex can lock it again (lock, timedlock, trylock):
   it does so by itself without waiting, up to 2^32 - 1 times; then EAGAIN. *)
Theorem C30_recursive_relock : forall robust s t r c, reachable (pm_exec Recursive robust) pm_init s ->
  0 < t < 2 ^ 31 -> lp s t = LRet r -> 0 < held s t -> (c = LTry \/ exists d, c = LLock d) ->
  exists s1, pm_exec Recursive robust s (t, c) = Some s1 /\
    solo Recursive robust s1 t (relocked s t).
Proof. exact pm_relock_recursive. Qed.
Print Assumptions C30_recursive_relock.

(* The owner's unlock succeeds, and the mutex is free exactly when as many
   unlocks as locks were made. *)
Theorem C30_unlock_by_owner : forall k robust s t r, reachable (pm_exec k robust) pm_init s ->
  0 < t < 2 ^ 31 -> lp s t = LRet r -> 0 < held s t ->
  exists s1, pm_exec k robust s (t, LUnlock) = Some s1 /\
    solo k robust s1 t (fun s' => lp s' t = LRet 0 /\ held s' t = held s t - 1 /\
      (held s' t = 0 -> inner s' = 0) /\ (0 < held s' t -> inner s' = t)).
Proof. exact pm_unlock_owner. Qed.
Print Assumptions C30_unlock_by_owner.

(* unlock by a thread that does not own an errorcheck, recursive or robust mutex
   fails with EPERM and changes nothing. *)
Theorem C30_unlock_not_owner : forall k robust s t r, reachable (pm_exec k robust) pm_init s ->
  0 < t < 2 ^ 31 -> robust = true \/ k = Recursive \/ k = Errck ->
  lp s t = LRet r -> held s t = 0 ->
  exists s', pm_exec k robust s (t, LUnlock) = Some s' /\ unchanged s s' t EPERM.
Proof. exact pm_unlock_not_owner. Qed.
Print Assumptions C30_unlock_not_owner.

(* The owner's lock of an errorcheck mutex fails at once and changes nothing.
   Partial: the documented error is EDEADLK. *)
Theorem C30_errorcheck_relock_partial : forall robust s t r d, reachable (pm_exec Errck robust) pm_init s ->
  0 < t < 2 ^ 31 -> lp s t = LRet r -> 0 < held s t ->
  exists s1 s2, pm_exec Errck robust s (t, LLock d) = Some s1 /\
    pm_exec Errck robust s1 (t, LStep false) = Some s2 /\ unchanged s s2 t EAGAIN.
Proof. exact pm_relock_errck. Qed.
Print Assumptions C30_errorcheck_relock_partial.

Theorem C30_errorcheck_relock_error_refuted :
  match run (pm_exec Errck false) pm_init
    [(1, LLock false); (1, LStep false); (1, LLock false); (1, LStep false)] with
  | Some s => lp s 1 = LRet EAGAIN /\ EAGAIN <> EDEADLK /\ held s 1 = 1
  | None => False
  end.
Proof. vm_compute. repeat split; discriminate. Qed.
Print Assumptions C30_errorcheck_relock_error_refuted.

(* trylock of a mutex that somebody holds fails with EBUSY and changes nothing.
   Partial: except that the owner of an errorcheck mutex gets EDEADLK. *)
Theorem C30_trylock_busy_partial : forall k robust s t u r, reachable (pm_exec k robust) pm_init s ->
  0 < t < 2 ^ 31 -> lp s t = LRet r -> 0 < held s u -> (u <> t \/ k <> Recursive) ->
  exists s', pm_exec k robust s (t, LTry) = Some s' /\
    unchanged s s' t (if (u =? t) && is_errck k then EDEADLK else EBUSY).
Proof. exact pm_trylock_held. Qed.
Print Assumptions C30_trylock_busy_partial.

Theorem C30_errorcheck_trylock_error_refuted :
  match run (pm_exec Errck false) pm_init [(1, LLock false); (1, LStep false); (1, LTry)] with
  | Some s => held s 1 = 1 /\ lp s 1 = LRet EDEADLK /\ EDEADLK <> EBUSY
  | None => False
  end.
Proof. vm_compute. repeat split; discriminate. Qed.
Print Assumptions C30_errorcheck_trylock_error_refuted.

(* A thread asleep in lock: the mutex belongs to a thread that holds it or is in
   the middle of a lock or unlock, or a wake of all sleepers is on its way. *)
Theorem C30_sleeper_is_covered : forall k robust s t d, reachable (pm_exec k robust) pm_init s ->
  lp s t = LAsleep d ->
  (exists u, inner s = u /\ (0 < held s u \/ inop (lp s u) = true)) \/
  (exists u, lp s u = UWake /\
     forall b s', pm_exec k robust s (u, LStep b) = Some s' -> forall v d', lp s' v <> LAsleep d').
Proof. exact pm_sleeper. Qed.
Print Assumptions C30_sleeper_is_covered.

(* When the mutex is free, each thread inside lock can get it, without new calls,
   spurious wake-ups or timeouts. *)
Theorem C30_free_mutex_is_obtainable : forall k robust s t, reachable (pm_exec k robust) pm_init s ->
  0 < t < 2 ^ 31 -> free s ->
  match lp s t with LCas _ | LFutex _ _ | LAsleep _ => True | _ => False end ->
  exists ls s', run (pm_exec k robust) s ls = Some s' /\ Forall lplain ls /\ locked s t s'.
Proof. exact pm_progress. Qed.
Print Assumptions C30_free_mutex_is_obtainable.

(* Thread 1 locks a recursive mutex three times (one by trylock), thread 2 falls
   asleep on it, thread 3 gets EPERM for unlock; after three unlocks of thread 1
   the mutex is free and thread 2 can have it. *)
Definition C30_trace : list (tid * lact) :=
  [(1, LLock false); (1, LStep false); (1, LStep false); (1, LStep false);
   (1, LLock true); (1, LStep false); (1, LStep false); (1, LStep false);
   (1, LTry); (1, LStep false); (1, LStep false);
   (2, LLock false); (2, LStep false); (2, LStep false);
   (3, LUnlock); (3, LTry);
   (1, LUnlock); (1, LStep false); (1, LStep false);
   (1, LUnlock); (1, LStep false); (1, LStep false)].

Example C30_case :
  match run (pm_exec Recursive false) pm_init (firstn 15 C30_trace) with
  | Some s => held s 1 = 3 /\ inner s = 1 /\ lp s 2 = LAsleep false /\ lp s 3 = LRet EPERM
  | None => False
  end /\
  match run (pm_exec Recursive false) pm_init C30_trace with
  | Some s => held s 1 = 1 /\ inner s = 1 /\ lp s 2 = LAsleep false /\ lp s 3 = LRet EBUSY
  | None => False
  end /\
  match run (pm_exec Recursive false) pm_init
    (C30_trace ++ [(1, LUnlock); (1, LStep false); (1, LStep false); (1, LStep false)]) with
  | Some s => held s 1 = 0 /\ inner s = 0 /\ lp s 2 = LAsleep false /\ lp s 1 = UWake
  | None => False
  end.
Proof. vm_compute. repeat split; reflexivity. Qed.
