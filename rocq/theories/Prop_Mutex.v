(* C29: the internal futex mutex.  [pc s t = Held] from the step in which a call
   of lock/try_lock acquires until the swap at the start of unlock. *)
From Coq Require Import ZArith List Bool.
From Verif Require Import Conc Waituntil_model Mutex_model Mutex_proofs.
Import ListNotations.
Open Scope Z_scope.

(* At no time do two threads hold it: any number of threads, any interleaving,
   spurious wake-ups and spurious compare-exchange failures included. *)
Theorem C29_mutual_exclusion : forall s t u, reachable mx_exec mx_init s ->
  pc s t = Held -> pc s u = Held -> t = u.
Proof. exact mutex_exclusion. Qed.
Print Assumptions C29_mutual_exclusion.

(* try_lock returns at once, with the mutex iff nobody holds it. *)
Theorem C29_try_lock : forall s t s', reachable mx_exec mx_init s ->
  mx_exec s (t, CallTryLock) = Some s' ->
  (pc s' t = Held <-> forall u, pc s u <> Held) /\ (pc s' t = Held \/ pc s' t = Idle).
Proof. exact mutex_trylock. Qed.
Print Assumptions C29_try_lock.

(* Whenever a thread is asleep inside lock, some thread holds the mutex, or some
   thread is on its way to a futex_wake that leaves nobody asleep. *)
Theorem C29_sleeper_is_covered : forall s t, reachable mx_exec mx_init s ->
  pc s t = Locking WSleep ->
  (exists u, pc s u = Held) \/
  (exists u, pc s u = Waking /\
     forall b s', mx_exec s (u, Step b) = Some s' -> forall v, pc s' v <> Locking WSleep).
Proof. exact mutex_sleeper. Qed.
Print Assumptions C29_sleeper_is_covered.

(* Whenever the mutex is free, each thread inside lock, asleep or not, can get it
   by steps of threads already inside lock or unlock: no new call, no spurious
   wake-up is needed. *)
Theorem C29_free_mutex_is_obtainable : forall s t p, reachable mx_exec mx_init s ->
  (forall u, pc s u <> Held) -> pc s t = Locking p ->
  exists ls s', run mx_exec s ls = Some s' /\ pc s' t = Held /\ Forall plain ls.
Proof. exact mutex_progress. Qed.
Print Assumptions C29_free_mutex_is_obtainable.

(* Thread 1 holds the mutex, thread 2 has gone to sleep on it; then thread 1
   unlocks: the mutex is free, thread 2 asleep, thread 1 about to wake it. *)
Definition C29_trace : list (tid * mact) :=
  [(1, CallLock); (1, Step false); (2, CallLock)] ++ repeat (2, Step false) 1002.

Example C29_case :
  match run mx_exec mx_init C29_trace with
  | Some s => word s = WAITING /\ pc s 1 = Held /\ pc s 2 = Locking WSleep
  | None => False
  end /\
  match run mx_exec mx_init (C29_trace ++ [(1, CallUnlock)]) with
  | Some s => word s = UNLOCKED /\ pc s 1 = Waking /\ pc s 2 = Locking WSleep
  | None => False
  end /\
  match run mx_exec mx_init (C29_trace ++ [(1, CallUnlock); (1, Step false); (2, Step false)]) with
  | Some s => word s = LOCKED /\ pc s 1 = Idle /\ pc s 2 = Held
  | None => False
  end.
Proof. vm_compute. repeat split; reflexivity. Qed.
