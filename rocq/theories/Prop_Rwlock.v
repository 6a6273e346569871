(* C33: read-write locks.  [class (rpcs s t)] says whether t holds the lock, for
   reading or for writing (a holder counts as one until the step of unlock that
   gives the lock up). *)
From Coq Require Import ZArith List Bool Lia.
From Verif Require Import Conc Rwlock_model Rwlock_spec Rwlock_proofs.
Import ListNotations.
Open Scope Z_scope.

(* While a thread holds the lock for writing nobody else holds it at all. *)
Theorem C33_exclusion : forall s t u, reachable rw_exec rw_init s ->
  class (rpcs s t) = Writes -> u <> t -> class (rpcs s u) = Out.
Proof. exact rw_exclusive. Qed.
Print Assumptions C33_exclusion.

(* A step of trywrlock either goes on, or takes a lock that nobody held, or
   returns EBUSY while somebody holds it. *)
Theorem C33_trywrlock : forall s t b s', reachable rw_exec rw_init s -> in_trywr (rpcs s t) ->
  rw_exec s (t, RStep b) = Some s' ->
  in_trywr (rpcs s' t) \/
  (rpcs s' t = RWrite /\ free s) \/
  (rpcs s' t = RIdle EBUSY /\ exists u, class (rpcs s u) <> Out).
Proof. exact rw_trywr. Qed.
Print Assumptions C33_trywrlock.

(* Likewise tryrdlock, against writers; it aborts the process if the thread saw
   2^31 - 2 readers. *)
Theorem C33_tryrdlock : forall s t b s', reachable rw_exec rw_init s -> in_tryrd (rpcs s t) ->
  rw_exec s (t, RStep b) = Some s' ->
  in_tryrd (rpcs s' t) \/
  (rpcs s' t = RRead /\ forall u, class (rpcs s u) <> Writes) \/
  (rpcs s' t = RIdle EBUSY /\ exists u, class (rpcs s u) = Writes) \/
  (rpcs s' t = RPanic /\ exists k c, rpcs s t = RCas k c /\ c mod 2 ^ 31 = 2 ^ 31 - 2).
Proof. exact rw_tryrd. Qed.
Print Assumptions C33_tryrdlock.

(* The try calls do not wait for anybody: left alone they are over after at most
   three of their own steps, whatever the state they are in. *)
Theorem C33_try_does_not_block : forall s t, reachable rw_exec rw_init s ->
  in_trywr (rpcs s t) \/ in_tryrd (rpcs s t) ->
  exists n s', (n <= 3)%nat /\ run rw_exec s (repeat (t, RStep false) n) = Some s' /\
    match rpcs s' t with RRead | RWrite | RIdle _ | RPanic => True | _ => False end.
Proof. exact rw_try_solo. Qed.
Print Assumptions C33_try_does_not_block.

(* A thread asleep while nobody holds the lock is about to be woken, by an unlock
   that leaves nobody asleep. *)
Theorem C33_sleeper_is_covered : forall s t, reachable rw_exec rw_init s ->
  asleep (rpcs s t) -> free s ->
  exists u, rpcs s u = UWake /\ forall b s', rw_exec s (u, RStep b) = Some s' ->
    forall v, ~ asleep (rpcs s' v).
Proof. exact rw_sleeper. Qed.
Print Assumptions C33_sleeper_is_covered.

(* While nobody holds the lock every thread inside wrlock can get it, and so can
   every thread inside rdlock (unless it saw 2^31 - 2 readers). *)
Theorem C33_wrlock_completes : forall s t, reachable rw_exec rw_init s -> free s ->
  in_wrlock (rpcs s t) -> gets s t RWrite.
Proof. exact rw_wr_progress. Qed.
Print Assumptions C33_wrlock_completes.

Theorem C33_rdlock_completes : forall s t, reachable rw_exec rw_init s -> free s ->
  in_rdlock (rpcs s t) -> (forall k c, rpcs s t = RCas k c -> c mod 2 ^ 31 <> 2 ^ 31 - 2) ->
  gets s t RRead.
Proof. exact rw_rd_progress. Qed.
Print Assumptions C33_rdlock_completes.

(* Two readers in, a writer asleep, the readers leave: the lock is free, the
   writer still asleep and the second reader about to wake it; then it gets in
   and a tryrdlock fails. *)
Definition C33_trace : list (tid * ract) :=
  [(1, CallRd RTry); (1, RStep false); (1, RStep false);
   (2, CallRd (RWait false)); (2, RStep false); (2, RStep true); (2, RStep false);
   (3, CallWr false); (3, RStep false); (3, RStep false); (3, RStep false); (3, RStep false);
   (1, CallUnlock); (1, RStep false); (1, RStep false);
   (2, CallUnlock); (2, RStep false); (2, RStep false)].
Example C33_case :
  match run rw_exec rw_init (firstn 14 C33_trace) with
  | Some s => class (rpcs s 1) = Reads /\ class (rpcs s 2) = Reads /\ asleep (rpcs s 3)
  | None => False
  end /\
  match run rw_exec rw_init C33_trace with
  | Some s => class (rpcs s 1) = Out /\ class (rpcs s 2) = Out /\ asleep (rpcs s 3) /\
      rpcs s 2 = UWake /\ rword s = 2 ^ 31
  | None => False
  end /\
  match run rw_exec rw_init (C33_trace ++ [(2, RStep false); (3, RStep false);
      (4, CallRd RTry); (4, RStep false)]) with
  | Some s => class (rpcs s 3) = Writes /\ in_tryrd (rpcs s 4) /\
      match rw_exec s (4, RStep false) with Some s' => rpcs s' 4 = RIdle EBUSY | None => False end
  | None => False
  end.
Proof. vm_compute. repeat split; reflexivity. Qed.
