(* Model of sync/rwlock.rs InnerRwLock and header/pthread/rwlock.rs. *)
From Coq Require Import ZArith List Bool.
From Verif Require Import Conc Waituntil_model.
Import ListNotations.
Open Scope Z_scope.

Definition EBUSY := 16.
Definition ETIMEDOUT := 110.

(* /repo/src/sync/rwlock.rs 22-24 *)
Definition WAITING_WR := 2 ^ 31.
Definition COUNT_MASK := 2 ^ 31 - 1.
Definition EXCLUSIVE := COUNT_MASK.

(* How a read lock is asked for: tryrdlock, rdlock, timedrdlock/clockrdlock. *)
Inductive rkind := RTry | RWait (timed : bool).

(* RIdle r: holds nothing, no call in progress, the last call returned r.
   RRead, RWrite: holds the lock, no call in progress.
   WLoad .. WSleep: acquire_write_lock, before the load; before the
   compare-exchange of [wr]; before the fetch_or; before futex_wait; asleep.
   RLoad .. RSleep: acquire_read_lock / try_acquire_read_lock.
   TLoad, TCas: try_acquire_write_lock.
   ULoad w: unlock entered by a holder (w: of the write lock); UStore, USub: before the
   store / fetch_sub; UWake: before futex_wake.
   RPanic: the assertion on the number of readers failed. *)
Inductive rpc := RIdle (r : Z) | RRead | RWrite
  | WLoad (d : bool) | WCas (d : bool) (wr : Z) | WOr (d : bool) (actual : Z)
  | WFutex (d : bool) (expected : Z) | WSleep (d : bool) (expected : Z)
  | RLoad (k : rkind) | RCas (k : rkind) (cached : Z)
  | RFutex (d : bool) (old : Z) | RSleep (d : bool)
  | TLoad | TCas (wr : Z)
  | ULoad (w : bool) | UStore | USub | UWake
  | RPanic.

Record rwstate := RwState { rword : Z; rpcs : tid -> rpc }.

(* rwlock.rs 31-35 *)
Definition rw_init : rwstate := RwState 0 (fun _ => RIdle 0).

Inductive ract :=
| CallWr (timed : bool) | CallRd (k : rkind) | CallTryWr | CallUnlock
| RStep (spur : bool)   (* the next step; spur: a weak compare-exchange fails *)
| RSpurious             (* futex_wait returns without a wake *)
| RTimeout.             (* futex_wait returns TimedOut *)

(* futex_wake(i32::MAX) *)
Definition rwake_all (f : tid -> rpc) : tid -> rpc :=
  fun u => match f u with
           | WSleep d e => WCas d (Z.land e WAITING_WR)
           | RSleep d => RLoad (RWait d)
           | x => x
           end.

Definition rw_exec (s : rwstate) (l : tid * ract) : option rwstate :=
  let t := fst l in
  let w := rword s in
  let go p := Some (RwState w (setf (rpcs s) t p)) in
  let wr w' p := Some (RwState w' (setf (rpcs s) t p)) in
  match rpcs s t, snd l with
  | RIdle _, CallWr d => go (WLoad d)
  | RIdle _, CallRd k => go (RLoad k)
  | RIdle _, CallTryWr => go TLoad
  | RRead, CallUnlock => go (ULoad false)
  | RWrite, CallUnlock => go (ULoad true)
  (* rwlock.rs 48-93 acquire_write_lock *)
  | WLoad d, RStep _ => go (WCas d (Z.land w WAITING_WR))
  | WCas d old, RStep spur =>
      let '(w', ok, actual) := cas w old EXCLUSIVE spur in
      if ok : bool then wr w' RWrite
      else if Z.land actual COUNT_MASK =? EXCLUSIVE then go (WFutex d actual)
      else go (WOr d actual)
  | WOr d actual, RStep _ =>
      let expected := Z.lor actual WAITING_WR in
      wr (Z.lor w WAITING_WR)
         (if 0 <? Z.land actual COUNT_MASK then WFutex d expected
          else WCas d (Z.land expected WAITING_WR))
  | WFutex d e, RStep _ => go (if w =? e then WSleep d e else WCas d (Z.land e WAITING_WR))
  | WSleep d e, RSpurious => go (WCas d (Z.land e WAITING_WR))
  | WSleep d _, RTimeout => if d then go (RIdle ETIMEDOUT) else None
  (* rwlock.rs 106-141 try_acquire_read_lock; 94-105 acquire_read_lock *)
  | RLoad k, RStep _ => go (RCas k w)
  | RCas k cached, RStep spur =>
      let waiting_wr := Z.land cached WAITING_WR in
      let old := if Z.land cached COUNT_MASK =? EXCLUSIVE then 0 else Z.land cached COUNT_MASK in
      let new := old + 1 in
      if Z.land new COUNT_MASK =? EXCLUSIVE then go RPanic
      else
        let '(w', ok, value) :=
          cas w (Z.lor (Z.land old COUNT_MASK) waiting_wr) (Z.lor new waiting_wr) spur in
        if ok : bool then wr w' RRead
        else if Z.land value COUNT_MASK =? EXCLUSIVE
        then go (match k with RTry => RIdle EBUSY | RWait d => RFutex d value end)
        else go (RCas k value)
  | RFutex d old, RStep _ => go (if w =? old then RSleep d else RLoad (RWait d))
  | RSleep d, RSpurious => go (RLoad (RWait d))
  | RSleep d, RTimeout => if d then go (RIdle ETIMEDOUT) else None
  (* rwlock.rs 142-162 try_acquire_write_lock *)
  | TLoad, RStep _ => go (TCas (Z.land w WAITING_WR))
  | TCas old, RStep spur =>
      let '(w', ok, actual) := cas w old EXCLUSIVE spur in
      if ok : bool then wr w' RWrite
      else if 0 <? Z.land actual COUNT_MASK then go (RIdle EBUSY)
      else go (TCas (Z.land actual WAITING_WR))
  (* rwlock.rs 164-184 unlock *)
  | ULoad _, RStep _ => go (if Z.land w COUNT_MASK =? EXCLUSIVE then UStore else USub)
  | UStore, RStep _ => wr 0 UWake
  | USub, RStep _ =>
      wr ((w - 1) mod 2 ^ 32) (if Z.land w COUNT_MASK =? 1 then UWake else RIdle 0)
  | UWake, RStep _ => Some (RwState w (setf (rwake_all (rpcs s)) t (RIdle 0)))
  | _, _ => None
  end.
