(* Model of sync/pthread_mutex.rs (pthread_mutex_t, header/pthread/mutex.rs). *)
From Coq Require Import ZArith List Bool.
From Verif Require Import Conc Waituntil_model.
Import ListNotations.
Open Scope Z_scope.

(* header/errno/mod.rs 47, 57, 62, 81, 157 *)
Definition EPERM := 1.
Definition EAGAIN := 11.
Definition EBUSY := 16.
Definition EDEADLK := 35.
Definition ETIMEDOUT := 110.

(* /repo/src/sync/pthread_mutex.rs 24-29 *)
Definition STATE_UNLOCKED := 0.
Definition INDEX_MASK := 2 ^ 31 - 1.
Definition RECURSIVE_COUNT_MAX_INCLUSIVE := 2 ^ 32 - 1.

(* /repo/src/sync/pthread_mutex.rs 225-234 *)
Inductive ty := Normal | Def | Errck | Recursive.

(* LRet r: no call in progress, the last one returned r.  LCas d: in lock_inner
   before the compare-exchange; d: a deadline was given.  LFutex d v: before
   futex_wait(inner, v).  LAsleep d: asleep in it.  LInc, LIncStore n: in
   increment_recursive_count before the load, before the store of n + 1.
   URec, URecStore n: in unlock before the load and the store of the count.
   UStore: before the store of STATE_UNLOCKED.  UWake: before futex_wake. *)
Inductive lpc := LRet (r : Z) | LCas (d : bool) | LFutex (d : bool) (v : Z) | LAsleep (d : bool)
  | LInc | LIncStore (n : Z) | URec | URecStore (n : Z) | UStore | UWake.

(* A thread is named by its thread id, as the code does.  [held] is a ghost: how
   many more times a thread was told "locked" than it called unlock without being
   told EPERM. *)
Record lstate := LState { inner : Z; rcount : Z; held : tid -> Z; lp : tid -> lpc }.

(* pthread_mutex.rs 35-62 *)
Definition pm_init : lstate := LState STATE_UNLOCKED 0 (fun _ => 0) (fun _ => LRet 0).

Inductive lact :=
| LLock (d : bool) | LTry | LUnlock
| LStep (spur : bool)
| LSpurious           (* futex_wait returns early *)
| LTimeout.           (* futex_wait returns ETIMEDOUT *)

Definition lwake_all (f : tid -> lpc) : tid -> lpc :=
  fun u => match f u with LAsleep d => LCas d | x => x end.

Definition is_rec (k : ty) : bool := match k with Recursive => true | _ => false end.
Definition is_errck (k : ty) : bool := match k with Errck => true | _ => false end.

(* Thread ids are positive and fit INDEX_MASK (kernel thread ids). *)
Definition valid_tid (t : tid) : bool := (0 <? t) && (t <? 2 ^ 31).

Definition pm_exec (k : ty) (robust : bool) (s : lstate) (l : tid * lact) : option lstate :=
  let t := fst l in
  let go p := Some (LState (inner s) (rcount s) (held s) (setf (lp s) t p)) in
  let acquired w := Some (LState w (rcount s) (setf (held s) t (held s t + 1)) (setf (lp s) t (LRet 0))) in
  if negb (valid_tid t) then None else
  match lp s t, snd l with
  (* pthread_mutex.rs 75-136 lock_inner *)
  | LRet _, LLock d => go (LCas d)
  | LCas d, LStep spur =>
      let '(w', ok, seen) := cas (inner s) STATE_UNLOCKED t spur in
      if ok : bool then
        if is_rec k then Some (LState w' (rcount s) (held s) (setf (lp s) t LInc))
        else acquired w'
      else if (Z.land seen INDEX_MASK =? t) && is_rec k then go LInc
      else if (Z.land seen INDEX_MASK =? t) && is_errck k then go (LRet EAGAIN)
      else if Z.land seen INDEX_MASK =? 0 then go (LCas d)
      else go (LFutex d seen)
  | LFutex d v, LStep _ => go (if inner s =? v then LAsleep d else LCas d)
  | LAsleep d, LSpurious => go (LCas d)
  | LAsleep d, LTimeout => if d then go (LRet ETIMEDOUT) else None
  (* pthread_mutex.rs 143-160 increment_recursive_count *)
  | LInc, LStep _ =>
      go (if rcount s =? RECURSIVE_COUNT_MAX_INCLUSIVE then LRet EAGAIN else LIncStore (rcount s))
  | LIncStore n, LStep _ =>
      Some (LState (inner s) (n + 1) (setf (held s) t (held s t + 1)) (setf (lp s) t (LRet 0)))
  (* pthread_mutex.rs 161-190 try_lock *)
  | LRet _, LTry =>
      let '(w', ok, seen) := cas (inner s) STATE_UNLOCKED t false in
      if is_rec k then
        if negb ok && negb (Z.land seen INDEX_MASK =? t) then go (LRet EBUSY)
        else Some (LState w' (rcount s) (held s) (setf (lp s) t LInc))
      else if ok : bool then acquired w'
      else if (Z.land seen INDEX_MASK =? t) && is_errck k then go (LRet EDEADLK)
      else go (LRet EBUSY)
  (* pthread_mutex.rs 192-220 unlock.  Unlocking an unchecked mutex one does not
     hold is undefined (POSIX) and not a move of the model. *)
  | LRet _, LUnlock =>
      let start := Some (LState (inner s) (rcount s) (setf (held s) t (held s t - 1))
                           (setf (lp s) t (if is_rec k then URec else UStore))) in
      if robust || is_rec k || is_errck k then
        if negb (Z.land (inner s) INDEX_MASK =? t) then go (LRet EPERM) else start
      else if 0 <? held s t then start else None
  | URec, LStep _ => go (URecStore ((rcount s - 1) mod 2 ^ 32))
  | URecStore n, LStep _ =>
      Some (LState (inner s) n (held s) (setf (lp s) t (if 0 <? n then LRet 0 else UStore)))
  | UStore, LStep _ => Some (LState STATE_UNLOCKED (rcount s) (held s) (setf (lp s) t UWake))
  | UWake, LStep _ =>
      Some (LState (inner s) (rcount s) (held s) (setf (lwake_all (lp s)) t (LRet 0)))
  | _, _ => None
  end.
