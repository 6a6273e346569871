(* Model of sync/semaphore.rs and header/semaphore/mod.rs. *)
From Coq Require Import ZArith List Bool.
From Verif Require Import Conc Waituntil_model.
Import ListNotations.
Open Scope Z_scope.

Definition EINTR := 4.
Definition EAGAIN := 11.
Definition ETIMEDOUT := 110.

(* The call a thread is in: sem_trywait, sem_wait, or sem_timedwait/clockwait. *)
Inductive kind := KTry | KWait | KTimed.

(* QRet r: no call in progress; the last one returned r (0, or the error number).
   QLoad, QCas v: in try_wait, before the load, before the compare-exchange with
   the loaded v.  QFutex: before futex_wait.  QAsleep: asleep in it.  QWake: in
   post, before futex_wake. *)
Inductive qpc := QRet (r : Z) | QLoad (k : kind) | QCas (k : kind) (v : Z)
  | QFutex (k : kind) | QAsleep (k : kind) | QWake.

(* [posts] and [taken] are ghosts: completed fetch_adds of post, and waits or
   trywaits that acquired. *)
Record qstate := QState { count : Z; posts : Z; taken : Z; qpcs : tid -> qpc }.

(* /repo/src/sync/semaphore.rs 24-28, header/semaphore/mod.rs 51-55 sem_init *)
Definition sem_init (value : Z) : qstate := QState value 0 0 (fun _ => QRet 0).

Inductive qact :=
| QCall (k : kind)
| QPost              (* sem_post *)
| QStep (spur : bool)
| QSpurious          (* futex_wait returns Ok without a wake *)
| QInterrupt         (* futex_wait fails with EINTR *)
| QTimeout.          (* futex_wait fails with ETIMEDOUT *)

Definition qwake_all (f : tid -> qpc) : tid -> qpc :=
  fun u => match f u with QAsleep k => QLoad k | x => x end.

Definition sem_exec (s : qstate) (l : tid * qact) : option qstate :=
  let t := fst l in
  let go p := Some (QState (count s) (posts s) (taken s) (setf (qpcs s) t p)) in
  match qpcs s t, snd l with
  | QRet _, QCall k => go (QLoad k)
  (* semaphore.rs 32-36 post(1): fetch_add wraps *)
  | QRet _, QPost =>
      Some (QState ((count s + 1) mod 2 ^ 32) (posts s + 1) (taken s) (setf (qpcs s) t QWake))
  | QWake, QStep _ =>
      Some (QState (count s) (posts s) (taken s) (setf (qwake_all (qpcs s)) t (QRet 0)))
  (* semaphore.rs 38-56 try_wait: a zero is a failure of trywait (mod.rs 78-85)
     and sends wait to futex_wait *)
  | QLoad k, QStep _ =>
      if count s =? 0 then go (match k with KTry => QRet EAGAIN | _ => QFutex k end)
      else go (QCas k (count s))
  | QCas k v, QStep spur =>
      let '(w', ok, _) := cas (count s) v (v - 1) spur in
      if ok : bool then Some (QState w' (posts s) (taken s + 1) (setf (qpcs s) t (QRet 0)))
      else go (QLoad k)
  (* semaphore.rs 58-77 wait: `Sys::futex_wait(...)?` returns every error,
     EAGAIN (the count is not 0 any more) included *)
  | QFutex k, QStep _ => go (if count s =? 0 then QAsleep k else QRet EAGAIN)
  | QAsleep k, QSpurious => go (QLoad k)
  | QAsleep _, QInterrupt => go (QRet EINTR)
  | QAsleep k, QTimeout => match k with KTimed => go (QRet ETIMEDOUT) | _ => None end
  | _, _ => None
  end.
