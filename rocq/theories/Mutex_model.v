(* Model of relibc's internal futex mutex (sync/mutex.rs). *)
From Coq Require Import ZArith List Bool.
From Verif Require Import Conc Waituntil_model.
Import ListNotations.
Open Scope Z_scope.

(* /repo/src/sync/mutex.rs 9-11 *)
Definition UNLOCKED := 0.
Definition LOCKED := 1.
Definition WAITING := 2.

(* /repo/src/sync/mutex.rs 27-34: the attempt closure of manual_lock_generic. *)
Definition mx_attempt (w : Z) (spur : bool) : Z * status :=
  let '(w', ok, seen) := cas w UNLOCKED LOCKED spur in
  (w', if ok : bool then Desired else if seen =? WAITING then Waiting else Other).

(* /repo/src/sync/mutex.rs 35-43: the mark_long closure.  compare_exchange gives
   the old value both on success and on failure. *)
Definition mx_mark_long (w : Z) (spur : bool) : Z * status :=
  let '(w', _, seen) := cas w LOCKED WAITING spur in
  (w', if seen =? UNLOCKED then Desired else if seen =? WAITING then Waiting else Other).

(* Where a thread stands with respect to one mutex.  Waking: in unlock, the swap
   is done and returned WAITING, the futex_wake is still to come. *)
Inductive mpc := Idle | Locking (p : wpc) | Held | Waking.

Record mstate := MState { word : Z; pc : tid -> mpc }.

(* /repo/src/sync/mutex.rs 55-60 Mutex::new *)
Definition mx_init : mstate := MState UNLOCKED (fun _ => Idle).

Inductive mact :=
| CallLock            (* Mutex::lock is called *)
| CallTryLock         (* Mutex::try_lock is called *)
| CallUnlock          (* the guard is dropped *)
| Step (spur : bool)  (* the thread's next shared access *)
| Spurious.           (* futex_wait returns without a wake (EINTR) *)

Definition wake_all (f : tid -> mpc) : tid -> mpc :=
  fun u => match f u with Locking p => Locking (wu_wake p) | x => x end.

Definition fin (p : wpc) : mpc := match p with WDone => Held | p => Locking p end.

Definition mx_exec (s : mstate) (l : tid * mact) : option mstate :=
  let t := fst l in
  match pc s t, snd l with
  (* manual_lock_generic, mutex.rs 24-46 *)
  | Idle, CallLock => Some (MState (word s) (setf (pc s) t (Locking (WSpin SPINS))))
  | Locking WSleep, Spurious => Some (MState (word s) (setf (pc s) t (Locking WRetry)))
  | Locking p, Step spur =>
      match wu_step mx_attempt mx_mark_long WAITING (word s) p spur with
      | Some (w', p') => Some (MState w' (setf (pc s) t (fin p')))
      | None => None
      end
  (* manual_try_lock_generic, mutex.rs 20-23 (a strong compare_exchange) *)
  | Idle, CallTryLock =>
      let '(w', ok, _) := cas (word s) UNLOCKED LOCKED false in
      Some (MState w' (setf (pc s) t (if ok : bool then Held else Idle)))
  (* manual_unlock_generic, mutex.rs 47-51 *)
  | Held, CallUnlock =>
      Some (MState UNLOCKED (setf (pc s) t (if word s =? WAITING then Waking else Idle)))
  | Waking, Step _ => Some (MState (word s) (setf (wake_all (pc s)) t Idle))
  | _, _ => None
  end.
