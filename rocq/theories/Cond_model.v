(* Model of sync/cond.rs.  The mutex is abstract: [owner] is the thread that owns
   it, taking it is one step that is possible while it is free (what C29 and C30
   prove of the code's mutexes); a thread that calls pthread_cond_wait owns it. *)
From Coq Require Import ZArith List Bool.
From Verif Require Import Conc.
Import ListNotations.
Open Scope Z_scope.

Definition ETIMEDOUT := 110.

(* CIdle r: no call in progress, the last one returned r.
   CLoad .. CRelock: in wait_inner_generic, before the load of cur; before the
   store of prev; before unlock; before futex_wait; asleep; before lock, to return r.
   SLoad .. SWake: in wake (the i-th call of signal or broadcast), before the load
   of prev; before the store of cur; before futex_wake. *)
Inductive cpc := CIdle (r : Z)
  | CLoad (timed : bool) | CPrev (timed : bool) (c : Z) | CUnlock (timed : bool) (c : Z)
  | CFutex (timed : bool) (c : Z) | CSleep (timed : bool) (c : Z) | CRelock (r : Z)
  | SLoad (i : Z) | SStore (i p : Z) | SWake (i : Z).

(* Ghosts: [calls] calls of signal/broadcast begun so far; [maxdone] the largest
   number of a returned one; [sigs] how many are in progress; [waits] waits that
   stored prev; per thread [uc] and [uw]: calls and waits when it released the mutex
   in its current wait; [gen], [pgen], [wgen], [sgen]: the values of cur, prev, of a
   waiter's current and a signaller's prev without wrapping. *)
Record cstate := CState {
  cur : Z; prev : Z; owner : option tid; cpcs : tid -> cpc;
  calls : Z; maxdone : Z; sigs : Z; waits : Z; uc : tid -> Z; uw : tid -> Z;
  gen : Z; pgen : Z; wgen : tid -> Z; sgen : tid -> Z }.

(* /repo/src/sync/cond.rs 45-50 *)
Definition cond_init : cstate :=
  CState 0 0 None (fun _ => CIdle 0) 0 0 0 0 (fun _ => 0) (fun _ => 0) 0 0 (fun _ => 0) (fun _ => 0).

Inductive cact :=
| CallLock | CallUnlock   (* pthread_mutex_lock / unlock by the application *)
| CallWait (timed : bool)
| CallSignal              (* signal or broadcast: cond.rs 59-65, the same *)
| CStep | CSpurious | CTimeout.

(* futex_wake(i32::MAX) *)
Definition cwake_all (f : tid -> cpc) : tid -> cpc :=
  fun u => match f u with CSleep _ _ => CRelock 0 | x => x end.

Definition owns (s : cstate) (t : tid) : bool :=
  match owner s with Some u => u =? t | None => false end.

Definition cond_exec (s : cstate) (l : tid * cact) : option cstate :=
  let t := fst l in
  let go o p :=
    Some (CState (cur s) (prev s) o (setf (cpcs s) t p) (calls s) (maxdone s) (sigs s) (waits s)
                 (uc s) (uw s) (gen s) (pgen s) (wgen s) (sgen s)) in
  match cpcs s t, snd l with
  | CIdle _, CallLock => match owner s with None => go (Some t) (CIdle 0) | Some _ => None end
  | CIdle _, CallUnlock => if owns s t then go None (CIdle 0) else None
  | CIdle _, CallWait d => if owns s t then go (owner s) (CLoad d) else None
  | CIdle _, CallSignal =>
      Some (CState (cur s) (prev s) (owner s) (setf (cpcs s) t (SLoad (calls s + 1)))
                   (calls s + 1) (maxdone s) (sigs s + 1) (waits s)
                   (uc s) (uw s) (gen s) (pgen s) (wgen s) (sgen s))
  (* cond.rs 109-129 wait_inner_generic *)
  | CLoad d, CStep =>
      Some (CState (cur s) (prev s) (owner s) (setf (cpcs s) t (CPrev d (cur s)))
                   (calls s) (maxdone s) (sigs s) (waits s)
                   (uc s) (uw s) (gen s) (pgen s) (setf (wgen s) t (gen s)) (sgen s))
  | CPrev d c, CStep =>
      Some (CState (cur s) c (owner s) (setf (cpcs s) t (CUnlock d c))
                   (calls s) (maxdone s) (sigs s) (waits s + 1)
                   (uc s) (setf (uw s) t (waits s + 1)) (gen s) (wgen s t) (wgen s) (sgen s))
  | CUnlock d c, CStep =>
      Some (CState (cur s) (prev s) None (setf (cpcs s) t (CFutex d c))
                   (calls s) (maxdone s) (sigs s) (waits s)
                   (setf (uc s) t (calls s)) (uw s) (gen s) (pgen s) (wgen s) (sgen s))
  | CFutex d c, CStep => go (owner s) (if cur s =? c then CSleep d c else CRelock 0)
  | CSleep _ _, CSpurious => go (owner s) (CRelock 0)
  | CSleep d _, CTimeout => if d then go (owner s) (CRelock ETIMEDOUT) else None
  | CRelock r, CStep => match owner s with None => go (Some t) (CIdle r) | Some _ => None end
  (* cond.rs 51-58 wake *)
  | SLoad i, CStep =>
      Some (CState (cur s) (prev s) (owner s) (setf (cpcs s) t (SStore i (prev s)))
                   (calls s) (maxdone s) (sigs s) (waits s)
                   (uc s) (uw s) (gen s) (pgen s) (wgen s) (setf (sgen s) t (pgen s)))
  | SStore i p, CStep =>
      Some (CState ((p + 1) mod 2 ^ 32) (prev s) (owner s) (setf (cpcs s) t (SWake i))
                   (calls s) (maxdone s) (sigs s) (waits s)
                   (uc s) (uw s) (sgen s t + 1) (pgen s) (wgen s) (sgen s))
  | SWake i, CStep =>
      Some (CState (cur s) (prev s) (owner s) (setf (cwake_all (cpcs s)) t (CIdle 0))
                   (calls s) (Z.max (maxdone s) i) (sigs s - 1) (waits s)
                   (uc s) (uw s) (gen s) (pgen s) (wgen s) (sgen s))
  | _, _ => None
  end.

(* Executions in which a signal or broadcast is called only while no other is in
   progress, and executions in which only the owner of the mutex calls them. *)
Definition serial_exec (s : cstate) (l : tid * cact) : option cstate :=
  match snd l with
  | CallSignal => if sigs s =? 0 then cond_exec s l else None
  | _ => cond_exec s l
  end.
Definition held_exec (s : cstate) (l : tid * cact) : option cstate :=
  match snd l with
  | CallSignal => if owns s (fst l) then cond_exec s l else None
  | _ => cond_exec s l
  end.
