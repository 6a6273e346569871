(* Model of sync/barrier.rs and header/pthread/barrier.rs, on top of the
   condition-variable steps of sync/cond.rs; the mutex is abstract as in Cond_model. *)
From Coq Require Import ZArith List Bool.
From Verif Require Import Conc.
Import ListNotations.
Open Scope Z_scope.

(* /repo/src/header/pthread/mod.rs 42 *)
Definition SERIAL_THREAD := -1.

(* BIdle r: outside, the last call returned r.  BLock: before lock.  BBody: lock
   taken.  BCheck g: at the test of the while loop, lock held.  BLoad .. BRelock:
   in cvar.wait_inner_typedmutex (before the load of cur, the store of prev, the
   unlock, futex_wait, asleep, before lock).  SLoad .. SWake: in cvar.broadcast.
   BUnlock r: before the guard is dropped, to return r. *)
Inductive bpc := BIdle (r : Z) | BLock | BBody | BCheck (g : Z)
  | BLoad (g : Z) | BPrev (g c : Z) | BRelease (g c : Z) | BFutex (g c : Z) | BSleep (g c : Z) | BRelock (g : Z)
  | SLoad | SStore (p : Z) | SWake | BUnlock (r : Z).

(* Ghosts: [arrivals] threads that have entered the body so far; [my] the arrival
   number (from 0) of a thread's current call; [cyc], [gen], [pgen], [wgen]: gen_id,
   cur, prev and a waiter's current without wrapping. *)
Record bstate := BState {
  count : Z; gen_id : Z; owner : option tid; cur : Z; prev : Z; bpcs : tid -> bpc;
  arrivals : Z; my : tid -> Z; cyc : Z; gen : Z; pgen : Z; wgen : tid -> Z }.

(* /repo/src/sync/barrier.rs 23-32 *)
Definition bar_init : bstate :=
  BState 0 0 None 0 0 (fun _ => BIdle 0) 0 (fun _ => 0) 0 0 0 (fun _ => 0).

Inductive bact := BCall | BStep | BSpurious.

Definition bwake_all (f : tid -> bpc) : tid -> bpc :=
  fun u => match f u with BSleep g _ => BRelock g | x => x end.

(* [n]: original_count *)
Definition bar_exec (n : Z) (s : bstate) (l : tid * bact) : option bstate :=
  let t := fst l in
  let go o p := Some (BState (count s) (gen_id s) o (cur s) (prev s) (setf (bpcs s) t p)
                             (arrivals s) (my s) (cyc s) (gen s) (pgen s) (wgen s)) in
  match bpcs s t, snd l with
  | BIdle _, BCall => go (owner s) BLock
  | BLock, BStep => match owner s with None => go (Some t) BBody | Some _ => None end
  (* barrier.rs 34-44: count += 1 and the test, all under the lock *)
  | BBody, BStep =>
      let count' := (count s + 1) mod 2 ^ 32 in
      if count' =? n
      then Some (BState 0 ((gen_id s + 1) mod 2 ^ 32) (owner s) (cur s) (prev s) (setf (bpcs s) t SLoad)
                        (arrivals s + 1) (setf (my s) t (arrivals s)) (cyc s + 1) (gen s) (pgen s) (wgen s))
      else Some (BState count' (gen_id s) (owner s) (cur s) (prev s) (setf (bpcs s) t (BCheck (gen_id s)))
                        (arrivals s + 1) (setf (my s) t (arrivals s)) (cyc s) (gen s) (pgen s) (wgen s))
  (* cond.rs 51-58 *)
  | SLoad, BStep => go (owner s) (SStore (prev s))
  | SStore p, BStep =>
      Some (BState (count s) (gen_id s) (owner s) ((p + 1) mod 2 ^ 32) (prev s) (setf (bpcs s) t SWake)
                   (arrivals s) (my s) (cyc s) (pgen s + 1) (pgen s) (wgen s))
  | SWake, BStep =>
      Some (BState (count s) (gen_id s) (owner s) (cur s) (prev s) (setf (bwake_all (bpcs s)) t (BUnlock SERIAL_THREAD))
                   (arrivals s) (my s) (cyc s) (gen s) (pgen s) (wgen s))
  (* barrier.rs 48-52 *)
  | BCheck g, BStep => go (owner s) (if gen_id s =? g then BLoad g else BUnlock 0)
  (* cond.rs 109-129 *)
  | BLoad g, BStep =>
      Some (BState (count s) (gen_id s) (owner s) (cur s) (prev s) (setf (bpcs s) t (BPrev g (cur s)))
                   (arrivals s) (my s) (cyc s) (gen s) (pgen s) (setf (wgen s) t (gen s)))
  | BPrev g c, BStep =>
      Some (BState (count s) (gen_id s) (owner s) (cur s) c (setf (bpcs s) t (BRelease g c))
                   (arrivals s) (my s) (cyc s) (gen s) (wgen s t) (wgen s))
  | BRelease g c, BStep => go None (BFutex g c)
  | BFutex g c, BStep => go (owner s) (if cur s =? c then BSleep g c else BRelock g)
  | BSleep g c, BSpurious => go (owner s) (BRelock g)
  | BRelock g, BStep => match owner s with None => go (Some t) (BCheck g) | Some _ => None end
  | BUnlock r, BStep => go None (BIdle r)
  | _, _ => None
  end.
