(* C31: condition variables.  [uc s t] is the number of signal/broadcast calls begun
   when t, in its current wait, released the mutex; [maxdone s] is the number of the
   latest call that has returned; so [uc s t < maxdone s] says that a signal or
   broadcast called after t blocked has completed.  [waits s - uw s t] is the number
   of waits that other threads began since. *)
From Coq Require Import ZArith List Bool Lia.
From Verif Require Import Conc Cond_model Cond_proofs.
Import ListNotations.
Open Scope Z_scope.

(* Whichever step ends a wait, the mutex was free before it and the caller owns
   it after it; the result is 0 or ETIMEDOUT. *)
Theorem C31_reowns_the_mutex : forall s t l s' r, reachable cond_exec cond_init s ->
  match cpcs s t with
  | CLoad _ | CPrev _ _ | CUnlock _ _ | CFutex _ _ | CSleep _ _ | CRelock _ => true
  | _ => false end = true ->
  cond_exec s l = Some s' -> cpcs s' t = CIdle r ->
  owner s = None /\ owner s' = Some t /\ (r = 0 \/ r = ETIMEDOUT).
Proof. exact cond_reowns. Qed.
Print Assumptions C31_reowns_the_mutex.

(* Partial: when calls of signal/broadcast never overlap, and fewer than 2^32 - 1
   waits began since t blocked, a thread that blocked before a completed signal or
   broadcast was called is not asleep. *)
Theorem C31_no_lost_wakeup_partial : forall s t d c, reachable serial_exec cond_init s ->
  uc s t < maxdone s -> waits s - uw s t < 2 ^ 32 - 1 -> cpcs s t <> CSleep d c.
Proof. exact cond_not_asleep. Qed.
Print Assumptions C31_no_lost_wakeup_partial.

(* Nor will it go to sleep: once the mutex is free it returns by two of its own
   steps. *)
Theorem C31_waiter_returns_partial : forall s t, reachable serial_exec cond_init s ->
  match cpcs s t with CFutex _ _ | CSleep _ _ => true | _ => false end = true \/
    (exists r, cpcs s t = CRelock r) ->
  uc s t < maxdone s -> waits s - uw s t < 2 ^ 32 - 1 -> owner s = None ->
  exists n s' r, (n <= 2)%nat /\ run cond_exec s (repeat (t, CStep) n) = Some s' /\
    cpcs s' t = CIdle r /\ owner s' = Some t.
Proof. exact cond_returns. Qed.
Print Assumptions C31_waiter_returns_partial.

(* This covers the programs that call signal and broadcast with the mutex held. *)
Theorem C31_holding_the_mutex_partial : forall s, reachable held_exec cond_init s ->
  reachable serial_exec cond_init s.
Proof. exact held_serial. Qed.
Print Assumptions C31_holding_the_mutex_partial.

(* With two overlapping signallers that do not hold the mutex, thread 2 sleeps on
   although signals called after it blocked have returned and none is in progress. *)
Definition C31_lost : list (tid * cact) :=
  [(1, CallSignal); (1, CStep); (1, CStep); (1, CStep);       (* cur = 1 *)
   (3, CallSignal); (3, CStep);                               (* loads prev = 0 *)
   (2, CallLock); (2, CallWait false); (2, CStep); (2, CStep); (2, CStep); (* blocks on 1 *)
   (4, CallSignal); (4, CStep); (4, CStep); (4, CStep);       (* cur = 2 *)
   (3, CStep); (3, CStep);                                    (* cur = 1 again *)
   (2, CStep)].
Theorem C31_overlapping_signals_refuted :
  match run cond_exec cond_init C31_lost with
  | Some s => cpcs s 2 = CSleep false 1 /\ uc s 2 < maxdone s /\ sigs s = 0 /\ waits s = uw s 2 /\
      owner s = None
  | None => False
  end.
Proof. vm_compute. repeat split; reflexivity. Qed.
Print Assumptions C31_overlapping_signals_refuted.

(* A waiter asleep, a signaller holding the mutex; before its futex_wake the waiter
   is asleep, after it not, and the wait returns when the mutex is released. *)
Definition C31_trace : list (tid * cact) :=
  [(1, CallLock); (1, CallWait true); (1, CStep); (1, CStep); (1, CStep); (1, CStep);
   (2, CallLock); (2, CallSignal); (2, CStep); (2, CStep); (2, CStep); (2, CallUnlock)].
Example C31_case :
  match run held_exec cond_init (firstn 10 C31_trace) with
  | Some s => cpcs s 1 = CSleep true 0 /\ cur s = 1 /\ sigs s = 1
  | None => False
  end /\
  match run held_exec cond_init C31_trace with
  | Some s => uc s 1 < maxdone s /\ waits s - uw s 1 < 2 ^ 32 - 1 /\ owner s = None /\
      cpcs s 1 = CRelock 0 /\
      match run cond_exec s [(1, CStep)] with
      | Some s' => cpcs s' 1 = CIdle 0 /\ owner s' = Some 1 | None => False end
  | None => False
  end.
Proof. vm_compute. repeat split; reflexivity. Qed.
