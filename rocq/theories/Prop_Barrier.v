(* C32: barriers with count n.  [my s t] is the number (from 0) of t's arrival at
   the barrier, [arrivals s] the number of arrivals so far; arrival k belongs to
   cycle k / n. *)
From Coq Require Import ZArith List Bool Lia.
From Verif Require Import Conc Barrier_model Barrier_proofs Barrier_proofs2.
Import ListNotations.
Open Scope Z_scope.

(* Whatever step ends a call: all n threads of the caller's cycle have arrived, and
   the result is PTHREAD_BARRIER_SERIAL_THREAD for the last arrival of the cycle
   and 0 for all others. *)
Theorem C32_return : forall n s t l s' r, 1 <= n < 2 ^ 32 ->
  reachable (bar_exec n) bar_init s -> (forall q, bpcs s t <> BIdle q) ->
  bar_exec n s l = Some s' -> bpcs s' t = BIdle r ->
  match bpcs s t with BIdle _ | BLock | BBody => false | _ => true end = true /\
  (my s t / n + 1) * n <= arrivals s /\
  ((r = SERIAL_THREAD /\ my s t mod n = n - 1) \/ (r = 0 /\ my s t mod n <> n - 1)).
Proof. exact bar_safe. Qed.
Print Assumptions C32_return.

(* The threads inside have distinct arrival numbers below [arrivals]. *)
Theorem C32_arrivals_are_distinct : forall n s, 1 <= n < 2 ^ 32 ->
  reachable (bar_exec n) bar_init s ->
  (forall t, match bpcs s t with BIdle _ | BLock | BBody => false | _ => true end = true ->
     0 <= my s t < arrivals s) /\
  (forall t u, match bpcs s t with BIdle _ | BLock | BBody => false | _ => true end = true ->
     match bpcs s u with BIdle _ | BLock | BBody => false | _ => true end = true ->
     my s t = my s u -> t = u).
Proof. exact bar_numbers. Qed.
Print Assumptions C32_arrivals_are_distinct.

(* Once the n threads of its cycle have arrived, each thread inside can return, by
   steps of itself and of the thread that holds the barrier's lock, without
   spurious wake-ups or new calls, however many cycles were completed meanwhile.
   Partial: fewer than 2^32 - 2, because gen_id wraps. *)
Theorem C32_all_return_partial : forall n s t, 1 <= n < 2 ^ 32 ->
  reachable (bar_exec n) bar_init s ->
  match bpcs s t with BIdle _ | BLock | BBody => false | _ => true end = true ->
  (my s t / n + 1) * n <= arrivals s -> arrivals s - my s t < (2 ^ 32 - 2) * n ->
  exists ls s' r, run (bar_exec n) s ls = Some s' /\ bpcs s' t = BIdle r /\
    Forall (fun l => snd l = BStep) ls.
Proof. exact bar_returns. Qed.
Print Assumptions C32_all_return_partial.

(* When at most n threads use the barrier ([among L n]: only threads of L make
   steps) this holds without that restriction. *)
Theorem C32_all_return : forall L n s t, 1 <= n < 2 ^ 32 -> NoDup L -> Z.of_nat (length L) <= n ->
  reachable (among L n) bar_init s ->
  match bpcs s t with BIdle _ | BLock | BBody => false | _ => true end = true ->
  (my s t / n + 1) * n <= arrivals s ->
  exists ls s' r, run (bar_exec n) s ls = Some s' /\ bpcs s' t = BIdle r /\
    Forall (fun l => snd l = BStep) ls.
Proof. exact bar_returns_among. Qed.
Print Assumptions C32_all_return.

(* In particular a thread still asleep then is about to be woken. *)
Theorem C32_sleeper_is_covered_partial : forall n s t g c, 1 <= n < 2 ^ 32 ->
  reachable (bar_exec n) bar_init s -> bpcs s t = BSleep g c ->
  (my s t / n + 1) * n <= arrivals s -> arrivals s - my s t < (2 ^ 32 - 2) * n ->
  exists u, owner s = Some u /\
    match bpcs s u with SLoad | SStore _ | SWake => True | _ => False end.
Proof. exact bar_sleeper. Qed.
Print Assumptions C32_sleeper_is_covered_partial.

(* Two threads, the second of which comes back for the next cycle before the first
   has left; the first still returns, with 0. *)
Definition C32_trace : list (tid * bact) :=
  [(1, BCall); (1, BStep); (1, BStep); (1, BStep); (1, BStep); (1, BStep); (1, BStep); (1, BStep);
   (2, BCall); (2, BStep); (2, BStep); (2, BStep); (2, BStep); (2, BStep); (2, BStep);
   (2, BCall); (2, BStep); (2, BStep); (2, BStep); (2, BStep); (2, BStep); (2, BStep)].
Example C32_case :
  match run (bar_exec 2) bar_init (firstn 8 C32_trace) with
  | Some s => bpcs s 1 = BSleep 0 0 /\ arrivals s = 1 | None => False
  end /\
  match run (bar_exec 2) bar_init (firstn 15 C32_trace) with
  | Some s => bpcs s 2 = BIdle SERIAL_THREAD /\ bpcs s 1 = BRelock 0 /\ arrivals s = 2 | None => False
  end /\
  match run (among [1; 2] 2) bar_init C32_trace with
  | Some s => bpcs s 1 = BRelock 0 /\ bpcs s 2 = BFutex 1 1 /\ my s 1 = 0 /\ my s 2 = 2 /\ arrivals s = 3 /\
      match run (bar_exec 2) s [(2, BStep); (1, BStep); (1, BStep); (1, BStep)] with
      | Some s' => bpcs s' 1 = BIdle 0 /\ bpcs s' 2 = BSleep 1 1 | None => False end
  | None => False
  end.
Proof. vm_compute. repeat split; reflexivity. Qed.
