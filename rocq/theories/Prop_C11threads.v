(* C135: threads.h. *)
From Coq Require Import ZArith List Bool Lia.
From Verif Require Import Base Conc Waituntil_model Pmutex_model C11threads_model C11threads_spec C11threads_proofs.
Import ListNotations.
Open Scope Z_scope.

(* thrd_success is returned exactly when the pthread function succeeded. *)
Theorem C135_success : forall r, (forall c, mtx_ret c r = 0 <-> r = 0) /\ (cnd_timedwait r = 0 <-> r = 0) /\
  (thrd_create r = 0 <-> r = 0) /\ (plain r = 0 <-> r = 0).
Proof. exact success. Qed.
Print Assumptions C135_success.

(* A mutex made by mtx_init with whatever type excludes. *)
Theorem C135_exclusion : forall kind s t u, reachable (mtx_exec kind) pm_init s -> 0 < held s t -> 0 < held s u -> t = u.
Proof. exact mtx_exclusion. Qed.
Print Assumptions C135_exclusion.

(* With mtx_recursive, whatever else the type says, the owner locks it again
   without waiting and is told thrd_success. *)
Theorem C135_recursive : forall kind s t r c, Z.odd kind = true -> reachable (mtx_exec kind) pm_init s ->
  0 < t < 2 ^ 31 -> lp s t = LRet r -> 0 < held s t < 2 ^ 32 - 1 -> (c = LTry \/ exists d, c = LLock d) ->
  exists s1 ls s', mtx_exec kind s (t, c) = Some s1 /\ run (mtx_exec kind) s1 ls = Some s' /\ Forall (fun l => fst l = t) ls /\
    held s' t = held s t + 1 /\ exists r', lp s' t = LRet r' /\ mtx_ret c r' = 0.
Proof. exact mtx_relock. Qed.
Print Assumptions C135_recursive.

Example C135_recursive_nonvacuous :
  match run (mtx_exec 3) pm_init [(1, LLock true); (1, LStep false); (1, LStep false); (1, LStep false)] with
  | Some s => Z.odd 3 = true /\ lp s 1 = LRet 0 /\ held s 1 = 1
  | None => False end.
Proof. vm_compute. repeat split. Qed.

(* mtx_trylock of a mutex that is held changes nothing; it always returns
   thrd_error, never thrd_busy. *)
Theorem C135_busy_refuted : forall kind s t u r, reachable (mtx_exec kind) pm_init s ->
  0 < t < 2 ^ 31 -> lp s t = LRet r -> 0 < held s u -> (u <> t \/ Z.odd kind = false) ->
  exists s' r', mtx_exec kind s (t, LTry) = Some s' /\ lp s' t = LRet r' /\ (forall v, held s' v = held s v) /\
    mtx_ret LTry r' = result_for Other.
Proof. exact mtx_trylock_held. Qed.
Print Assumptions C135_busy_refuted.

Example C135_busy_nonvacuous :
  match run (mtx_exec 0) pm_init [(1, LLock false); (1, LStep false)] with
  | Some s => lp s 2 = LRet 0 /\ held s 1 = 1 /\ result_for Resource_in_use <> result_for Other
  | None => False end.
Proof. vm_compute. repeat split. discriminate. Qed.

(* mtx_timedlock and cnd_timedwait never return thrd_timedout, thrd_create never
   thrd_nomem. *)
Theorem C135_timedout_refuted : forall kind s t s', lp s t = LAsleep true -> mtx_exec kind s (t, LTimeout) = Some s' ->
  exists r, lp s' t = LRet r /\ mtx_ret (LLock true) r = result_for Other.
Proof. exact mtx_timeout. Qed.
Print Assumptions C135_timedout_refuted.

Example C135_timedout_nonvacuous :
  match run (mtx_exec 2) pm_init [(1, LLock false); (1, LStep false); (2, LLock true); (2, LStep false); (2, LStep false)] with
  | Some s => lp s 2 = LAsleep true /\ mtx_exec 2 s (2, LTimeout) <> None
  | None => False end.
Proof. vm_compute. repeat split. discriminate. Qed.

Theorem C135_reasons_refuted :
  cnd_timedwait ETIMEDOUT <> result_for Time_reached /\ thrd_create ENOMEM <> result_for No_memory.
Proof. split; discriminate. Qed.
Print Assumptions C135_reasons_refuted.

(* thrd_join gives back what the thread returned or gave to thrd_exit (the upper
   half of the pointer-sized value does not matter).  Partial: eight bytes must be
   there, and are changed, not four. *)
Theorem C135_join_partial : forall m retval v ret, retval <> 0 -> mapped m retval 8 -> (v - ret) mod 2 ^ 32 = 0 ->
  exists m', thrd_join m retval (inl v) = Ok (m', 0) /\ int_at m' retval ret /\ only_changes m m' retval 8.
Proof. exact join_value. Qed.
Print Assumptions C135_join_partial.

Theorem C135_exit : forall ret, (thrd_exit ret - ret) mod 2 ^ 32 = 0.
Proof. exact exit_low. Qed.
Print Assumptions C135_exit.

Theorem C135_join_null : forall m v, thrd_join m 0 (inl v) = Ok (m, 0).
Proof. exact join_null. Qed.
Print Assumptions C135_join_null.

Theorem C135_join_fails : forall m retval err, err <> 0 -> thrd_join m retval (inr err) = Ok (m, result_for Other).
Proof. exact join_fails. Qed.
Print Assumptions C135_join_fails.

Definition C135_ints : mem := mem_of 100 [1; 0; 0; 0; 7; 0; 0; 0].
Example C135_join_nonvacuous : mapped C135_ints 100 8 /\ (thrd_exit (-5) - -5) mod 2 ^ 32 = 0.
Proof.
  split; [|reflexivity]. intros x X.
  assert (x = 100 \/ x = 101 \/ x = 102 \/ x = 103 \/ x = 104 \/ x = 105 \/ x = 106 \/ x = 107) as K by lia.
  destruct K as [->|[->|[->|[->|[->|[->|[->| ->]]]]]]]; eexists; vm_compute; reflexivity.
Qed.

(* Of two ints next to each other, joining into the first loses the second; an int
   at the end of mapped memory is enough to crash. *)
Theorem C135_join_overwrites_refuted :
  int_at C135_ints 104 7 /\ (exists m', thrd_join C135_ints 100 (inl (thrd_exit 3)) = Ok (m', 0) /\ ~ int_at m' 104 7) /\
  thrd_join C135_ints 104 (inl (thrd_exit 3)) = Fault.
Proof.
  split; [exists 7, 0, 0, 0; vm_compute; repeat split|]. split; [|vm_compute; reflexivity].
  eexists. split; [vm_compute; reflexivity|]. intros (b0 & b1 & b2 & b3 & E0 & E1 & E2 & E3 & Q).
  vm_compute in E0, E1, E2, E3. injection E0 as <-. injection E1 as <-. injection E2 as <-. injection E3 as <-.
  vm_compute in Q. discriminate.
Qed.
Print Assumptions C135_join_overwrites_refuted.

(* thrd_sleep does not sleep: it panics for every duration. *)
Theorem C135_sleep_refuted : forall seconds nanoseconds, thrd_sleep seconds nanoseconds = Panic.
Proof. reflexivity. Qed.
Print Assumptions C135_sleep_refuted.
