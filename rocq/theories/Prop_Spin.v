(* C37: pthread_spinlock_t. *)
From Coq Require Import ZArith List Bool.
From Verif Require Import Conc Waituntil_model Spin_model Spin_proofs.
Import ListNotations.
Open Scope Z_scope.

Theorem C37_mutual_exclusion : forall s t u, reachable sp_exec sp_init s ->
  ppcs s t = POwn -> ppcs s u = POwn -> t = u.
Proof. exact spin_exclusion. Qed.
Print Assumptions C37_mutual_exclusion.

(* trylock returns in one step: EBUSY, somebody holds the lock and nothing
   changes hands; or the caller now has it and nobody had it. *)
Theorem C37_trylock : forall s t s', reachable sp_exec sp_init s -> sp_exec s (t, PTry) = Some s' ->
  (ppcs s' t = PRet EBUSY /\ (exists u, ppcs s u = POwn) /\ forall u, ppcs s' u = POwn <-> ppcs s u = POwn) \/
  (ppcs s' t = POwn /\ forall u, ppcs s u <> POwn).
Proof. exact spin_try. Qed.
Print Assumptions C37_trylock.

(* A spinning thread gets the lock only when it is free, and gets it at its next
   non-spurious attempt when it is. *)
Theorem C37_lock : forall s t spur s', reachable sp_exec sp_init s -> ppcs s t = PSpin ->
  sp_exec s (t, PStep spur) = Some s' ->
  (ppcs s' t = POwn -> forall u, ppcs s u <> POwn) /\
  (spur = false -> (forall u, ppcs s u <> POwn) -> ppcs s' t = POwn).
Proof. exact spin_lock_step. Qed.
Print Assumptions C37_lock.

Example C37_case :
  match run sp_exec sp_init
    [(1, PLock); (1, PStep true); (1, PStep false); (2, PTry); (3, PLock); (3, PStep false)] with
  | Some s => ppcs s 1 = POwn /\ ppcs s 2 = PRet EBUSY /\ ppcs s 3 = PSpin
  | None => False
  end.
Proof. vm_compute. repeat split; reflexivity. Qed.
