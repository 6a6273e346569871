(* C34: semaphores.  The value is [count s]; [taken s] is the number of completed
   waits and trywaits. *)
From Coq Require Import ZArith List Bool Lia.
From Verif Require Import Conc Waituntil_model Semaphore_model Semaphore_proofs.
Import ListNotations.
Open Scope Z_scope.

(* Completed waits never exceed the initial value plus the posts begun. *)
Theorem C34_waits_bounded : forall v0 ls s, 0 <= v0 < 2 ^ 32 ->
  run sem_exec (sem_init v0) ls = Some s ->
  taken s <= v0 + Z.of_nat (length (filter (fun l => match snd l with QPost => true | _ => false end) ls)).
Proof. exact sem_bounded. Qed.
Print Assumptions C34_waits_bounded.

(* The step that decides a sem_trywait: it returns 0, takes one and the value was
   positive; or it fails with EAGAIN, takes nothing and the value was 0. *)
Theorem C34_trywait : forall v0 s t spur s' r, 0 <= v0 < 2 ^ 32 ->
  reachable sem_exec (sem_init v0) s ->
  (qpcs s t = QLoad KTry \/ exists v, qpcs s t = QCas KTry v) ->
  sem_exec s (t, QStep spur) = Some s' -> qpcs s' t = QRet r ->
  (r = 0 /\ 0 < count s /\ count s' = count s - 1 /\ taken s' = taken s + 1) \/
  (r = EAGAIN /\ count s = 0 /\ count s' = 0 /\ taken s' = taken s).
Proof. exact sem_decide. Qed.
Print Assumptions C34_trywait.

(* Every post counts: partial, because the value must stay below 2^32. *)
Theorem C34_value_partial : forall v0 s, 0 <= v0 < 2 ^ 32 -> reachable sem_exec (sem_init v0) s ->
  v0 + posts s < 2 ^ 32 -> count s = v0 + posts s - taken s.
Proof. exact sem_value. Qed.
Print Assumptions C34_value_partial.

(* A sem_post on the value 2^32 - 1 returns 0 and leaves the value 0 (POSIX:
   EOVERFLOW). *)
Theorem C34_post_overflow_refuted : exists v0 ls s, 0 <= v0 < 2 ^ 32 /\
  run sem_exec (sem_init v0) ls = Some s /\ qpcs s 1 = QRet 0 /\
  count s = 0 /\ v0 + posts s - taken s > 0.
Proof. exact sem_overflow. Qed.
Print Assumptions C34_post_overflow_refuted.

(* A thread asleep in sem_wait while the value is positive is about to be woken,
   by a post that leaves nobody asleep. *)
Theorem C34_sleeper_is_covered : forall v0 s t k, 0 <= v0 < 2 ^ 32 ->
  reachable sem_exec (sem_init v0) s -> qpcs s t = QAsleep k -> 0 < count s ->
  exists u, qpcs s u = QWake /\ forall b s', sem_exec s (u, QStep b) = Some s' ->
    forall w k', qpcs s' w <> QAsleep k'.
Proof. exact sem_sleeper. Qed.
Print Assumptions C34_sleeper_is_covered.

(* While the value is positive, a thread in sem_wait can complete it by steps of
   itself and of threads inside sem_post.  Partial: unless it stands right before
   its futex_wait call, see the refutation below. *)
Theorem C34_wait_completes_partial : forall v0 s t p, 0 <= v0 < 2 ^ 32 ->
  reachable sem_exec (sem_init v0) s -> 0 < count s -> qpcs s t = p ->
  match p with QLoad _ | QCas _ _ | QAsleep _ => True | _ => False end -> acquires s t.
Proof. exact sem_progress. Qed.
Print Assumptions C34_wait_completes_partial.

(* Apart from signals and timeouts no other step of sem_wait fails. *)
Theorem C34_wait_fails_only_there_partial : forall s t a s' k r,
  qpcs s t = QLoad k \/ (exists v, qpcs s t = QCas k v) \/ qpcs s t = QAsleep k ->
  k <> KTry -> a <> QInterrupt -> a <> QTimeout ->
  sem_exec s (t, a) = Some s' -> qpcs s' t = QRet r -> r = 0.
Proof. exact sem_wait_fails_only. Qed.
Print Assumptions C34_wait_fails_only_there_partial.

(* sem_wait (no timeout, no signal) fails with EAGAIN when a post lands between
   its load of 0 and its futex_wait. *)
Theorem C34_wait_fails_because_of_a_post_refuted :
  match run sem_exec (sem_init 0)
    [(1, QCall KWait); (1, QStep false); (2, QPost); (1, QStep false)] with
  | Some s => qpcs s 1 = QRet EAGAIN /\ count s = 1
  | None => False
  end.
Proof. vm_compute. split; reflexivity. Qed.
Print Assumptions C34_wait_fails_because_of_a_post_refuted.

(* Two waiters asleep, a post: one of them acquires, the other sleeps again. *)
Example C34_case :
  match run sem_exec (sem_init 0)
    [(1, QCall KWait); (1, QStep false); (1, QStep false);
     (2, QCall KTimed); (2, QStep false); (2, QStep false); (3, QPost)] with
  | Some s => qpcs s 1 = QAsleep KWait /\ qpcs s 2 = QAsleep KTimed /\ qpcs s 3 = QWake /\ count s = 1
  | None => False
  end /\
  match run sem_exec (sem_init 0)
    [(1, QCall KWait); (1, QStep false); (1, QStep false);
     (2, QCall KTimed); (2, QStep false); (2, QStep false); (3, QPost); (3, QStep false);
     (1, QStep false); (1, QStep true); (2, QStep false); (2, QStep false); (1, QStep false);
     (1, QStep false)] with
  | Some s => qpcs s 1 = QAsleep KWait /\ qpcs s 2 = QRet 0 /\ taken s = 1
  | None => False
  end.
Proof. vm_compute. repeat split; reflexivity. Qed.
