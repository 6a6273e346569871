(* C38: thread-specific data.  Histories ([log], newest event first) are produced by
   any interleaving of any number of threads, each making any calls in normal code
   and inside destructors; [tls_exec s l = Some s'] with [log s' = e :: log s]
   is the call that event e reports. *)
From Coq Require Import ZArith List Bool.
From Verif Require Import Conc Tls_model Tls_spec Tls_proofs.
Import ListNotations.
Open Scope Z_scope.

Theorem C38_getspecific : forall s t k s' v, reachable tls_exec tls_init s ->
  tls_exec s (t, TGet k) = Some s' -> log s' = EvGet t k v :: log s ->
  v = last_value t k (log s).
Proof. exact tls_get. Qed.
Print Assumptions C38_getspecific.

Theorem C38_setspecific : forall s t k v s' r, reachable tls_exec tls_init s ->
  tls_exec s (t, TSet k v) = Some s' -> log s' = EvSet t k v r :: log s ->
  r = match live k (log s) with Some _ => 0 | None => EINVAL end.
Proof. exact tls_set. Qed.
Print Assumptions C38_setspecific.

Theorem C38_key_delete : forall s t k s' r, reachable tls_exec tls_init s ->
  tls_exec s (t, TDelete k) = Some s' -> log s' = EvDelete t k r :: log s ->
  r = match live k (log s) with Some _ => 0 | None => EINVAL end.
Proof. exact tls_delete. Qed.
Print Assumptions C38_key_delete.

(* A new key was never created before, and its value is NULL in all threads. *)
Theorem C38_key_create : forall s t d s' k, reachable tls_exec tls_init s ->
  tls_exec s (t, TCreate d) = Some s' -> log s' = EvCreate t k d :: log s ->
  creations (log s) < 2 ^ 64 - 1 ->
  created k (log s) = false /\ (forall u, last_value u k (log s') = 0) /\
  live k (log s') = Some d.
Proof. exact tls_create. Qed.
Print Assumptions C38_key_create.

(* Every destructor call: with the thread's non-NULL value, which is NULL from then
   on, in one of ITERATIONS rounds, not twice in a round for one key, and the
   destructor is that of the key (as of the beginning of the round). *)
Theorem C38_destructor_call : forall s l s' t i k d v, reachable tls_exec tls_init s ->
  tls_exec s l = Some s' -> log s' = EvCall t i k d v :: log s ->
  v <> 0 /\ v = last_value t k (log s) /\ last_value t k (log s') = 0 /\
  (i < ITERATIONS)%nat /\ called t i k (log s) = false /\
  live k (round_start t i (log s)) = Some (Some d).
Proof. exact tls_call. Qed.
Print Assumptions C38_destructor_call.

(* When it is over, all rounds have been run, or one of them called nothing and
   every key that had a destructor when it began has no value left. *)
Theorem C38_destructors_done : forall s l s' t, reachable tls_exec tls_init s ->
  tls_exec s l = Some s' -> log s' = EvDone t :: log s ->
  In (EvRound t (ITERATIONS - 1)) (log s) \/
  exists i, In (EvRound t i) (log s) /\
    (forall k d, live k (round_start t i (log s)) = Some (Some d) -> last_value t k (log s) = 0) /\
    (forall k, called t i k (log s) = false).
Proof. exact tls_done. Qed.
Print Assumptions C38_destructors_done.

(* Two keys; thread 2 sets both; destructor 70 of the first key sets the second
   again; thread 1 keeps its own values. *)
Example C38_case :
  match run tls_exec tls_init
    [(1, TCreate (Some 70)); (1, TCreate (Some 80)); (1, TSet 1 5); (2, TSet 1 6); (2, TSet 2 7);
     (2, TGet 1); (1, TGet 1); (1, TGet 2); (1, TSet 3 1); (2, TExit);
     (2, TStep); (2, TStep); (2, TSet 1 9); (2, TGet 1); (2, TReturn); (2, TStep); (2, TReturn); (2, TStep);
     (2, TStep); (2, TStep); (2, TReturn); (2, TStep); (2, TStep);
     (2, TStep); (2, TStep); (2, TStep); (2, TStep); (1, TGet 1)] with
  | Some s => rev (log s) =
     [EvCreate 1 1 (Some 70); EvCreate 1 2 (Some 80); EvSet 1 1 5 0; EvSet 2 1 6 0; EvSet 2 2 7 0;
      EvGet 2 1 6; EvGet 1 1 5; EvGet 1 2 0; EvSet 1 3 1 EINVAL;
      EvRound 2 0; EvCall 2 0 1 70 6; EvSet 2 1 9 0; EvGet 2 1 9; EvCall 2 0 2 80 7;
      EvRound 2 1; EvCall 2 1 1 70 9; EvRound 2 2; EvDone 2; EvGet 1 1 5]
  | None => False
  end.
Proof. vm_compute. reflexivity. Qed.
