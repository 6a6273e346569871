(* What C167 says of the signal handled, over the bits of the words. *)
From Verif Require Import Base Sigpick_model.
Definition bits64 (a : Z) : Prop := 0 <= a < 2 ^ 64.
Definition sane (s : words) : Prop := bits64 (std s) /\ bits64 (rt s) /\ bits64 (proc s).
(* signal k, counted from 0 *)
Definition thread_pending (s : words) (k : Z) : Prop := if k <? 32 then Z.testbit (std s) k = true else Z.testbit (rt s) (k - 32) = true.
Definition allowed (s : words) (k : Z) : Prop := if k <? 32 then Z.testbit (std s) (32 + k) = true else Z.testbit (rt s) k = true.
Definition process_pending (s : words) (k : Z) : Prop := Z.testbit (proc s) k = true.
(* the thread's or the process' bit of the signal is cleared, all others stay *)
Definition same_allowed (s t : words) : Prop := forall j, 0 <= j < 64 -> (allowed t j <-> allowed s j).
Definition from_process (s t : words) (k : Z) : Prop :=
  process_pending s k /\ (forall j, 0 <= j < 64 -> (process_pending t j <-> (process_pending s j /\ j <> k))) /\ (forall j, 0 <= j < 64 -> (thread_pending t j <-> thread_pending s j)).
Definition from_thread (s t : words) (k : Z) : Prop :=
  thread_pending s k /\ (forall j, 0 <= j < 64 -> (thread_pending t j <-> (thread_pending s j /\ j <> k))) /\ (forall j, 0 <= j < 64 -> (process_pending t j <-> process_pending s j)) /\
  inf t = senders s k.
Definition handled_right (s t : words) (k : Z) : Prop := 0 <= k < 64 /\ allowed s k /\ same_allowed s t /\ (from_process s t k \/ from_thread s t k).
(* a standard signal that is pending for the thread, and allowed *)
Definition thread_waiting (s : words) : Prop := exists k, 0 <= k < 32 /\ thread_pending s k /\ allowed s k.
Definition process_waiting (s : words) : Prop := exists k, 0 <= k < 32 /\ process_pending s k /\ allowed s k.
