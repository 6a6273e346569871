(* What C168 says of the signal handled, over the bits of the words; signals are counted from 0. *)
From Verif Require Import Base Sigbit_model.
Definition for_thread (s : words) (k : Z) : bool := if k <? 32 then Z.testbit (std s) k else Z.testbit (rt s) (k - 32).
Definition allowed (s : words) (k : Z) : bool := if k <? 32 then Z.testbit (std s) (32 + k) else Z.testbit (rt s) k.
Definition for_process (s : words) (k : Z) : bool := Z.testbit (proc s) k.
Definition waiting (s : words) (k : Z) : Prop := 0 <= k < 64 /\ allowed s k = true /\ (for_thread s k = true \/ for_process s k = true).
(* handled before: a standard signal of the thread, of the process, a realtime signal; among these the lowest *)
Definition rank (s : words) (k : Z) : Z := if k <? 32 then if for_thread s k then k else 32 + k else 64 + k.
Definition first (s : words) (k : Z) : Prop := waiting s k /\ forall j, waiting s j -> rank s k <= rank s j.
Definition without (p q : Z -> bool) (k : Z) : Prop := forall j, 0 <= j < 64 -> q j = (p j && negb (j =? k))%bool.
Definition as_before (p q : Z -> bool) : Prop := forall j, 0 <= j < 64 -> q j = p j.
Definition right_choice (s : words) (p : pick) : Prop :=
  match p with
  | Thread k t => first s k /\ without (for_thread s) (for_thread t) k /\ as_before (for_process s) (for_process t) /\ as_before (allowed s) (allowed t) /\ inf t = by_thread s k
  | Process k t => first s k /\ as_before (for_thread s) (for_thread t) /\ without (for_process s) (for_process t) k /\ as_before (allowed s) (allowed t) /\ inf t = by_process s k
  | Dequeue k => first s k /\ 32 <= k /\ for_process s k = true
  | Spurious => forall k, ~ waiting s k
  end.
