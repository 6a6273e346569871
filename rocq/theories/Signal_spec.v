(* Specification for C51 and C57-C59: signal masks as sets of signal numbers 1..64. *)
From Verif Require Import Base Signal_model.

Definition signal (n : Z) : Prop := 1 <= n <= 64.
(* A sigset_t: bit n-1 is signal n. *)
Definition sigset (v : Z) : Prop := 0 <= v < 2 ^ 64.
Definition member (v n : Z) : bool := Z.testbit v (n - 1).

(* The state of a thread: signals 1..32 in the first word, 33..64 in the second; pending
   in the low half, unblocked in the high half. *)
Definition good (s : words) : Prop := 0 <= w0 s < 2 ^ 64 /\ 0 <= w1 s < 2 ^ 64.
Definition pending (s : words) (n : Z) : bool := if n <=? 32 then Z.testbit (w0 s) (n - 1) else Z.testbit (w1 s) (n - 33).
Definition blocked (s : words) (n : Z) : bool := negb (if n <=? 32 then Z.testbit (w0 s) (n + 31) else Z.testbit (w1 s) (n - 1)).
(* Signal n is among the arrivals. *)
Definition arrives (e : Z * Z) (n : Z) : bool := if n <=? 32 then Z.testbit (fst e) (n - 1) else Z.testbit (snd e) (n - 33).
Fixpoint arrives_in (env : nat -> Z * Z) (from k : nat) (n : Z) : bool :=
  match k with O => false | S k => arrives (env from) n || arrives_in env (S from) k n end.

Definition unblockable (n : Z) : bool := (n =? 9) || (n =? 19).     (* SIGKILL, SIGSTOP *)
Definition reserved (n : Z) : bool := (n =? 33) || (n =? 34).       (* SIGRTMIN - 2, SIGRTMIN - 1 *)

(* The signals blocked after sigprocmask(how, set). *)
Definition new_mask (how : Z) (set old : Z -> bool) (n : Z) : bool :=
  if unblockable n then false
  else if how =? SIG_BLOCK then old n || (set n && negb (reserved n))
  else if how =? SIG_UNBLOCK then old n && negb (set n && negb (reserved n))
  else set n && negb (reserved n).

(* What happens meanwhile (sleeping, handlers running, a signal being accepted) leaves the
   mask as it was. *)
Definition keeps_mask (f : words -> words) : Prop :=
  forall s, good s -> good (f s) /\ forall n, signal n -> blocked (f s) n = blocked s n.
