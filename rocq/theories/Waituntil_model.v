(* Model of the futex waiting loop shared by Mutex and Once. *)
From Coq Require Import ZArith List Bool.
From Verif Require Import Conc.
Import ListNotations.
Open Scope Z_scope.

(* /repo/src/sync/mod.rs 37-41 (AttemptStatus). *)
Inductive status := Desired | Waiting | Other.

(* Where a thread inside wait_until_generic stands.
   WSpin k   : in the spinning loop, k rounds to go (0: the one last attempt).
   WLoop b   : in the long-wait loop with previous = Waiting (b = true) or Other.
   WFutex    : about to call futex_wait.
   WSleep    : asleep in the kernel.
   WRetry    : about to do previous = attempt(word).
   WDone     : returned. *)
Inductive wpc := WSpin (k : nat) | WLoop (waiting : bool) | WFutex | WSleep | WRetry | WDone.

(* /repo/src/sync/mod.rs 157 (0..999). *)
Definition SPINS : nat := 999.

(* compare_exchange(old, new) on a word; [spur] makes a weak one fail although
   the value matched.  Result: new word, success flag, value seen. *)
Definition cas (w old new : Z) (spur : bool) : Z * bool * Z :=
  if (w =? old) && negb spur then (new, true, w) else (w, false, w).

(* /repo/src/sync/mod.rs 151-187 wait_until_generic, one shared access per step.
   [attempt] and [mark_long] are the closures: from the word and the
   spurious-failure bit to the new word and the status.
   futex_wait (mod.rs 105-119) compares and goes to sleep in one kernel step, and
   returns at once (EAGAIN, Stale) if the word differs. *)
Definition wu_step (attempt mark_long : Z -> bool -> Z * status) (long : Z)
    (w : Z) (p : wpc) (spur : bool) : option (Z * wpc) :=
  let after (r : Z * status) :=
    (fst r, match snd r with Desired => WDone | Waiting => WLoop true | Other => WLoop false end) in
  match p with
  | WSpin (S k) =>
      let r := attempt w spur in
      Some (fst r, match snd r with Desired => WDone | _ => WSpin k end)
  | WSpin O => Some (after (attempt w spur))
  | WLoop true => Some (w, WFutex)
  | WLoop false =>
      let r := mark_long w spur in
      Some (fst r, match snd r with Desired => WRetry | _ => WFutex end)
  | WFutex => Some (w, if w =? long then WSleep else WRetry)
  | WRetry => Some (after (attempt w spur))
  | WSleep | WDone => None
  end.

(* A sleeping thread that is woken leaves futex_wait and retries. *)
Definition wu_wake (p : wpc) : wpc := match p with WSleep => WRetry | _ => p end.
