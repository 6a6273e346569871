(* What a user of waitpid relies on (POSIX.1-2024, waitpid and <sys/wait.h>). *)
From Verif Require Import Base Waitpid_model.

(* the children the first argument means; own is the caller's process group *)
Definition meant (own arg : Z) (c : child) : Prop :=
  arg = -1 \/ (arg = 0 /\ pgid c = own) \/ (arg < -1 /\ pgid c = - arg) \/ (0 < arg /\ pid c = arg).
(* the states the options ask for *)
Definition wanted (options : Z) (s : state) : Prop :=
  match s with
  | Exited _ | Killed _ _ => True
  | Stopped _ => Z.testbit options 1 = true
  | Continued => Z.testbit options 3 = true
  end.
Definition nohang (options : Z) : Prop := Z.testbit options 0 = true.
(* the last thing p did *)
Fixpoint latest (p : Z) (s : option state) (tr : list happening) : option state :=
  match tr with
  | Change q s' :: tr => latest p (if q =? p then match s with Some r => if ended r then s else Some s' | None => Some s' end else s) tr
  | _ :: tr => latest p s tr
  | [] => s
  end.
(* the flags of a call *)
Definition valid_options (options : Z) : Prop := exists a b c : bool, options = (if a then 1 else 0) + (if b then 2 else 0) + (if c then 8 else 0).
(* numbers of states *)
Definition state_ok (s : state) : Prop :=
  match s with
  | Exited c => 0 <= c < 256
  | Killed n _ => 1 <= n <= 126
  | Stopped n => 1 <= n <= 126
  | Continued => True
  end.
(* what the macros are to tell of a state *)
Definition told (s : state) : bool * bool * bool * bool * Z :=
  match s with
  | Exited c => (true, false, false, false, c)
  | Killed n _ => (false, true, false, false, n)
  | Stopped n => (false, false, true, false, n)
  | Continued => (false, false, false, true, 0)
  end.
Definition stop_of (x : happening) : Prop := exists p n, x = Change p (Stopped n).
Definition stop_pending (c : child) : Prop := exists n, report c = Some (Stopped n).
