(* Waiting for signals: /repo/redox-rt/src/signal.rs 840-947 (await_signal_sync, try_claim_multiple, try_claim_single), /repo/src/platform/redox/signal.rs
   256-271, /repo/src/header/signal/mod.rs 761-808.  Sets of signals are Boolean functions of the index (the number minus 1, 0 to 63).  The mask is left
   out (C57): pending bits are not changed by set_allowset_raw.  The state can change between any two accesses to it, by what env says.  The kernel's
   Sigdeq takes the oldest of a queue and clears the bit when it was the last; its nanosleep is interrupted once a signal allowed is pending. *)
From Verif Require Import Base.
Open Scope Z_scope.

Record info := Info { signo : Z; code : Z; pid : Z; uid : Z; value : Z }.
(* bits and senders (pid, uid) of the thread and the process, and the process's queues (code, pid, uid, arg) of real-time signals *)
Record state := State {
  thread : Z -> bool; thread_sender : Z -> Z * Z;
  process : Z -> bool; process_sender : Z -> Z * Z; queue : Z -> list (Z * Z * Z * Z)
}.
Definition clear (f : Z -> bool) (i : Z) : Z -> bool := fun j => if j =? i then false else f j.
Definition set_queue (f : Z -> list (Z * Z * Z * Z)) (i : Z) q : Z -> list (Z * Z * Z * Z) := fun j => if j =? i then q else f j.
Definition env := nat -> state -> state.

Definition indices : list Z := map Z.of_nat (seq 0 64).
(* trailing_zeros *)
Definition lowest (s : Z -> bool) : option Z := List.find s indices.

(* 904-963: thread_control is given or not; sender_infos has 32 entries.  The number of accesses made so far is counted *)
Definition try_claim_single (e : env) (n : nat) (s : state) (i : Z) (of_thread : bool) : nat * state * option info :=
  if (i / 32 =? 1) && negb of_thread then
    let s := e n s in
    match queue s i with
    | [] => (S n, s, None)
    | (c, p, u, a) :: q =>
        (S n, State (thread s) (thread_sender s) (match q with [] => clear (process s) i | _ => process s end) (process_sender s) (set_queue (queue s) i q), Some (Info (i + 1) c p u a))
    end
  else if of_thread then
    let s := e n s in
    let '(p, u) := if i <? 32 then thread_sender s i else (0, 0) in
    let s := e (S n) s in
    (S (S n), State (clear (thread s) i) (thread_sender s) (process s) (process_sender s) (queue s), Some (Info (i + 1) 0 p u 0))
  else
    let s := e n s in
    let '(p, u) := process_sender s i in
    let s := e (S n) s in
    if process s i
    then (S (S n), State (thread s) (thread_sender s) (clear (process s) i) (process_sender s) (queue s), Some (Info (i + 1) 0 p u 0))
    else (S (S n), s, None).
(* 881-903 *)
Fixpoint try_claim_multiple (fuel : nat) (e : env) (n : nat) (s : state) (pp tp allow : Z -> bool) : nat * state * option info :=
  match fuel with
  | O => (n, s, None)
  | S fuel =>
      match lowest (fun i => (pp i || tp i) && allow i) with
      | None => (n, s, None)
      | Some i =>
          let '(n, s, r) := if tp i && allow i then try_claim_single e n s i true else (n, s, None) in
          match r with
          | Some x => (n, s, Some x)
          | None =>
              let tp := clear tp i in
              let '(n, s, r) := if pp i && allow i then try_claim_single e n s i false else (n, s, None) in
              match r with
              | Some x => (n, s, Some x)
              | None => try_claim_multiple fuel e n s (clear pp i) tp allow
              end
          end
      end
  end.

Inductive slept := Timeout | Interrupted | Refused (err : Z).
Definition EINTR : Z := 4.
Definition EAGAIN : Z := 11.
(* 840-879; nap is the kernel's nanosleep with the signals of the argument allowed *)
Definition await_signal_sync (e : env) (nap : (Z -> bool) -> state -> state * slept) (n : nat) (s : state) (allow : Z -> bool) : nat * state * (info + Z) :=
  let s := e n s in let pp := process s in
  let s := e (S n) s in let tp := thread s in
  match try_claim_multiple 65 e (S (S n)) s pp tp allow with
  | (n, s, Some x) => (n, s, inl x)
  | (n, s, None) =>
      let (s, r) := nap allow s in
      let s := e n s in let tp := thread s in
      let s := e (S n) s in let pp := process s in
      match r with
      | Refused err => (S (S n), s, inr err)
      | _ =>
          match try_claim_multiple 65 e (S (S n)) s pp tp allow with
          | (n, s, Some x) => (n, s, inl x)
          | (n, s, None) => (n, s, inr EAGAIN)
          end
      end
  end.
(* the result, errno and what is stored at the pointer *)
Definition sigtimedwait (e : env) nap n s set : state * Z * option Z * option info :=
  match await_signal_sync e nap n s set with
  | (_, s, inl x) => (s, signo x, None, Some x)
  | (_, s, inr err) => (s, -1, Some err, None)
  end.
Definition sigwait (e : env) nap n s set : state * Z * option Z :=
  match sigtimedwait e nap n s set with
  | (s, r, _, x) => if r <? 0 then (s, -1, None) else (s, 0, match x with Some x => Some (signo x) | None => None end)
  end.
(* nanosleep while these things happen, one after the other: till one of the signals allowed is pending or the time is over *)
Fixpoint sleep (happens : list (state -> state)) (allow : Z -> bool) (s : state) : state * slept :=
  match lowest (fun i => (thread s i || process s i) && allow i), happens with
  | Some _, _ => (s, Interrupted)
  | None, h :: hs => sleep hs allow (h s)
  | None, [] => (s, Timeout)
  end.
