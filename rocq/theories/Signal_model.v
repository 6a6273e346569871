(* Model of the signal masks of redox-rt/src/signal.rs, src/platform/redox/signal.rs and
   src/header/signal/mod.rs (Redox).
   The two words of a thread's Sigcontrol hold, each for 32 signals, the pending bits in
   the low half and the allowed (unblocked) bits in the high half.  Other threads and the
   process manager only set pending bits.  Each atomic access is preceded by an arbitrary
   set of such arrivals (e : Z * Z, one set of low bits per word); since arrivals commute
   this covers every interleaving.  Not modelled: the guard that keeps handlers from running
   meanwhile (tmp_disable_signals), the trampoline, and the process-wide pending set, whose
   value is a parameter. *)
From Verif Require Import Base.

Definition LOW : Z := 2 ^ 32 - 1.
Definition M64 : Z := 2 ^ 64.
Definition not64 (x : Z) : Z := Z.lxor x (2 ^ 64 - 1).

Record words := W { w0 : Z; w1 : Z }.
(* pending bits set by others before an access *)
Definition arrive (e : Z * Z) (s : words) : words :=
  W (Z.lor (w0 s) (Z.land (fst e) LOW)) (Z.lor (w1 s) (Z.land (snd e) LOW)).

(* redox-rt/src/signal.rs:624-628 *)
Definition sig_bit (sig : Z) : Z := Z.shiftl 1 (sig - 1).
(* signal.rs:335; SIGSTOP = 19, SIGKILL = 9 *)
Definition ALLOWSET_ALWAYS : Z := Z.lor (sig_bit 19) (sig_bit 9).

(* signal.rs:313-315; two loads *)
Definition get_allowset_raw (e0 e1 : Z * Z) (s : words) : Z * words :=
  let s := arrive e0 s in
  let a := Z.shiftr (w0 s) 32 in
  let s := arrive e1 s in
  let b := Z.shiftl (Z.shiftr (w1 s) 32) 32 in
  (Z.lor a b, s).
(* u64 wrapping_sub and fetch_add *)
Definition sub64 (a b : Z) : Z := (a - b) mod M64.
Definition add64 (a b : Z) : Z := (a + b) mod M64.
(* signal.rs:317-334; two fetch_adds; the pending set before them *)
Definition set_allowset_raw (e0 e1 : Z * Z) (s : words) (old new_raw : Z) : Z * words :=
  let new := Z.lor new_raw ALLOWSET_ALWAYS in
  let s := arrive e0 s in
  let prev_w0 := Z.land (w0 s) LOW in
  let s := W (add64 (w0 s) (sub64 (Z.shiftl (Z.land new LOW) 32) (Z.shiftl (Z.land old LOW) 32))) (w1 s) in
  let s := arrive e1 s in
  let prev_w1 := Z.land (w1 s) LOW in
  let s := W (w0 s) (add64 (w1 s) (sub64 (Z.shiftl (Z.shiftr new 32) 32) (Z.shiftl (Z.shiftr old 32) 32))) in
  (Z.lor prev_w0 (Z.shiftl prev_w1 32), s).

(* signal.rs:336-362: the old mask, the words, and whether the trampoline is entered;
   pp: the process-wide pending set *)
Definition modify_sigmask (env : nat -> Z * Z) (pp : Z) (op : option (Z -> Z)) (s : words) : Z * words * bool :=
  let '(prev, s) := get_allowset_raw (env 0%nat) (env 1%nat) s in
  let old := not64 prev in
  match op with
  | None => (old, s, false)
  | Some op =>
      let next := not64 (op (not64 prev)) in
      let '(tp, s) := set_allowset_raw (env 2%nat) (env 3%nat) s prev next in
      (old, s, negb (Z.land (Z.lor tp pp) next =? 0))
  end.
(* signal.rs:292-312 *)
Definition get_sigmask env pp s := modify_sigmask env pp None s.
Definition set_sigmask env pp (new : Z) s := modify_sigmask env pp (Some (fun _ => new)) s.
Definition or_sigmask env pp (new : Z) s := modify_sigmask env pp (Some (fun old => Z.lor old new)) s.
Definition andn_sigmask env pp (new : Z) s := modify_sigmask env pp (Some (fun old => Z.land old (not64 new))) s.

Definition SIG_BLOCK : Z := 0.
Definition SIG_UNBLOCK : Z := 1.
Definition SIG_SETMASK : Z := 2.
(* platform/redox/signal.rs:229-247; None: EINVAL.  The old mask is computed whether or
   not the caller asked for it. *)
Definition sys_sigprocmask (env : nat -> Z * Z) (pp how : Z) (set : option Z) (s : words) : option (Z * words * bool) :=
  match set with
  | None => Some (get_sigmask env pp s)
  | Some set =>
      if how =? SIG_SETMASK then Some (set_sigmask env pp set s)
      else if how =? SIG_BLOCK then Some (or_sigmask env pp set s)
      else if how =? SIG_UNBLOCK then Some (andn_sigmask env pp set s)
      else None
  end.
(* header/signal/mod.rs:604, SIGRTMIN = 35 *)
Definition RLCT_SIGNAL_MASK : Z := Z.lor (Z.shiftl 1 33) (Z.shiftl 1 32).
(* header/signal/mod.rs:615-637 *)
Definition sigprocmask (env : nat -> Z * Z) (pp how : Z) (set : option Z) (s : words) : option (Z * words * bool) :=
  let set := match set with None => None | Some b => Some (Z.land b (not64 RLCT_SIGNAL_MASK)) end in
  match sys_sigprocmask env pp how set s with
  | None => None
  | Some (old, s, t) => Some (Z.land old (not64 RLCT_SIGNAL_MASK), s, t)
  end.

(* signal.rs:764-776 *)
Definition currently_pending_blocked (env : nat -> Z * Z) (pp : Z) (s : words) : Z * words :=
  let s := arrive (env 0%nat) s in
  let a := w0 s in
  let s := arrive (env 1%nat) s in
  let b := w1 s in
  let allow := Z.lor (Z.shiftr a 32) (Z.shiftl (Z.shiftr b 32) 32) in
  let thread_pending := Z.lor (Z.land a LOW) (Z.shiftl (Z.land b LOW) 32) in
  (Z.land (Z.lor thread_pending pp) (not64 allow), s).

(* signal.rs:778-803 (sigsuspend, platform/redox/signal.rs:249-254).  [sleep] is what
   nanosleep and the trampoline do to the words. *)
Definition await_signal_async (env : nat -> Z * Z) (sleep : words -> words) (inner : Z) (s : words) : words :=
  let '(old, s) := get_allowset_raw (env 0%nat) (env 1%nat) s in
  let '(_, s) := set_allowset_raw (env 2%nat) (env 3%nat) s old inner in
  let s := sleep s in
  snd (set_allowset_raw (env 4%nat) (env 5%nat) s inner old).
Definition sigsuspend (env : nat -> Z * Z) (sleep : words -> words) (mask : Z) (s : words) : words :=
  await_signal_async env sleep (not64 mask) s.
(* signal.rs:806-833, called by epoll_pwait (platform/redox/epoll.rs:117-124), through which
   ppoll and pselect wait.  [callback] is the wait and the trampoline. *)
Definition callback_or_signal_async (env : nat -> Z * Z) (callback : words -> words) (inner : Z) (s : words) : words :=
  let '(old, s) := get_allowset_raw (env 0%nat) (env 1%nat) s in
  let '(_, s) := set_allowset_raw (env 2%nat) (env 3%nat) s old inner in
  let s := callback s in
  snd (set_allowset_raw (env 4%nat) (env 5%nat) s inner old).
Definition epoll_pwait_mask (env : nat -> Z * Z) (callback : words -> words) (sigset : option Z) (s : words) : words :=
  match sigset with None => callback s | Some m => callback_or_signal_async env callback (not64 m) s end.
(* signal.rs:840-879 (sigtimedwait, platform/redox/signal.rs:256-271): the words when it
   returns.  [claimed] (before sleeping) and [sleep] stand for try_claim_multiple, which
   clears pending bits, and nanosleep; [now] tells whether a signal was claimed at once. *)
Definition await_signal_sync (env : nat -> Z * Z) (now : bool) (claim sleep : words -> words) (inner : Z) (s : words) : words :=
  let '(old, s) := get_allowset_raw (env 0%nat) (env 1%nat) s in
  let '(_, s) := set_allowset_raw (env 2%nat) (env 3%nat) s old inner in
  if now then snd (set_allowset_raw (env 4%nat) (env 5%nat) (claim s) inner old)
  else claim (snd (set_allowset_raw (env 4%nat) (env 5%nat) (sleep s) inner old)).
Definition sigtimedwait (env : nat -> Z * Z) (now : bool) (claim sleep : words -> words) (set : Z) (s : words) : words :=
  await_signal_sync env now claim sleep set s.

(* signal.rs:184-194, 197, 231-240: the mask changes around a handler.  Result: the words the
   handler starts with, the value in uc_sigmask, and the words afterwards.  [run] is what
   the handler does to the words and to uc_sigmask. *)
Definition deliver (env : nat -> Z * Z) (sig sa_mask : Z) (nodefer : bool) (run : words -> Z -> words * Z) (s : words) : words * Z * words :=
  let '(prev, s) := get_allowset_raw (env 0%nat) (env 1%nat) s in
  let inside := Z.land (not64 sa_mask) prev in
  let inside := if nodefer then inside else Z.land inside (not64 (sig_bit sig)) in
  let '(_, s1) := set_allowset_raw (env 2%nat) (env 3%nat) s prev inside in
  let '(s2, new_mask) := run s1 prev in
  let '(old, s2) := get_allowset_raw (env 4%nat) (env 5%nat) s2 in
  (s1, prev, snd (set_allowset_raw (env 6%nat) (env 7%nat) s2 old new_mask)).

(* Signal sets: header/signal/mod.rs:320-410, 511-525.  NSIG.max(SIGRTMAX) = 64; BitSet is
   the external crate cbitset: insert, remove and contains on the bits of one u64.  Result:
   the set and the value returned; -1 goes with errno = EINVAL. *)
Definition sigemptyset (set : Z) : Z * Z := (0, 0).
Definition sigfillset (set : Z) : Z * Z := (2 ^ 64 - 1, 0).
Definition bad_signo (signo : Z) : bool := (signo <=? 0) || (64 <? signo).
Definition sigaddset (set signo : Z) : Z * Z :=
  if bad_signo signo then (set, -1) else (Z.lor set (Z.shiftl 1 (signo - 1)), 0).
Definition sigdelset (set signo : Z) : Z * Z :=
  if bad_signo signo then (set, -1) else (Z.land set (not64 (Z.shiftl 1 (signo - 1))), 0).
Definition sigismember (set signo : Z) : Z :=
  if bad_signo signo then -1 else if Z.testbit set (signo - 1) then 1 else 0.
