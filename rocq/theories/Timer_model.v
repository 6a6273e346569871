(* POSIX timers: /repo/src/platform/redox/timer.rs 29-176 (the table of timers and the thread that
   serves one), /repo/src/platform/redox/mod.rs 1521-1649, /repo/src/header/unistd/alarm.rs 33-89,
   /repo/src/header/unistd/mod.rs 168-173.
   The kernel: each time written to a timer's descriptor makes one event in the timer's event queue,
   at that time or later, and stays until the thread takes the event.  The thread of a timer starts
   some time after it was created.  Opening descriptors, reading the clock, writing to the
   descriptor and creating the thread succeed; sigqueue may fail.  The thread holds the lock of the
   table from the event to the next wait, so that is one step, as is each call.  An entry holds what
   belongs to the timer: the fields of RlctTimer, the times written and not yet delivered, and the
   state of its thread; when the entry is removed the thread finds none and ends (timer.rs 108-110).
   Identifiers are not bounded. *)
From Verif Require Import Base Timespec_model.

Definition SIGEV_SIGNAL : Z := 0.
Definition SIGEV_NONE : Z := 1.
Definition SIGEV_THREAD : Z := 2.
Definition TIMER_ABSTIME : Z := 1.
Definition CLOCK_REALTIME : Z := 1.
Definition CLOCK_MONOTONIC : Z := 4.
Definition NSIG : Z := 32.
Definition SIGRTMIN : Z := 35.
Definition SIGALRM : Z := 14.
Definition EINVAL : Z := 22.
Definition ts_zero : timespec := {| tv_sec := 0; tv_nsec := 0 |}.

(* the thread: not there, created, or waiting with its timer_version *)
Inductive routine := Gone | Starting | Waiting (version : Z).

(* timer.rs 34-50.  [has_thread]: the field thread is not null. *)
Record timer := mk_timer {
  clock : Z; notify : Z; signo : Z; has_function : bool;
  value : timespec; interval : timespec; version : Z; has_thread : bool;
  pending : list timespec; thread : routine }.

(* [sent]: the notifications, with their timer and the reading of its clock *)
Record world := mk_world { timers : list (Z * timer); next_id : Z; clk : Z -> timespec; sent : list (Z * timespec) }.

Fixpoint find_timer (l : list (Z * timer)) (id : Z) : option timer :=
  match l with [] => None | (i, t) :: r => if i =? id then Some t else find_timer r id end.
Fixpoint set_timer (l : list (Z * timer)) (id : Z) (t : timer) : list (Z * timer) :=
  match l with [] => [] | (i, u) :: r => if i =? id then (i, t) :: r else (i, u) :: set_timer r id t end.
Definition remove_timer (l : list (Z * timer)) (id : Z) : list (Z * timer) := filter (fun e => negb (fst e =? id)) l.
Definition put (w : world) (id : Z) (t : timer) : world := mk_world (set_timer (timers w) id t) (next_id w) (clk w) (sent w).

(* mod.rs 1521-1551, timer.rs 57-76; SIGEV_THREAD with or without function *)
Definition timer_create (w : world) (clock_id notify signo : Z) (has_function : bool) : world * (Z + Z) :=
  if ((notify =? SIGEV_THREAD) && negb has_function) ||
     ((notify =? SIGEV_SIGNAL) && negb (((0 <=? signo) && (signo <? NSIG)) || (signo =? SIGRTMIN))) then (w, inr EINVAL)
  else if negb ((clock_id =? CLOCK_REALTIME) || (clock_id =? CLOCK_MONOTONIC)) then (w, inr EINVAL)
  else
    let t := mk_timer clock_id notify signo has_function ts_zero ts_zero 0 false [] Gone in
    (mk_world (timers w ++ [(next_id w, t)]) (next_id w + 1) (clk w) (sent w), inl (next_id w)).

(* mod.rs 1553-1564 *)
Definition timer_delete (w : world) (id : Z) : world * option Z :=
  match find_timer (timers w) id with
  | None => (w, Some EINVAL)
  | Some _ => (mk_world (remove_timer (timers w) id) (next_id w) (clk w) (sent w), None)
  end.

(* timer.rs 158-176; whether it is Ok *)
Definition update_wake_time (now : timespec) (t : timer) : timer * bool :=
  let v := if ts_is_zero (interval t) then ts_zero else match ts_add now (interval t) with Some v => v | None => ts_zero end in
  let t' := mk_timer (clock t) (notify t) (signo t) (has_function t) v (interval t) (version t) (has_thread t) (pending t) (thread t) in
  if ts_is_zero v then (t', false)
  else (mk_timer (clock t) (notify t) (signo t) (has_function t) v (interval t) (version t + 1) (has_thread t) (pending t) (thread t), true).

(* mod.rs 1566-1588; interval and value *)
Definition gettime (now : timespec) (t : timer) : timer * (timespec * timespec) :=
  let t := if (notify t =? SIGEV_NONE) && (match ts_subtract (value t) now with None => true | Some _ => false end)
           then fst (update_wake_time now t) else t in
  if ts_is_zero (value t) then (t, (ts_zero, ts_zero))
  else (t, (interval t, match ts_subtract (value t) now with Some r => r | None => ts_zero end)).
Definition timer_gettime (w : world) (id : Z) : world * ((timespec * timespec) + Z) :=
  match find_timer (timers w) id with
  | None => (w, inr EINVAL)
  | Some t => let (t, r) := gettime (clk w (clock t)) t in (put w id t, inl r)
  end.

(* mod.rs 1601-1648, for the interval iv and the value v; the timer and errno *)
Definition settime (now : timespec) (flags : Z) (iv v : timespec) (t : timer) : timer * option Z :=
  if ts_is_zero v then
    (mk_timer (clock t) (notify t) (signo t) (has_function t) (value t) (interval t) (version t + 1) (has_thread t) (pending t) (thread t), None)
  else
    match (if Z.land flags TIMER_ABSTIME =? 0 then ts_add now v else Some v) with
    | None => (t, Some EINVAL)
    | Some v =>
        let armed := mk_timer (clock t) (notify t) (signo t) (has_function t) v iv (version t) (has_thread t) (pending t ++ [v]) (thread t) in
        if has_thread t then (armed, None)
        else if (notify t =? SIGEV_THREAD) || (notify t =? SIGEV_SIGNAL) then
          (mk_timer (clock t) (notify t) (signo t) (has_function t) v iv (version t) true (pending t ++ [v]) Starting, None)
        else if notify t =? SIGEV_NONE then (armed, None)
        else (armed, Some EINVAL)
    end.
(* mod.rs 1591-1604; [old]: whether ovalue is given *)
Definition timer_settime (w : world) (id flags : Z) (iv v : timespec) (old : bool) : world * (option (timespec * timespec) * option Z) :=
  let (w, o) := if old then let (w, r) := timer_gettime w id in (w, match r with inl o => inl (Some o) | inr e => inr e end) else (w, inl None) in
  match o with
  | inr e => (w, (None, Some e))
  | inl o =>
      match find_timer (timers w) id with
      | None => (w, (o, Some EINVAL))
      | Some t => let (t, e) := settime (clk w (clock t)) flags iv v t in (put w id t, (o, e))
      end
  end.

(* timer.rs 79-85: the thread starts *)
Definition start (t : timer) : timer :=
  mk_timer (clock t) (notify t) (signo t) (has_function t) (value t) (interval t) (version t) (has_thread t) (pending t) (Waiting (version t)).
(* timer.rs 106-131 and 136-156: the thread, waiting with timer_version v, gets the event of one
   of the times (those that remain are [p]); the timer and whether it notifies.  [queued]: sigqueue succeeds *)
Definition expire (now : timespec) (v : Z) (p : list timespec) (queued : bool) (t : timer) : timer * bool :=
  let with_thread (t : timer) (h : bool) (p : list timespec) (r : routine) :=
    mk_timer (clock t) (notify t) (signo t) (has_function t) (value t) (interval t) (version t) h p r in
  let match_ := v =? version t in
  if match_ && (notify t =? SIGEV_SIGNAL) && negb queued then (with_thread t (has_thread t) p Gone, false)
  else
    let notified := match_ && ((notify t =? SIGEV_THREAD) && has_function t || (notify t =? SIGEV_SIGNAL)) in
    match update_wake_time now t with
    | (t, false) => (with_thread t false p Gone, notified)
    | (t, true) => (with_thread t (has_thread t) (p ++ [value t]) (Waiting (version t)), notified)
    end.

(* what may happen *)
Inductive action :=
| Tick (c : Z) (t : timespec)
| Create (clock_id notify signo : Z) (has_function : bool)
| Delete (id : Z)
| Gettime (id : Z)
| Settime (id flags : Z) (iv v : timespec) (old : bool)
| Start (id : Z)
| Expire (id : Z) (n : nat) (queued : bool).     (* the n-th of the times written *)

Definition before_eq (a b : timespec) : bool := tv_sec a * 1000000000 + tv_nsec a <=? tv_sec b * 1000000000 + tv_nsec b.
(* None: it cannot happen.  The clocks do not go back. *)
Definition act (w : world) (a : action) : option world :=
  match a with
  | Tick c t => if before_eq (clk w c) t then Some (mk_world (timers w) (next_id w) (fun d => if d =? c then t else clk w d) (sent w)) else None
  | Create c n s f => Some (fst (timer_create w c n s f))
  | Delete id => Some (fst (timer_delete w id))
  | Gettime id => Some (fst (timer_gettime w id))
  | Settime id flags iv v old => Some (fst (timer_settime w id flags iv v old))
  | Start id =>
      match find_timer (timers w) id with
      | Some t => match thread t with Starting => Some (put w id (start t)) | _ => None end
      | None => None
      end
  | Expire id n queued =>
      match find_timer (timers w) id with
      | Some t =>
          match thread t, nth_error (pending t) n with
          | Waiting v, Some d =>
              let now := clk w (clock t) in
              if before_eq d now then
                let (t', notified) := expire now v (firstn n (pending t) ++ skipn (S n) (pending t)) queued t in
                let w := put w id t' in
                Some (mk_world (timers w) (next_id w) (clk w) (if notified then sent w ++ [(id, now)] else sent w))
              else None
          | _, _ => None
          end
      | None => None
      end
  end.
Fixpoint acts (w : world) (l : list action) : option world :=
  match l with [] => Some w | a :: l => match act w a with Some w => acts w l | None => None end end.

(* alarm.rs 33-89: [alarm_id] is ALARM_TIMER.  The new world, ALARM_TIMER and the result. *)
Definition alarm_timespec (w : world) (alarm_id : option Z) (duration : timespec) : world * option Z * Z :=
  let (w, remaining) :=
    match alarm_id with
    | Some id =>
        match timer_gettime w id with
        | (w, inl (_, v)) =>
            let secs := tv_sec v mod 2 ^ 32 in
            (w, if 0 <? tv_nsec v then (secs + 1) mod 2 ^ 32 else secs)
        | (w, inr _) => (w, 0)
        end
    | None => (w, 0)
    end in
  if (tv_sec duration =? 0) && (tv_nsec duration =? 0) then
    match alarm_id with
    | Some id => (fst (timer_settime w id 0 ts_zero ts_zero false), alarm_id, remaining)
    | None => (w, alarm_id, remaining)
    end
  else
    match alarm_id with
    | Some id => (fst (timer_settime w id 0 ts_zero duration false), alarm_id, remaining)
    | None =>
        match timer_create w CLOCK_REALTIME SIGEV_SIGNAL SIGALRM false with
        | (w, inl id) => (fst (timer_settime w id 0 ts_zero duration false), Some id, remaining)
        | (w, inr _) => (w, alarm_id, remaining)
        end
    end.
(* unistd/mod.rs 168-173 *)
Definition alarm (w : world) (alarm_id : option Z) (seconds : Z) : world * option Z * Z :=
  alarm_timespec w alarm_id {| tv_sec := seconds; tv_nsec := 0 |}.
