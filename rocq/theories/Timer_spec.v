(* When timers notify. *)
From Coq Require Import ZArith List.
From Verif Require Import Timespec_model Timer_model.
Import ListNotations.
Open Scope Z_scope.

Definition nanos (t : timespec) : Z := tv_sec t * 1000000000 + tv_nsec t.
(* a time of day: up to 2^62 seconds *)
Definition sane (t : timespec) : Prop := 0 <= tv_sec t < 2 ^ 62 /\ 0 <= tv_nsec t < 1000000000.
(* the notifications of a timer, in nanoseconds *)
Definition times (id : Z) (l : list (Z * timespec)) : list Z := map (fun e => nanos (snd e)) (filter (fun e => fst e =? id) l).

(* A timer armed for the time d with interval i has notified at ts: not before it was due, and due
   again one interval later, if there is one. *)
Fixpoint on_time (d i : Z) (ts : list Z) : Prop :=
  match ts with
  | [] => True
  | t :: r => d <= t /\ (if i =? 0 then r = [] else on_time (t + i) i r)
  end.
(* when it is due next *)
Fixpoint due (d i : Z) (ts : list Z) : option Z :=
  match ts with
  | [] => Some d
  | t :: r => if i =? 0 then None else due (t + i) i r
  end.

(* What others may do while a timer runs: anything but setting or deleting it, with the clocks
   in range; signals can be queued. *)
Definition hands_off (id : Z) (a : action) : Prop :=
  match a with
  | Tick _ t => sane t
  | Delete i | Settime i _ _ _ _ => i <> id
  | Expire i _ queued => i = id -> queued = true
  | _ => True
  end.
(* the world at start *)
Definition boot (c : Z -> timespec) : world := mk_world [] 1 c [].
Definition clocks_sane (w : world) : Prop := forall c, sane (clk w c).
(* never armed, or run out *)
Definition idle (t : timer) : Prop := pending t = [] /\ thread t = Gone /\ has_thread t = false /\ value t = ts_zero.
(* notifies by a signal or a function *)
Definition notifies (t : timer) : Prop := notify t = 0 \/ notify t = 2 /\ has_function t = true.
(* whole seconds, rounded up *)
Definition seconds_up (n : Z) : Z := (n + 999999999) / 1000000000.
(* the timer of alarm, if there is one, rests *)
Definition ready (w : world) (alarm_id : option Z) : Prop :=
  match alarm_id with
  | None => True
  | Some id => exists t, find_timer (timers w) id = Some t /\ idle t /\ clock t = 1 /\ notify t = 0 /\ signo t = 14
  end.
