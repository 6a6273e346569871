(* What C78-C80 ask for: POSIX's "Seconds Since the Epoch", the calendar, and the text of asctime. *)
From Coq Require Import String.
From Verif Require Import Base Ctype_spec Numeral Time_model Time_spec Cal_model.
Open Scope string_scope.
Open Scope list_scope.
Open Scope Z_scope.

(** days of month mon (0-11) of year y *)
Definition days_in (y mon : Z) : Z :=
  if mon =? 1 then (if leap y then 29 else 28)
  else if existsb (Z.eqb mon) [3; 5; 8; 10] then 30 else 31.
Fixpoint days_before (y : Z) (mon : nat) : Z :=
  match mon with O => 0 | S k => days_before y k + days_in y (Z.of_nat k) end.
(** the day of the year, from 0 *)
Definition day_of_year (t : tm) : Z := days_before (year t) (Z.to_nat (tm_mon t)) + tm_mday t - 1.
(** POSIX, Base Definitions 4.19 (with floor division, so that it extends to years before 1970):
    the seconds since the Epoch of broken-down UTC time *)
Definition since_epoch (t : tm) : Z :=
  let y := tm_year t in
  tm_sec t + tm_min t * 60 + tm_hour t * 3600 + day_of_year t * 86400 +
  (y - 70) * 31536000 + ((y - 69) / 4) * 86400 - ((y - 1) / 100) * 86400 + ((y + 299) / 400) * 86400.
(** 1 January 1970 was a Thursday *)
Definition day_of_week (t : tm) : Z := (since_epoch t / 86400 + 4) mod 7.

(** a date and time of the calendar, of a year the library handles *)
Definition date_ok (t : tm) : Prop :=
  -262143 <= year t <= 262142 /\ 0 <= tm_mon t <= 11 /\ 1 <= tm_mday t <= days_in (year t) (tm_mon t) /\
  0 <= tm_hour t <= 23 /\ 0 <= tm_min t <= 59 /\ 0 <= tm_sec t <= 59.
Definition same_time (a b : tm) : Prop :=
  tm_sec a = tm_sec b /\ tm_min a = tm_min b /\ tm_hour a = tm_hour b /\ tm_mday a = tm_mday b /\
  tm_mon a = tm_mon b /\ tm_year a = tm_year b.
(** the broken-down time t is right in itself *)
Definition consistent (t : tm) : Prop := tm_yday t = day_of_year t /\ tm_wday t = day_of_week t.
(** the instants all years of which are handled *)
Definition instant_ok (u : Z) : Prop := exists t, date_ok t /\ since_epoch t = u.

(** What is assumed of a time zone: the database lists exactly the instants of a local time, the earlier first. *)
Definition local_time (z : zone) (u : Z) : Z := u + z_off z u.
Definition zone_ok (z : zone) : Prop := forall l,
  match z_local z l with
  | LNone => forall u, local_time z u <> l
  | LOne u => forall v, local_time z v = l <-> v = u
  | LTwo a b => a < b /\ forall v, local_time z v = l <-> v = a \/ v = b
  end.
(** daylight saving time comes first where the clock is put back, and is reported as such *)
Definition dst_first (z : zone) : Prop := forall l a b, z_local z l = LTwo a b -> 0 < z_dst z a /\ z_dst z b = 0.

(** asctime: "%.3s %.3s%3d %.2d:%.2d:%.2d %d\n" *)
Definition asc_ok (t : tm) : Prop :=
  0 <= tm_sec t <= 60 /\ 0 <= tm_min t <= 59 /\ 0 <= tm_hour t <= 23 /\ 1 <= tm_mday t <= 31 /\ 0 <= tm_mon t <= 11 /\
  0 <= tm_wday t <= 6 /\ -999 <= year t <= 9999.
Definition asc_text (t : tm) (y : list Z) : list Z :=
  abbrev (weekday t) ++ [32] ++ abbrev (month t) ++ [32] ++ space_padded (tm_mday t) ++ [32] ++ hms t ++ [32] ++ y ++ [10].
