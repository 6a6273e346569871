(* Model of gmtime, localtime, timegm, timelocal and mktime (src/header/time/mod.rs).
   The calendar and the time-zone database are the crates chrono 0.4.45 and chrono-tz, which are not part of
   the repository; the definitions of the first two sections say what is assumed of them. *)
From Coq Require Import String.
From Verif Require Import Base Ctype_spec Numeral Utf8_model Time_model.
Open Scope string_scope.
Open Scope list_scope.
Open Scope Z_scope.

(** * chrono: the proleptic Gregorian calendar, years -262143 to 262142 *)
Definition leap_year (y : Z) : bool := (y mod 4 =? 0) && (negb (y mod 100 =? 0) || (y mod 400 =? 0)).
Definition month_lens (y : Z) : list Z := [31; if leap_year y then 29 else 28; 31; 30; 31; 30; 31; 31; 30; 31; 30; 31].
Definition MINY : Z := -262143.
Definition MAXY : Z := 262142.
(** days from 0001-01-01 to the first day of year y *)
Definition year_start (y : Z) : Z := 365 * (y - 1) + (y - 1) / 4 - (y - 1) / 100 + (y - 1) / 400.
(** the same for 1970-01-01 *)
Definition EPOCH : Z := 719162.
Fixpoint sum (l : list Z) : Z := match l with [] => 0 | x :: t => x + sum t end.
(** NaiveDate::from_ymd_opt(y, m, d) and and_hms_opt(h, i, s): seconds since 1970-01-01 00:00:00, month and day from 1.
    and_hms_opt admits seconds up to 59. *)
Definition naive (y m d h i s : Z) : option Z :=
  if (MINY <=? y) && (y <=? MAXY) && (1 <=? m) && (m <=? 12) && (1 <=? d) && (d <=? nth (Z.to_nat (m - 1)) (month_lens y) 0) &&
     (0 <=? h) && (h <=? 23) && (0 <=? i) && (i <=? 59) && (0 <=? s) && (s <=? 59)
  then Some ((year_start y - EPOCH + sum (firstn (Z.to_nat (m - 1)) (month_lens y)) + d - 1) * 86400 + h * 3600 + i * 60 + s)
  else None.
(** The year of day n from 0001-01-01: an estimate, off by at most one *)
Definition year_of (n : Z) : Z :=
  let y := n * 400 / 146097 + 1 in
  if n <? year_start y then y - 1 else if year_start (y + 1) <=? n then y + 1 else y.
Fixpoint month_of (lens : list Z) (m d : Z) : Z * Z :=
  match lens with
  | [] => (m, d)
  | l :: t => if d <? l then (m, d) else month_of t (m + 1) (d - l)
  end.
Record civil := Civil { c_year : Z; c_month0 : Z; c_day : Z; c_ordinal0 : Z; c_wday : Z; c_hour : Z; c_min : Z; c_sec : Z }.
Definition civil_of (u : Z) : civil :=
  let n := u / 86400 + EPOCH in
  let y := year_of n in
  let o := n - year_start y in
  let '(m, d) := month_of (month_lens y) 0 o in
  Civil y m (d + 1) o ((n + 1) mod 7) (u mod 86400 / 3600) (u mod 3600 / 60) (u mod 60).
(** timestamp_opt(u, 0) is Single for the instants of these years, else None *)
Definition in_range (u : Z) : bool := ((year_start MINY - EPOCH) * 86400 <=? u) && (u <? (year_start (MAXY + 1) - EPOCH) * 86400).

(** * chrono-tz: a time zone.  Offset from UTC (seconds) and daylight saving in whole hours at an instant;
    the instants of a local time; the name of the zone *)
Inductive lres := LNone | LOne (u : Z) | LTwo (early late : Z).
Record zone := Zone { z_off : Z -> Z; z_dst : Z -> Z; z_local : Z -> lres; z_name : list Z }.
Definition utc : zone := Zone (fun _ => 0) (fun _ => 0) LOne (codes "UTC").

(** * time/mod.rs *)

(** 801-803 time_zone().unwrap_or(Tz::UTC); [find]: Tz::from_str; [tz]: get_current_time_zone, 781-798 *)
Definition time_zone (find : list Z -> option zone) (tz : list Z) : zone :=
  match find tz with Some z => z | None => utc end.
(** strip_prefix("Etc/") *)
Definition strip_etc (n : list Z) : list Z :=
  match n with 69 :: 116 :: 99 :: 47 :: r => r | _ => n end.
(** 836-874 datetime_to_tm of the instant u *)
Definition to_tm (z : zone) (u : Z) : tm :=
  let c := civil_of (u + z_off z u) in
  mk_tm (c_sec c) (c_min c) (c_hour c) (c_day c) (c_month0 c) (c_year c - 1900) (c_wday c) (c_ordinal0 c)
    (z_dst z u) (z_off z u) (Some (strip_etc (z_name z))).
(** 814-834 get_localtime: what *result holds afterwards, [old] before; timestamp_opt is never Ambiguous *)
Definition get_localtime (z : zone) (timer : Z) (old : tm) : tm :=
  if in_range timer then to_tm z timer else old.
(** 346-357 gmtime_r: the pointer returned is result in any case *)
Definition gmtime_r (z : zone) (timer : Z) (old : tm) : tm := get_localtime z timer old.
(** 384-404 localtime_r; second component: the variable timezone *)
Definition localtime_r (z : zone) (timer : Z) (old : tm) : tm * Z :=
  (get_localtime z timer old, if in_range timer then - z_off z timer else 0).

(** [as u32] *)
Definition u32 (v : Z) : Z := v mod 4294967296.
Definition naive_tm (t : tm) : option Z :=
  naive (to_i32 (tm_year t + 1900)) (u32 (to_i32 (tm_mon t + 1))) (u32 (tm_mday t)) (u32 (tm_hour t)) (u32 (tm_min t)) (u32 (tm_sec t)).
(** 406-460 mktime: the result, and *timeptr afterwards *)
Definition mktime (z : zone) (t : tm) : Z * tm :=
  match naive_tm t with
  | None => (-1, t)
  | Some l =>
    match z_local z l with
    | LNone => (-1, t)
    | LOne u => (u, to_tm z u)
    | LTwo early late => let u := if 0 <? tm_isdst t then early else late in (u, to_tm z u)
    end
  end.
(** 712-735 convert_tm_generic, then 508-524 timegm and 527-553 timelocal *)
Definition convert_tm (z : zone) (t : tm) : option Z :=
  match naive_tm t with
  | None => None
  | Some l => match z_local z l with LOne u => Some u | LTwo a _ => Some a | LNone => None end
  end.
Definition timegm (t : tm) : Z * tm :=
  match convert_tm utc t with
  | None => (-1, t)
  | Some u =>
    let c := civil_of u in
    (u, mk_tm (tm_sec t) (tm_min t) (tm_hour t) (tm_mday t) (tm_mon t) (tm_year t) (c_wday c) (c_ordinal0 c) 0 0 (Some (codes "UTC")))
  end.
Definition timelocal (z : zone) (t : tm) : Z * tm :=
  match convert_tm z t with
  | None => (-1, t)
  | Some u =>
    let c := civil_of (u + z_off z u) in
    (u, mk_tm (tm_sec t) (tm_min t) (tm_hour t) (tm_mday t) (tm_mon t) (tm_year t) (c_wday c) (c_ordinal0 c) (z_dst z u) (z_off z u) (Some (z_name z)))
  end.

(** * asctime_r, time/mod.rs 144-217 *)
Definition DAY_NAMES : list (list Z) := map codes ["Sun"; "Mon"; "Tue"; "Wed"; "Thu"; "Fri"; "Sat"].
Definition MON_NAMES : list (list Z) := map codes ["Jan"; "Feb"; "Mar"; "Apr"; "May"; "Jun"; "Jul"; "Aug"; "Sep"; "Oct"; "Nov"; "Dec"].
Definition within (a b v : Z) : bool := (a <=? v) && (v <=? b).
(** platform/mod.rs 187-207: UnsafeStringWriter writes the piece and a NUL after it *)
Fixpoint usw (m : mem) (p : Z) (l : list Z) : res mem :=
  match l with
  | [] => st m p 0
  | b :: l => m <- st m p b ;; usw m (p + 1) l
  end.
Fixpoint usw_all (m : mem) (p : Z) (ps : list (list Z)) : res mem :=
  match ps with
  | [] => Ok m
  | l :: ps => m <- usw m p l ;; usw_all m (p + len l) ps
  end.
(** The pieces core::fmt::write passes on, in order (it splits them further; the stores are the same, but for
    NULs that are overwritten) *)
Definition asctime_r (m : mem) (t : tm) (buf : Z) : res (mem * Z) :=
  if within 0 99 (tm_sec t) && within 0 99 (tm_min t) && within 0 99 (tm_hour t) && within (-99) 999 (tm_mday t) &&
     within 0 11 (tm_mon t) && within (-2899) 8099 (tm_year t) && within 0 6 (tm_wday t)
  then
    m <- usw_all m buf [nth (Z.to_nat (tm_wday t)) DAY_NAMES []; [32]; nth (Z.to_nat (tm_mon t)) MON_NAMES [];
      decw 3 (tm_mday t); [32]; dec0 2 (tm_hour t); [58]; dec0 2 (tm_min t); [58]; dec0 2 (tm_sec t); [32];
      dec (1900 + tm_year t); [10]] ;;
    Ok (m, buf)
  else Panic.
