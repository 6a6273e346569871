(** Model of strftime, strptime and the langinfo table behind them. *)
From Coq Require Import String.
From Verif Require Import Base Numeral Ctype_spec Utf8_model Timespec_model Writer_model.
Open Scope string_scope.
Open Scope list_scope.
Open Scope Z_scope.

(** time/mod.rs:58-70.  c_int fields are i32, tm_gmtoff is i64; tm_zone is the
    C string it points to, [None] when the pointer is null. *)
Record tm := mk_tm {
  tm_sec : Z; tm_min : Z; tm_hour : Z; tm_mday : Z; tm_mon : Z; tm_year : Z;
  tm_wday : Z; tm_yday : Z; tm_isdst : Z; tm_gmtoff : Z; tm_zone : option (list Z) }.

(** langinfo/mod.rs:19-103: STRING_TABLE (entries up to ABMON_12, the last one used;
    the remaining ones read as empty here). *)
Definition string_table : list (list Z) :=
  map codes ["UTF-8"; "%a %b %e %H:%M:%S %Y"; "%m/%d/%y"; "%H:%M:%S"; "%I:%M:%S %p"; "AM"; "PM";
   "Sunday"; "Monday"; "Tuesday"; "Wednesday"; "Thursday"; "Friday"; "Saturday";
   "Sun"; "Mon"; "Tue"; "Wed"; "Thu"; "Fri"; "Sat";
   "January"; "February"; "March"; "April"; "May"; "June"; "July"; "August"; "September";
   "October"; "November"; "December";
   "Jan"; "Feb"; "Mar"; "Apr"; "May"; "Jun"; "Jul"; "Aug"; "Sep"; "Oct"; "Nov"; "Dec"].
(** langinfo/mod.rs:204-214 through strftime.rs:32-40 *)
Definition langinfo (item : Z) : list Z := if item <? 45 then nth (Z.to_nat item) string_table [] else [].
(** [K + x as usize] *)
Definition li (k x : Z) : Z := (k + x) mod 18446744073709551616.

(** core::fmt for integers: {}, {:0w} and {:w} *)
Definition dec (v : Z) : list Z :=
  let d := map (fun x => 48 + x) (to_digits 10 (Z.abs v)) in
  if v <? 0 then 45 :: d else d.
Definition zeros (n : Z) : list Z := repeat 48 (Z.to_nat n).
Definition dec0 (w v : Z) : list Z :=
  let d := map (fun x => 48 + x) (to_digits 10 (Z.abs v)) in
  if v <? 0 then 45 :: zeros (w - 1 - len d) ++ d else zeros (w - len d) ++ d.
Definition decw (w v : Z) : list Z := repeat 32 (Z.to_nat (w - len (dec v))) ++ dec v.

(** strftime.rs:293-297.  The f64 expression is 497*year/400 truncated: exact division
    results are exact in binary64 and others are at least 1/400 away from an integer,
    far more than the rounding error for |year| < 2^31; [as c_int] saturates. *)
Definition weeks_per_year (year : Z) : Z :=
  let f := Z.quot (497 * year) 400 in
  let f := Z.max (-2147483648) (Z.min 2147483647 f) in
  if Z.rem f 7 =? 4 then 53 else 52.
(** strftime.rs:303-313 *)
Definition week_of_year (t : tm) : Z :=
  let week := Z.quot (to_i32 (to_i32 (10 + tm_yday t) - tm_wday t)) 7 in
  if week <=? 1 then weeks_per_year (to_i32 (tm_year t - 1))
  else if weeks_per_year (tm_year t) <? week then 1
  else week.

(** Outcome of inner_strftime: pieces written, the struct afterwards (%s runs mktime on
    the caller's struct), and the returned bool. *)
Definition sfr := res (list (list Z) * tm * bool).
Definition emit (t : tm) (ps : list (list Z)) : sfr := Ok (ps, t, true).

(** strftime.rs:108-273: one conversion.  [mk] is mktime; [rec] formats a nested format. *)
Definition sf_conv (mk : tm -> Z * tm) (rec : list Z -> tm -> sfr) (c : Z) (t : tm) : sfr :=
  let hour12 := to_i32 (Z.rem (to_i32 (to_i32 (tm_hour t + 12) - 1)) 12 + 1) in
  if c =? 37 then emit t [[37]]
  else if c =? 110 then emit t [[10]]
  else if c =? 116 then emit t [[9]]
  else if c =? 97 then emit t [langinfo (li 14 (tm_wday t))]
  else if c =? 65 then emit t [langinfo (li 7 (tm_wday t))]
  else if (c =? 98) || (c =? 104) then emit t [langinfo (li 33 (tm_mon t))]
  else if c =? 66 then emit t [langinfo (li 21 (tm_mon t))]
  else if c =? 67 then
    let year := Z.quot (tm_year t) 100 in
    let year := if Z.rem (tm_year t) 100 =? 0 then year else year + 1 in
    emit t [dec0 2 (year + 19)]
  else if c =? 100 then emit t [dec0 2 (tm_mday t)]
  else if c =? 68 then rec (codes "%m/%d/%y") t
  else if c =? 101 then emit t [decw 2 (tm_mday t)]
  else if c =? 70 then rec (codes "%Y-%m-%d") t
  else if c =? 72 then emit t [dec0 2 (tm_hour t)]
  else if c =? 73 then emit t [dec0 2 hour12]
  else if c =? 106 then emit t [dec0 3 (to_i32 (tm_yday t + 1))]
  else if c =? 107 then emit t [decw 2 (tm_hour t)]
  else if c =? 108 then emit t [decw 2 hour12]
  else if c =? 109 then emit t [dec0 2 (to_i32 (tm_mon t + 1))]
  else if c =? 77 then emit t [dec0 2 (tm_min t)]
  else if c =? 112 then emit t [langinfo (if tm_hour t <? 12 then 5 else 6)]
  else if c =? 80 then emit t [codes (if tm_hour t <? 12 then "am" else "pm")]
  else if c =? 114 then rec (codes "%I:%M:%S %p") t
  else if c =? 82 then rec (codes "%H:%M") t
  else if c =? 115 then let '(v, t') := mk t in emit t' [dec v]
  else if c =? 83 then emit t [dec0 2 (tm_sec t)]
  else if c =? 84 then rec (codes "%H:%M:%S") t
  else if c =? 117 then emit t [dec (to_i32 (Z.rem (to_i32 (to_i32 (tm_wday t + 7) - 1)) 7 + 1))]
  else if c =? 85 then emit t [dec (Z.quot (to_i32 (to_i32 (tm_yday t + 7) - tm_wday t)) 7)]
  else if c =? 86 then emit t [dec (week_of_year t)]
  else if c =? 119 then emit t [dec (tm_wday t)]
  else if c =? 87 then
    emit t [dec (Z.quot (to_i32 (to_i32 (tm_yday t + 7) - Z.rem (to_i32 (tm_wday t + 6)) 7)) 7)]
  else if c =? 120 then rec (codes "%m/%d/%y") t
  else if c =? 88 then rec (codes "%T") t
  else if c =? 121 then emit t [dec0 2 (Z.rem (tm_year t) 100)]
  else if c =? 89 then emit t [dec (to_i32 (tm_year t + 1900))]
  else if c =? 122 then
    let offset := tm_gmtoff t in
    let sign := if offset <? 0 then 45 else 43 in
    let offset := if offset <? 0 then wrap64 (- offset) else offset in
    let mins := offset / 60 in
    emit t [[sign]; dec0 2 (mins / 60); dec0 2 (mins mod 60)]
  else if c =? 90 then
    match tm_zone t with
    | None => Fault
    | Some z => if forallb (fun b => b <=? 127) z then emit t [z] else Panic
        (* to_str().unwrap(); valid UTF-8 beyond ASCII is not modelled *)
    end
  else if c =? 43 then rec (codes "%a %b %d %T %Z %Y") t
  else Ok ([], t, false).

(** strftime.rs:89-278: the loop; the end of the list is the terminating NUL. *)
Fixpoint sf_loop (mk : tm -> Z * tm) (rec : list Z -> tm -> sfr) (fmt : list Z) (t : tm) : sfr :=
  let continue c rest :=
    '(ps, t1, ok) <- sf_conv mk rec c t ;;
    if negb ok then Ok (ps, t1, false) else
    '(qs, t2, ok2) <- sf_loop mk rec rest t1 ;;
    Ok (ps ++ qs, t2, ok2) in
  match fmt with
  | [] => Ok ([], t, true)
  | c :: rest =>
    if negb (c =? 37) then
      '(qs, t2, ok2) <- sf_loop mk rec rest t ;;
      Ok ([c] :: qs, t2, ok2)
    else match rest with
    | [] => Ok ([], t, false)
    | c1 :: rest1 =>
      if (c1 =? 69) || (c1 =? 79) then
        match rest1 with
        | [] => Ok ([], t, false)
        | c2 :: rest2 => continue c2 rest2
        end
      else continue c1 rest1
    end
  end.

(** Nested formats (%D, %F, %r, %R, %T, %x, %X, %+) nest at most twice. *)
Fixpoint sf_inner (depth : nat) (mk : tm -> Z * tm) (fmt : list Z) (t : tm) : sfr :=
  match depth with
  | O => OutOfFuel
  | S d => sf_loop mk (sf_inner d mk) fmt t
  end.

(** time/mod.rs:486-495 with strftime.rs:282-286 *)
Definition strftime (mk : tm -> Z * tm) (m : mem) (s maxsize : Z) (fmt : list Z) (t : tm) : res (mem * tm * Z) :=
  '(ps, t', ok) <- sf_inner 3 mk fmt t ;;
  '(m', written) <- cw_write_all m (s, maxsize) 0 ps ;;
  let ret := if ok then written else 0 in
  Ok (m', t', if ret <? maxsize then ret else 0).

(** ** strptime.  Inputs and formats are ASCII: for such strings [chars] are bytes and
    every index is a character boundary.  The result carries the struct (also on
    failure: fields already stored stay stored) and the rest of the input. *)

(** strptime.rs:432-454 *)
Fixpoint parse_int_go (l : list Z) (val count width : Z) (var : bool) : option (Z * Z) :=
  match l with
  | c :: l' =>
    if negb ((48 <=? c) && (c <=? 57)) then Some (val, count)
    else
      if 2147483647 <? val * 10 then None else
      if 2147483647 <? val * 10 + (c - 48) then None else
      if (count + 1 =? width) && negb var then Some (val * 10 + (c - 48), count + 1)
      else parse_int_go l' (val * 10 + (c - 48)) (count + 1) width var
  | [] => Some (val, count)
  end.
Definition parse_int (l : list Z) (width : Z) (var : bool) : option (Z * Z) :=
  match parse_int_go l 0 0 width var with
  | Some (v, n) => if n =? 0 then None else Some (v, n)
  | None => None
  end.

(** core: u8::is_ascii_whitespace; ASCII part of char::is_whitespace *)
Definition ascii_ws (c : Z) : bool := (c =? 32) || (c =? 9) || (c =? 10) || (c =? 12) || (c =? 13).
Definition char_ws (c : Z) : bool := (c =? 32) || ((9 <=? c) && (c <=? 13)).
Fixpoint drop_while (f : Z -> bool) (l : list Z) : list Z :=
  match l with c :: l' => if f c then drop_while f l' else l | [] => [] end.

(** core: str::eq_ignore_ascii_case *)
Definition lower (c : Z) : Z := if (65 <=? c) && (c <=? 90) then c + 32 else c.
Fixpoint eq_nocase (a b : list Z) : bool :=
  match a, b with
  | [], [] => true
  | x :: a', y :: b' => (lower x =? lower y) && eq_nocase a' b'
  | _, _ => false
  end.

Definition skip (n : Z) (l : list Z) : list Z := skipn (Z.to_nat n) l.

(** strptime.rs:458-471 *)
Definition parse_am_pm (s : list Z) : option (bool * Z) :=
  let trimmed := drop_while char_ws s in
  let diff := len s - len trimmed in
  if len trimmed <? 2 then None
  else if eq_nocase (firstn 2 trimmed) (codes "AM") then Some (false, diff + 2)
  else if eq_nocase (firstn 2 trimmed) (codes "PM") then Some (true, diff + 2)
  else None.

(** strptime.rs:16-45 *)
Definition SHORT_DAYS : list (list Z) := map codes ["Sun"; "Mon"; "Tue"; "Wed"; "Thu"; "Fri"; "Sat"].
Definition LONG_DAYS : list (list Z) :=
  map codes ["Sunday"; "Monday"; "Tuesday"; "Wednesday"; "Thursday"; "Friday"; "Saturday"].
Definition SHORT_MONTHS : list (list Z) :=
  map codes ["Jan"; "Feb"; "Mar"; "Apr"; "May"; "Jun"; "Jul"; "Aug"; "Sep"; "Oct"; "Nov"; "Dec"].
Definition LONG_MONTHS : list (list Z) :=
  map codes ["January"; "February"; "March"; "April"; "May"; "June"; "July"; "August"; "September";
   "October"; "November"; "December"].

(** strptime.rs:478-489 and 496-507 *)
Fixpoint parse_name (names : list (list Z)) (i : Z) (s : list Z) : option (Z * Z) :=
  match names with
  | [] => None
  | name :: rest =>
    if (len name <=? len s) && eq_nocase (firstn (length name) s) name then Some (i, len name)
    else parse_name rest (i + 1) s
  end.

Definition set_sec t v := mk_tm v (tm_min t) (tm_hour t) (tm_mday t) (tm_mon t) (tm_year t) (tm_wday t) (tm_yday t) (tm_isdst t) (tm_gmtoff t) (tm_zone t).
Definition set_min t v := mk_tm (tm_sec t) v (tm_hour t) (tm_mday t) (tm_mon t) (tm_year t) (tm_wday t) (tm_yday t) (tm_isdst t) (tm_gmtoff t) (tm_zone t).
Definition set_hour t v := mk_tm (tm_sec t) (tm_min t) v (tm_mday t) (tm_mon t) (tm_year t) (tm_wday t) (tm_yday t) (tm_isdst t) (tm_gmtoff t) (tm_zone t).
Definition set_mday t v := mk_tm (tm_sec t) (tm_min t) (tm_hour t) v (tm_mon t) (tm_year t) (tm_wday t) (tm_yday t) (tm_isdst t) (tm_gmtoff t) (tm_zone t).
Definition set_mon t v := mk_tm (tm_sec t) (tm_min t) (tm_hour t) (tm_mday t) v (tm_year t) (tm_wday t) (tm_yday t) (tm_isdst t) (tm_gmtoff t) (tm_zone t).
Definition set_year t v := mk_tm (tm_sec t) (tm_min t) (tm_hour t) (tm_mday t) (tm_mon t) v (tm_wday t) (tm_yday t) (tm_isdst t) (tm_gmtoff t) (tm_zone t).
Definition set_wday t v := mk_tm (tm_sec t) (tm_min t) (tm_hour t) (tm_mday t) (tm_mon t) (tm_year t) v (tm_yday t) (tm_isdst t) (tm_gmtoff t) (tm_zone t).
Definition set_yday t v := mk_tm (tm_sec t) (tm_min t) (tm_hour t) (tm_mday t) (tm_mon t) (tm_year t) (tm_wday t) v (tm_isdst t) (tm_gmtoff t) (tm_zone t).

Definition spr := (tm * option (list Z))%type.

(** strptime.rs:123-416: one conversion *)
Definition sp_conv (rec : list Z -> list Z -> tm -> spr) (c : Z) (inp : list Z) (t : tm) : spr :=
  let fail := (t, None) in
  let num width var (k : Z -> list Z -> spr) :=
    match parse_int inp width var with Some (v, n) => k v (skip n inp) | None => fail end in
  let name l (k : Z -> tm) :=
    match parse_name l 0 inp with Some (i, n) => (k i, Some (skip n inp)) | None => fail end in
  let sub fmt :=
    match rec inp fmt t with (t', Some r) => (t', Some r) | (_, None) => fail end in
  if (c =? 110) || (c =? 116) then (t, Some (drop_while ascii_ws inp))
  else if c =? 37 then
    match inp with x :: r => if x =? 37 then (t, Some r) else fail | [] => fail end
  else if (c =? 100) || (c =? 101) then
    num 2 false (fun v r => (set_mday t v, if (v <? 1) || (31 <? v) then None else Some r))
  else if c =? 109 then
    num 2 false (fun v r => (set_mon t (v - 1), if (v - 1 <? 0) || (11 <? v - 1) then None else Some r))
  else if c =? 121 then
    num 2 false (fun v r => (set_year t ((if 69 <=? v then v + 1900 else v + 2000) - 1900), Some r))
  else if c =? 89 then num 4 true (fun v r => (set_year t (v - 1900), Some r))
  else if c =? 72 then num 2 false (fun v r => if 23 <? v then fail else (set_hour t v, Some r))
  else if c =? 73 then
    num 2 false (fun v r => if negb ((1 <=? v) && (v <=? 12)) then fail else (set_hour t v, Some r))
  else if c =? 77 then num 2 false (fun v r => if 59 <? v then fail else (set_min t v, Some r))
  else if c =? 83 then num 2 false (fun v r => if 60 <? v then fail else (set_sec t v, Some r))
  else if c =? 112 then
    match parse_am_pm inp with
    | Some (is_pm, used) =>
        let h := if tm_hour t =? 12 then (if is_pm then 12 else 0)
                 else if is_pm then to_i32 (tm_hour t + 12) else tm_hour t in
        (set_hour t h, Some (skip used inp))
    | None => fail
    end
  else if c =? 97 then name SHORT_DAYS (set_wday t)
  else if c =? 65 then name LONG_DAYS (set_wday t)
  else if (c =? 98) || (c =? 104) then name SHORT_MONTHS (set_mon t)
  else if c =? 66 then name LONG_MONTHS (set_mon t)
  else if c =? 106 then
    num 3 false (fun v r => if negb ((1 <=? v) && (v <=? 366)) then fail else (set_yday t (v - 1), Some r))
  else if c =? 68 then sub (codes "%m/%d/%y")
  else if c =? 70 then sub (codes "%Y-%m-%d")
  else if c =? 84 then sub (codes "%H:%M:%S")
  else fail.

(** strptime.rs:90-417 *)
Fixpoint sp_loop (rec : list Z -> list Z -> tm -> spr) (fmt inp : list Z) (t : tm) : spr :=
  let continue c rest :=
    match sp_conv rec c inp t with
    | (t', Some r) => sp_loop rec rest r t'
    | x => x
    end in
  match fmt with
  | [] => (t, Some inp)
  | fc :: rest =>
    if negb (fc =? 37) then
      match inp with
      | [] => (t, None)
      | x :: r => if negb (x =? fc) then (t, None) else sp_loop rec rest r t
      end
    else match rest with
    | [] => (t, None)
    | c1 :: rest1 =>
      if (c1 =? 69) || (c1 =? 79) then
        match rest1 with
        | [] => (t, None)
        | c2 :: rest2 => continue c2 rest2
        end
      else continue c1 rest1
    end
  end.

(** strptime.rs:49-423 (non-null arguments) and apply_subformat (511-547); the
    sub-formats contain no further sub-formats. *)
Definition strptime (inp fmt : list Z) (t : tm) : spr :=
  sp_loop (fun inp fmt t => sp_loop (fun _ _ t => (t, None)) fmt inp t) fmt inp t.
