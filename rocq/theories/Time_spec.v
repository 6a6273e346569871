(** Specification for C27/C28: what the C standard prescribes for each strftime
    conversion in the C locale, and what strptime must recover. *)
From Coq Require Import String.
From Verif Require Import Base Numeral Ctype_spec Time_model.
Open Scope string_scope.
Open Scope list_scope.
Open Scope Z_scope.

Definition ch (s : string) : Z := hd 0 (codes s).

(** Fields in the ranges of <time.h>; offsets below 100 hours; an ASCII zone name. *)
Definition tm_ok (t : tm) : Prop :=
  0 <= tm_sec t <= 60 /\ 0 <= tm_min t <= 59 /\ 0 <= tm_hour t <= 23 /\ 1 <= tm_mday t <= 31 /\
  0 <= tm_mon t <= 11 /\ -2147483648 <= tm_year t <= 2147483647 - 1900 /\ 0 <= tm_wday t <= 6 /\
  0 <= tm_yday t <= 365 /\ Z.abs (tm_gmtoff t) < 360000 /\
  exists z, tm_zone t = Some z /\ Forall (fun b => 0 < b <= 127) z.

Definition dd (v : Z) : list Z := [48 + v / 10; 48 + v mod 10].
Definition ddd (v : Z) : list Z := [48 + v / 100; 48 + v / 10 mod 10; 48 + v mod 10].
(** decimal numeral of an integer, without padding *)
Definition decimal (v : Z) (o : list Z) : Prop :=
  exists l, numeral 10 l (Z.abs v) /\ o = (if v <? 0 then [45] else []) ++ map (fun d => 48 + d) l.

Definition weekdays : list (list Z) :=
  map codes ["Sunday"; "Monday"; "Tuesday"; "Wednesday"; "Thursday"; "Friday"; "Saturday"].
Definition months : list (list Z) :=
  map codes ["January"; "February"; "March"; "April"; "May"; "June"; "July"; "August";
             "September"; "October"; "November"; "December"].
Definition weekday (t : tm) : list Z := nth (Z.to_nat (tm_wday t)) weekdays [].
Definition month (t : tm) : list Z := nth (Z.to_nat (tm_mon t)) months [].
Definition abbrev (l : list Z) : list Z := firstn 3 l.

Definition year (t : tm) : Z := tm_year t + 1900.
Definition hour12 (t : tm) : Z := if tm_hour t mod 12 =? 0 then 12 else tm_hour t mod 12.
(** days since Monday *)
Definition mon_wday (t : tm) : Z := (tm_wday t + 6) mod 7.
Definition leap (y : Z) : bool := (y mod 4 =? 0) && (negb (y mod 100 =? 0) || (y mod 400 =? 0)).
Definition year_days (y : Z) : Z := if leap y then 366 else 365.
(** ISO 8601: the week number is that of the week's Thursday, counted in the year the
    Thursday falls in. *)
Definition iso_week (t : tm) : Z :=
  let thursday := tm_yday t - mon_wday t + 3 in
  let day := if thursday <? 0 then thursday + year_days (year t - 1)
             else if year_days (year t) <=? thursday then thursday - year_days (year t)
             else thursday in
  day / 7 + 1.

Definition hms (t : tm) : list Z := dd (tm_hour t) ++ [58] ++ dd (tm_min t) ++ [58] ++ dd (tm_sec t).
Definition mdy (t : tm) : list Z :=
  dd (tm_mon t + 1) ++ [47] ++ dd (tm_mday t) ++ [47] ++ dd (year t mod 100).
Definition ampm (t : tm) : list Z := codes (if tm_hour t <? 12 then "AM" else "PM").
Definition space_padded (v : Z) : list Z := if v <? 10 then [32; 48 + v] else dd v.

(** [conv_out t c o]: conversion %c prints o.  C17 7.27.3.5 in the C locale. *)
Inductive conv_out (t : tm) : Z -> list Z -> Prop :=
| co_percent : conv_out t (ch "%") [37]
| co_n : conv_out t (ch "n") [10]
| co_t : conv_out t (ch "t") [9]
| co_a : conv_out t (ch "a") (abbrev (weekday t))
| co_A : conv_out t (ch "A") (weekday t)
| co_b : conv_out t (ch "b") (abbrev (month t))
| co_h : conv_out t (ch "h") (abbrev (month t))
| co_B : conv_out t (ch "B") (month t)
| co_C : conv_out t (ch "C") (dd (year t / 100))
| co_d : conv_out t (ch "d") (dd (tm_mday t))
| co_D : conv_out t (ch "D") (mdy t)
| co_e : conv_out t (ch "e") (space_padded (tm_mday t))
| co_F y : decimal (year t) y ->
    conv_out t (ch "F") (y ++ [45] ++ dd (tm_mon t + 1) ++ [45] ++ dd (tm_mday t))
| co_H : conv_out t (ch "H") (dd (tm_hour t))
| co_I : conv_out t (ch "I") (dd (hour12 t))
| co_j : conv_out t (ch "j") (ddd (tm_yday t + 1))
| co_m : conv_out t (ch "m") (dd (tm_mon t + 1))
| co_M : conv_out t (ch "M") (dd (tm_min t))
| co_p : conv_out t (ch "p") (ampm t)
| co_r : conv_out t (ch "r")
    (dd (hour12 t) ++ [58] ++ dd (tm_min t) ++ [58] ++ dd (tm_sec t) ++ [32] ++ ampm t)
| co_R : conv_out t (ch "R") (dd (tm_hour t) ++ [58] ++ dd (tm_min t))
| co_S : conv_out t (ch "S") (dd (tm_sec t))
| co_T : conv_out t (ch "T") (hms t)
| co_u : conv_out t (ch "u") [48 + (mon_wday t + 1)]
| co_U : conv_out t (ch "U") (dd ((tm_yday t + 7 - tm_wday t) / 7))
| co_V : conv_out t (ch "V") (dd (iso_week t))
| co_w : conv_out t (ch "w") [48 + tm_wday t]
| co_W : conv_out t (ch "W") (dd ((tm_yday t + 7 - mon_wday t) / 7))
| co_x : conv_out t (ch "x") (mdy t)
| co_X : conv_out t (ch "X") (hms t)
| co_c y : decimal (year t) y ->
    conv_out t (ch "c") (abbrev (weekday t) ++ [32] ++ abbrev (month t) ++ [32] ++
      space_padded (tm_mday t) ++ [32] ++ hms t ++ [32] ++ y)
| co_y : conv_out t (ch "y") (dd (year t mod 100))
| co_Y y : decimal (year t) y -> conv_out t (ch "Y") y
| co_z : conv_out t (ch "z")
    ((if tm_gmtoff t <? 0 then [45] else [43]) ++ dd (Z.abs (tm_gmtoff t) / 3600) ++
     dd (Z.abs (tm_gmtoff t) / 60 mod 60))
| co_Z z : tm_zone t = Some z -> conv_out t (ch "Z") z.

(** [expands P t fmt o]: fmt, whose conversions all satisfy P, expands to o.  The E
    and O modifiers make no difference in the C locale. *)
Inductive expands (P : Z -> Prop) (t : tm) : list Z -> list Z -> Prop :=
| ex_nil : expands P t [] []
| ex_lit c f o : c <> ch "%" -> c <> 0 -> expands P t f o -> expands P t (c :: f) (c :: o)
| ex_conv c o1 f o : P c -> conv_out t c o1 -> expands P t f o ->
    expands P t (ch "%" :: c :: f) (o1 ++ o)
| ex_mod e c o1 f o : e = ch "E" \/ e = ch "O" -> P c -> conv_out t c o1 -> expands P t f o ->
    expands P t (ch "%" :: e :: c :: f) (o1 ++ o).

(** The conversions for which relibc agrees with the standard, with the condition on
    the struct under which it does. *)
Definition agrees (t : tm) (c : Z) : Prop :=
  In c (codes "%ntaAbhBdeFHIjmMprRSTuwXYzZ") \/
  (In c (codes "yDx") /\ 0 <= tm_year t) \/
  (c = ch "C" /\ tm_year t mod 100 = 0 /\ 0 <= year t <= 9999) \/
  (c = ch "U" /\ 10 <= (tm_yday t + 7 - tm_wday t) / 7) \/
  (c = ch "W" /\ 10 <= (tm_yday t + 7 - mon_wday t) / 7) \/
  (c = ch "V" /\ tm_wday t <> 0 /\ (tm_yday t - mon_wday t + 3) mod 7 <> 0 /\
   10 <= (tm_yday t - mon_wday t + 10) / 7 <= 52).

(** ** Round trip *)

(** The fields a conversion determines, copied from [t] into [t0]. *)
Definition copy_mday t t0 := set_mday t0 (tm_mday t).
Definition copy_mon t t0 := set_mon t0 (tm_mon t).
Definition copy_year t t0 := set_year t0 (tm_year t).
Definition copy_hour t t0 := set_hour t0 (tm_hour t).
Definition copy_min t t0 := set_min t0 (tm_min t).
Definition copy_sec t t0 := set_sec t0 (tm_sec t).

Inductive item :=
| Lit (c : Z)                      (* an ordinary ASCII character *)
| Conv (c : Z)                     (* a fixed-width or named conversion *)
| Year (sep : option Z)            (* %Y, at the end or before a separator that is no digit *)
| Date (sep : option Z)            (* %F *)
| Clock12 (sep : list Z).          (* %I, some literals, %p *)

Definition opt_list (o : option Z) : list Z := match o with Some c => [c] | None => [] end.
Definition item_fmt (i : item) : list Z :=
  match i with
  | Lit c => [c]
  | Conv c => [37; c]
  | Year s => codes "%Y" ++ opt_list s
  | Date s => codes "%F" ++ opt_list s
  | Clock12 s => codes "%I" ++ s ++ codes "%p"
  end.
Definition fmt_of (l : list item) : list Z := concat (map item_fmt l).

(** Conversions that can be read back, whatever comes next; %y only for 1969..2068. *)
Definition lit_ok (c : Z) : Prop := 0 < c <= 127 /\ c <> 37.
Definition sep_ok (s : option Z) : Prop := match s with Some c => lit_ok c /\ ~ 48 <= c <= 57 | None => True end.
Definition item_ok (t : tm) (i : item) : Prop :=
  match i with
  | Lit c => lit_ok c
  | Conv c => In c (codes "%aAbhBdHjmMST") \/ (In c (codes "yD") /\ 1969 <= year t <= 2068)
  | Year s => sep_ok s /\ 0 <= year t
  | Date s => sep_ok s /\ 0 <= year t
  | Clock12 s => Forall lit_ok s
  end.
(** A separator-less %Y or %F must end the format. *)
Fixpoint items_ok (t : tm) (l : list item) : Prop :=
  match l with
  | [] => True
  | i :: r => item_ok t i /\ items_ok t r /\
      match i with Year None | Date None => r = [] | _ => True end
  end.

Definition conv_sets (c : Z) (t t0 : tm) : tm :=
  if (c =? ch "a") || (c =? ch "A") then set_wday t0 (tm_wday t)
  else if (c =? ch "b") || (c =? ch "h") || (c =? ch "B") || (c =? ch "m") then copy_mon t t0
  else if c =? ch "d" then copy_mday t t0
  else if c =? ch "H" then copy_hour t t0
  else if c =? ch "j" then set_yday t0 (tm_yday t)
  else if c =? ch "M" then copy_min t t0
  else if c =? ch "S" then copy_sec t t0
  else if c =? ch "T" then copy_sec t (copy_min t (copy_hour t t0))
  else if c =? ch "y" then copy_year t t0
  else if c =? ch "D" then copy_year t (copy_mday t (copy_mon t t0))
  else t0.
Definition item_sets (i : item) (t t0 : tm) : tm :=
  match i with
  | Lit _ => t0
  | Conv c => conv_sets c t t0
  | Year _ => copy_year t t0
  | Date _ => copy_mday t (copy_mon t (copy_year t t0))
  | Clock12 _ => copy_hour t t0
  end.
Definition sets (l : list item) (t t0 : tm) : tm := fold_left (fun acc i => item_sets i t acc) l t0.
