(** Model of timespec arithmetic.  Integers are 64-bit (x86_64: time_t and
    c_long are i64); unchecked operations wrap as in a release build. *)
From Verif Require Import Base.

(** bits_timespec/mod.rs:10-15 *)
Record timespec := { tv_sec : Z; tv_nsec : Z }.

(** time/constants.rs: NANOSECONDS *)
Definition NANOSECONDS : Z := 1000000000.

Definition wrap64 (v : Z) : Z := (v + 2 ^ 63) mod 2 ^ 64 - 2 ^ 63.
(** core: i64::checked_add / checked_sub *)
Definition checked (v : Z) : option Z := if (- 2 ^ 63 <=? v) && (v <? 2 ^ 63) then Some v else None.

(** bits_timespec/mod.rs:21-33 *)
Definition ts_add (base interval : timespec) : option timespec :=
  match checked (tv_sec base + tv_sec interval) with
  | None => None
  | Some delta_sec =>
  match checked (tv_nsec base + tv_nsec interval) with
  | None => None
  | Some delta_nsec =>
    if (delta_sec <? 0) || (delta_nsec <? 0) then None
    else Some {| tv_sec := wrap64 (delta_sec + Z.quot delta_nsec NANOSECONDS);
                 tv_nsec := Z.rem delta_nsec NANOSECONDS |}
  end end.

(** bits_timespec/mod.rs:35-59 *)
Definition ts_subtract (later earlier : timespec) : option timespec :=
  match checked (tv_sec later - tv_sec earlier) with
  | None => None
  | Some delta_sec =>
  match checked (tv_nsec later - tv_nsec earlier) with
  | None => None
  | Some delta_nsec =>
    let time :=
      if delta_nsec <? 0 then
        let roundup_sec := wrap64 (Z.quot (wrap64 (- delta_nsec)) NANOSECONDS + 1) in
        {| tv_sec := wrap64 (delta_sec - roundup_sec);
           tv_nsec := wrap64 (roundup_sec * NANOSECONDS - delta_nsec) |}
      else
        {| tv_sec := wrap64 (delta_sec + Z.quot delta_nsec NANOSECONDS);
           tv_nsec := Z.rem delta_nsec NANOSECONDS |} in
    if tv_sec time <? 0 then None else Some time
  end end.

(** bits_timespec/mod.rs:60-62 *)
Definition ts_is_zero (t : timespec) : bool := (tv_nsec t =? 0) && (tv_sec t =? 0).

Inductive deadline := DlOk (t : timespec) | DlTimedOut | DlNoMem.

(** time/mod.rs:903-915: timespec_realtime_to_monotonic; the two clock readings
    are parameters. *)
Definition realtime_to_monotonic (realtime monotonic abstime : timespec) : deadline :=
  match ts_subtract abstime realtime with
  | None => DlTimedOut
  | Some delta =>
    match ts_add monotonic delta with
    | None => DlNoMem
    | Some relative => DlOk relative
    end
  end.
