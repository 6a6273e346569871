(* sleep, usleep and nanosleep: /repo/src/header/unistd/mod.rs 1179-1196, 1386-1399, /repo/src/platform/redox/mod.rs 932-950,
   /repo/redox-rt/src/sys.rs 546-549.  kernel is SYS_NANOSLEEP: it gets seconds and nanoseconds (64 and 32 bits)
   and the time the remainder is first set to, and answers with an errno or none and the remainder. *)
From Verif Require Import Base Timespec_model.

Definition EINTR : Z := 4.
Definition i32 (x : Z) : Z := (x + 2 ^ 31) mod 2 ^ 32 - 2 ^ 31.
Definition to_redox (t : timespec) : timespec := {| tv_sec := tv_sec t; tv_nsec := i32 (tv_nsec t) |}.
Definition kernel := timespec -> timespec -> option Z * timespec.
(* rmtp is None for a null pointer, else what it points to, before and after *)
Definition nanosleep (k : kernel) (rqtp : timespec) (rmtp : option timespec) : option timespec * option Z :=
  let rem := match rmtp with Some t => to_redox t | None => {| tv_sec := 0; tv_nsec := 0 |} end in
  match k (to_redox rqtp) rem with
  | (None, _) => (rmtp, None)
  | (Some e, rem) => if e =? EINTR then (match rmtp with Some _ => Some rem | None => None end, Some e) else (rmtp, Some e)
  end.
Definition sleep (k : kernel) (seconds : Z) : Z :=
  match nanosleep k {| tv_sec := seconds; tv_nsec := 0 |} (Some {| tv_sec := 0; tv_nsec := 0 |}) with
  | (Some t, Some _) => tv_sec t mod 2 ^ 32
  | _ => 0
  end.
Definition usleep (k : kernel) (useconds : Z) : Z * option Z :=
  match nanosleep k {| tv_sec := useconds / 1000000; tv_nsec := (useconds mod 1000000 * 1000) mod 2 ^ 32 |} None with
  | (_, None) => (0, None)
  | (_, Some e) => (-1, Some e)
  end.
