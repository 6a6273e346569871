(* getpriority, setpriority and nice: /repo/src/header/sys_resource/mod.rs 191-212, /repo/src/header/unistd/mod.rs 864-882,
   /repo/src/platform/redox/mod.rs 645-653, 1159-1167, /repo/redox-rt/src/sys.rs 115-144.  The process manager
   keeps a number for each process (0 being the caller, as it understands it) or answers with an errno. *)
From Verif Require Import Base.

Definition EINVAL : Z := 22.
Record manager := Manager { prio : Z -> Z + Z; set_error : Z -> option Z }.
Definition put (k : manager) (who p : Z) : manager := Manager (fun q => if q =? who then inl p else prio k q) (set_error k).
Definition i32 (x : Z) : Z := (x + 2 ^ 31) mod 2 ^ 32 - 2 ^ 31.
Definition clamp (x : Z) : Z := Z.max (-20) (Z.min x 19).
Definition saturate (x : Z) : Z := Z.max (- 2 ^ 31) (Z.min x (2 ^ 31 - 1)).

(* sys.rs 115-144 *)
Definition posix_setpriority (k : manager) (which who p : Z) : manager * option Z :=
  if negb (which =? 0) then (k, Some EINVAL)
  else match set_error k who with Some e => (k, Some e) | None => (put k who p, None) end.
Definition posix_getpriority (k : manager) (which who : Z) : Z + Z :=
  if negb (which =? 0) then inr EINVAL else match prio k who with inl p => inl (p mod 2 ^ 32) | inr e => inr e end.
(* mod.rs *)
Definition sys_getpriority (k : manager) (which who : Z) : Z + Z :=
  match posix_getpriority k which who with inl p => inl (i32 (- i32 p + 40)) | inr e => inr e end.
Definition sys_setpriority (k : manager) (which who p : Z) : manager * option Z :=
  posix_setpriority k which who ((20 + clamp p) mod 2 ^ 32).
(* or_minus_one_errno: the value and what errno is set to, if it is *)
Definition minus_one (r : Z + Z) : Z * option Z := match r with inl x => (x, None) | inr e => (-1, Some e) end.
(* sys_resource *)
Definition getpriority (k : manager) (which who : Z) : Z * option Z :=
  let '(r, e) := minus_one (sys_getpriority k which who) in
  if r <? 0 then (r, e) else (i32 (20 - r), e).
Definition setpriority (k : manager) (which who n : Z) : manager * (Z * option Z) :=
  match sys_setpriority k which who n with (k, None) => (k, (0, None)) | (k, Some e) => (k, (-1, Some e)) end.
(* unistd *)
Definition nice (k : manager) (incr : Z) : manager * (Z * option Z) :=
  let '(p, e) := minus_one (sys_getpriority k 0 0) in
  if p <? 0 then (k, (p, e))
  else
    let current := i32 (20 - p) in
    let new := clamp (saturate (current + incr)) in
    match sys_setpriority k 0 0 new with (k, Some e) => (k, (-1, Some e)) | (k, None) => (k, (new, None)) end.
