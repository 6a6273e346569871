(* posix_fallocate, /repo/src/header/fcntl/mod.rs 186-199 and /repo/src/platform/redox/mod.rs
   972-1002.  The lock is left out: flock does nothing on Redox.  Whatever other processes do
   between fstat and ftruncate is the parameter others; the kernel may refuse either call. *)
From Verif Require Import Base Falloc_spec.

(* redox/mod.rs 972-1002: offset and length are u64 *)
Definition sys_fallocate (f : list Z) (offset length : Z) (fstat : option Z) (others : list Z -> list Z) (ftruncate : Z -> option Z) : list Z * Z :=
  let total := offset + length in
  if 18446744073709551616 <=? total then (f, 27)
  else
    match fstat with
    | Some e => (f, e)
    | None =>
        let st_size := len f in
        let f := others f in
        if st_size <=? total then
          let diff := total - st_size in
          if st_size + diff <? 18446744073709551616 then
            match ftruncate (st_size + diff) with Some e => (f, e) | None => (resized f (st_size + diff), 0) end
          else (f, 0)
        else (f, 0)
    end.
(* fcntl/mod.rs 186-199: offset and len are off_t *)
Definition posix_fallocate (f : list Z) (offset length : Z) (fstat : option Z) (others : list Z -> list Z) (ftruncate : Z -> option Z) : list Z * Z :=
  if offset <? 0 then (f, 22)
  else if length <=? 0 then (f, 22)
  else sys_fallocate f offset length fstat others ftruncate.
