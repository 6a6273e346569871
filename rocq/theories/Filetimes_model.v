(* File times and the time of day: /repo/src/header/sys_stat/mod.rs 75-76, 175-181, 258-276, header/utime/mod.rs 49-65, header/sys_time/mod.rs 87-92,
   123-150, header/sys_timeb/mod.rs 48-75, header/bits_timespec/mod.rs 78-86, platform/pal/mod.rs 163-172, platform/redox/mod.rs 519-541, 746-761, 952-965,
   platform/redox/libredox.rs 27-39, 194-219, platform/redox/path.rs 381-418.  How the kernel and the file systems find a file, refuse a change and apply
   one are the parameters of a world; locks, signals and the umask are left out. *)
From Verif Require Import Base.
Open Scope Z_scope.

Definition text := list Z.
Record stamp := T { sec : Z; nsec : Z }.
Record system := System {
  find : Z -> text -> bool -> Z + Z;            (* descriptor of the directory, path, whether a final link is not followed: a file, or errno *)
  refuses : Z -> option Z;                      (* why the times of the file may not be changed *)
  now : stamp;
  pick : (Z -> option Z) -> Z                   (* the number of a new descriptor *)
}.
Record world := World { atime : Z -> stamp; mtime : Z -> stamp; fds : Z -> option Z }.

Definition ENOENT : Z := 2.
Definition EBADF : Z := 9.
Definition EINVAL : Z := 22.
Definition AT_FDCWD : Z := -100.
Definition AT_SYMLINK_NOFOLLOW : Z := 512.      (* 0x200 *)
Definition AT_EMPTY_PATH : Z := 16384.          (* 0x4000 *)
Definition O_CLOEXEC : Z := 16777216.           (* 0x0100_0000 *)
Definition O_PATH : Z := 536870912.             (* 0x2000_0000 *)
Definition O_NOFOLLOW : Z := -2147483648.       (* -0x8000_0000 *)
Definition UTIME_NOW : Z := 1073741823.
Definition UTIME_OMIT : Z := 1073741822.

Definition set {A} (f : Z -> A) (i : Z) (v : A) : Z -> A := fun j => if j =? i then v else f j.

(* what a file system does with the two stamps of a Futimens call, tv_nsec having 32 bits *)
Definition apply (now old t : stamp) : option stamp :=
  if nsec t =? UTIME_NOW then Some now
  else if nsec t =? UTIME_OMIT then Some old
  else if (0 <=? nsec t) && (nsec t <? 1000000000) then Some t
  else None.
Definition change (s : system) (w : world) (f : Z) (a m : stamp) : world * option Z :=
  match apply (now s) (atime w f) a, apply (now s) (mtime w f) m with
  | Some a', Some m' => match refuses s f with Some e => (w, Some e) | None => (World (set (atime w) f a') (set (mtime w) f m') (fds w), None) end
  | _, _ => (w, Some EINVAL)
  end.

(* as i32 *)
Definition as_int (n : Z) : Z := (n + 2 ^ 31) mod 2 ^ 32 - 2 ^ 31.
(* TimeSpec::from, bits_timespec 79-86: tv_nsec: c_int *)
Definition from_timespec (t : stamp) : stamp := T (sec t) (as_int (nsec t)).
(* libredox 194-219; None is the null pointer *)
Definition lib_futimens (s : system) (w : world) (fd : Z) (times : option (stamp * stamp)) : world * option Z :=
  let '(a, m) := match times with
                 | None => (T 0 UTIME_NOW, T 0 UTIME_NOW)
                 | Some (a, m) => (from_timespec a, from_timespec m)
                 end in
  match fds w fd with Some f => change s w f a m | None => (w, Some EBADF) end.

(* Sys::openat, libredox::openat: the low 16 bits of the flags are replaced by those of the mode, here 0; path::openat refuses empty paths, the
   bit AT_EMPTY_PATH being one of the low 16 *)
Definition openat (s : system) (w : world) (dirfd : Z) (path : text) (oflag : Z) : world * (Z + Z) :=
  let flags := Z.land (oflag mod 2 ^ 64) 4294901760 in
  match path with
  | [] => (w, inr ENOENT)
  | _ => match find s dirfd path (Z.testbit flags 31) with
         | inr e => (w, inr e)
         | inl f => let fd := pick s (fds w) in (World (atime w) (mtime w) (set (fds w) fd (Some f)), inl fd)
         end
  end.
Definition close (w : world) (fd : Z) : world := World (atime w) (mtime w) (set (fds w) fd None).

(* path.rs 381-418 *)
Definition at_flags_to_open_flags (at_flags : Z) : Z := if Z.land at_flags AT_SYMLINK_NOFOLLOW =? AT_SYMLINK_NOFOLLOW then Z.lor O_NOFOLLOW O_PATH else 0.
(* Sys::utimensat, redox/mod.rs 519-541; the File opened is closed when dropped *)
Definition sys_utimensat (s : system) (w : world) (dirfd : Z) (path : text) (times : option (stamp * stamp)) (flag : Z) : world * option Z :=
  let on p :=
    match openat s w dirfd p (Z.lor (Z.lor (at_flags_to_open_flags flag) O_CLOEXEC) (Z.lor O_PATH O_CLOEXEC)) with
    | (w, inr e) => (w, Some e)
    | (w, inl fd) => let (w, r) := lib_futimens s w fd times in (close w fd, r)
    end in
  match path with
  | [] => if Z.land flag AT_EMPTY_PATH =? AT_EMPTY_PATH
          then if dirfd =? AT_FDCWD then on [46] else lib_futimens s w dirfd times
          else (w, Some ENOENT)
  | _ => on path
  end.
(* pal/mod.rs 163-172 *)
Definition sys_futimens (s : system) (w : world) (fd : Z) (times : option (stamp * stamp)) : world * option Z := sys_utimensat s w fd [] times AT_EMPTY_PATH.
Definition sys_utimens (s : system) (w : world) (path : text) (times : option (stamp * stamp)) : world * option Z := sys_utimensat s w AT_FDCWD path times 0.

(* or_minus_one_errno: the result, and errno if it was set *)
Definition or_minus_one (r : world * option Z) : world * Z * option Z := match r with (w, None) => (w, 0, None) | (w, Some e) => (w, -1, Some e) end.
(* sys_stat 175-181 *)
Definition futimens (s : system) (w : world) (fd : Z) (times : option (stamp * stamp)) : world * Z * option Z := or_minus_one (sys_futimens s w fd times).
(* sys_stat 258-276 *)
Definition utimensat (s : system) (w : world) (fd : Z) (path : text) (times : option (stamp * stamp)) (flag : Z) : world * Z * option Z :=
  match openat s w fd path (Z.land flag AT_SYMLINK_NOFOLLOW) with
  | (w, inl fd) => let '(w, r, e) := or_minus_one (sys_futimens s w fd times) in (close w fd, r, e)
  | (w, inr e) => (w, -1, Some e)
  end.
(* sys_time 123-150: timevals as (tv_sec, tv_usec), tv_usec: c_int, the product c_long *)
Definition utimes (s : system) (w : world) (path : text) (times : option ((Z * Z) * (Z * Z))) : world * Z * option Z :=
  or_minus_one (sys_utimens s w path (match times with
                                      | None => None
                                      | Some ((as_, au), (ms, mu)) => Some (T as_ (au * 1000), T ms (mu * 1000))
                                      end)).
(* utime 49-65: the two times; the null pointer is dereferenced *)
Definition utime (s : system) (w : world) (path : text) (times : option (Z * Z)) : res (world * Z * option Z) :=
  match times with
  | None => Fault
  | Some (a, m) => Ok (or_minus_one (sys_utimens s w path (Some (T a 0, T m 0))))
  end.

(* redox/mod.rs 746-761: seconds, microseconds, minutes west, dst *)
Definition gettimeofday (s : system) : (Z * Z) * (Z * Z) := ((sec (now s), as_int (Z.quot (nsec (now s)) 1000)), (0, 0)).
(* sys_timeb 48-75: time, millitm: u16, timezone, dstflag: i16 *)
Definition as_short (n : Z) : Z := (n + 32768) mod 65536 - 32768.
Definition ftime (s : system) : Z * Z * Z * Z :=
  let '((sc, us), (west, dst)) := gettimeofday s in (sc, (Z.quot us 1000) mod 65536, as_short west, as_short dst).
