(* fcntl record locks on Redox, /repo/src/platform/redox/mod.rs 331-442 and 1836-1868, and
   lockf, /repo/src/header/unistd/mod.rs 822-854.  What the file system answers to the calls
   is outside. *)
From Coq Require Import ZArith List Bool.
From Verif Require Import Base.
Import ListNotations.
Open Scope Z_scope.

Definition F_RDLCK := 0. Definition F_WRLCK := 1. Definition F_UNLCK := 2.
Definition SEEK_SET := 0. Definition SEEK_CUR := 1. Definition SEEK_END := 2.
Definition ESRCH := 3. Definition EACCES := 13. Definition EINVAL := 22.
Record flock := Fl { l_type : Z; l_whence : Z; l_start : Z; l_len : Z; l_pid : Z }.

Definition i64 (x : Z) : Z := let r := x mod 2 ^ 64 in if r <? 2 ^ 63 then r else r - 2 ^ 64.
Definition u64 (x : Z) : Z := x mod 2 ^ 64.
(* relative_to_absolute_foffset 1836-1868 *)
Definition absolute (whence start len : Z) : res (Z * Z + Z) :=
  if whence =? SEEK_SET then
    let s := if len <? 0 then i64 (start + len) else start in
    let n := if len <? 0 then i64 (- len) else len in
    if s <? 0 then Ok (inr EINVAL) else if n <? 0 then Panic else Ok (inl (s, n))
  else Ok (inl (0, 0)).

(* StdFsCallKind with the two words *)
Inductive fscall := Unlock (a b : Z) | Lock (a b : Z) | GetLock (a b : Z).
Definition top := 2 ^ 63.
(* F_SETLK and F_OFD_SETLK 333-371: the call made, or the error *)
Definition setlk (ofd : bool) (r : flock) : res (fscall + Z) :=
  p <- absolute (l_whence r) (l_start r) (l_len r) ;;
  match p with
  | inr e => Ok (inr e)
  | inl (s, n) =>
      let start := Z.lor (u64 s) (if ofd then top else 0) in
      let len := u64 n in
      if l_type r =? F_UNLCK then Ok (inl (Unlock start len))
      else if (l_type r =? F_RDLCK) || (l_type r =? F_WRLCK) then
        Ok (inl (Lock start (Z.lor len (if l_type r =? F_WRLCK then top else 0))))
      else Ok (inr EINVAL)
  end.
(* F_GETLK and F_OFD_GETLK 373-433; ask: the answer to GetLock, a value and the two words, or
   errno.  The structure afterwards and the result. *)
Definition getlk (ofd : bool) (ask : Z -> Z -> (Z * Z * Z) + Z) (r : flock) : res (flock * (Z + Z)) :=
  if ofd && negb (l_pid r =? 0) then Ok (r, inr EINVAL)
  else
    p <- absolute (l_whence r) (l_start r) (l_len r) ;;
    match p with
    | inr e => Ok (r, inr e)
    | inl (s, n) =>
        let start := Z.lor (u64 s) (if ofd then top else 0) in
        let len := Z.lor (u64 n) (if l_type r =? F_WRLCK then top else 0) in
        match ask start len with
        | inr e => if e =? ESRCH then Ok (Fl F_UNLCK (l_whence r) (l_start r) (l_len r) (l_pid r), inl 0) else Ok (r, inr e)
        | inl (val, p0, p1) =>
            Ok (Fl (if Z.testbit p1 63 then F_WRLCK else F_RDLCK) SEEK_SET (i64 start) (i64 (Z.land p1 (top - 1)))
                   (if ofd then -1 else val), inl 0)
        end
    end.

(* lockf; other: F_SETLKW, which is passed to the kernel as it is *)
Inductive lockf_fn := F_ULOCK | F_LOCK | F_TLOCK | F_TEST.
Definition lock_of (size : Z) (ty : Z) : flock := Fl ty SEEK_CUR 0 size (-1).
Definition lockf_set (f : lockf_fn) (size : Z) : option (res (fscall + Z)) :=
  match f with
  | F_ULOCK => Some (setlk false (lock_of size F_UNLCK))
  | F_TLOCK => Some (setlk false (lock_of size F_WRLCK))
  | _ => None
  end.
Definition lockf_test (ask : Z -> Z -> (Z * Z * Z) + Z) (pid size : Z) : res (Z + Z) :=
  ' (r, a) <- getlk false ask (lock_of size F_RDLCK) ;;
  match a with
  | inr e => Ok (inr e)
  | inl _ => if (l_type r =? F_UNLCK) || (l_pid r =? pid) then Ok (inl 0) else Ok (inr EACCES)
  end.

(* Sys::flock 450-453 *)
Definition flock_fn (fd operation : Z) : Z + Z := inl 0.
