(* Model of header/threads/mod.rs.  The pthread functions return their error
   number and do not set errno (header/pthread/mod.rs 19-24, [e]); here [r] is
   what the pthread function returned. *)
From Coq Require Import ZArith List Bool.
From Verif Require Import Base Conc Word_mem Mktemp_model Waituntil_model Pmutex_model.
Import ListNotations.
Open Scope Z_scope.

(* header/errno/mod.rs 58 *)
Definition ENOMEM := 12.

(* header/threads/mod.rs 39-47 *)
Definition thrd_success := 0.
Definition thrd_busy := 1.
Definition thrd_error := 2.
Definition thrd_nomem := 3.
Definition thrd_timedout := 4.
Definition mtx_recursive := 1.

(* header/pthread/mod.rs 19-24: errno stays as it was. *)
Definition e_errno (errno r : Z) : Z := errno.

(* header/threads/mod.rs 60-66 cnd_broadcast, 85-91 cnd_signal, 118-126 cnd_wait,
   164-170 mtx_lock, 200-206 mtx_unlock, 241-247 thrd_detach, 263-269 thrd_join,
   292-298 tss_create, 318-325 tss_set: all the same match. *)
Definition plain (r : Z) : Z := if r =? 0 then thrd_success else thrd_error.

(* header/threads/mod.rs 95-115 cnd_timedwait, 174-183 mtx_timedlock, 187-196
   mtx_trylock, 210-232 thrd_create: errno is set to 0, then looked at. *)
Definition by_errno (special code r : Z) : Z :=
  let errno := e_errno 0 r in
  if r =? 0 then thrd_success else if errno =? special then code else thrd_error.
Definition cnd_timedwait := by_errno ETIMEDOUT thrd_timedout.
Definition mtx_timedlock := by_errno ETIMEDOUT thrd_timedout.
Definition mtx_trylock := by_errno EBUSY thrd_busy.
Definition thrd_create := by_errno ENOMEM thrd_nomem.

(* header/threads/mod.rs 138-160 mtx_init: the type of the pthread mutex made; the
   other attributes are those of pthread_mutexattr_init (not robust). *)
Definition mtx_init (kind : Z) : ty :=
  if Z.land kind mtx_recursive =? mtx_recursive then Recursive else Normal.
Definition mtx_exec (kind : Z) := pm_exec (mtx_init kind) false.

(* The result of a call on a mutex, when the pthread function called by it has
   returned: 164-206. *)
Definition mtx_ret (call : lact) (r : Z) : Z :=
  match call with
  | LTry => mtx_trylock r
  | LLock true => mtx_timedlock r
  | _ => plain r
  end.

(* header/threads/mod.rs 257-259: an int made a pointer is sign-extended. *)
Definition thrd_exit (ret : Z) : Z := ret mod 2 ^ 64.

(* header/threads/mod.rs 263-269 over header/pthread/mod.rs 218-228: the int
   pointer is taken for a pointer to a pointer, through which the value is stored
   (not when null).  [joined]: what pthread::join gave. *)
Definition thrd_join (m : mem) (retval : Z) (joined : Z + Z) : res (mem * Z) :=
  match joined with
  | inl value =>
      m <- (if retval =? 0 then Ok m else st_list m retval (le_bytes 8 value)) ;;
      Ok (m, plain 0)
  | inr err => Ok (m, plain err)
  end.

(* header/threads/mod.rs 273-282 over header/time/mod.rs 263-270 (unimplemented!). *)
Definition clock_nanosleep (seconds nanoseconds : Z) : res Z := Panic.
Definition thrd_sleep (seconds nanoseconds : Z) : res Z :=
  ret <- clock_nanosleep seconds nanoseconds ;; Ok (if ret =? 0 then 0 else -2).
