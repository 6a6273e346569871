(* unistd.h: the user and group ids of the process.  The process manager is a policy, which refuses with an error or accepts; it keeps the ids, and the library
   a copy (DYNAMIC_PROC_INFO).  The lock on the copy and signals held off meanwhile are not modelled: one thread calls at a time. *)
From Verif Require Import Base.

(* redox-rt/src/sys.rs 413-421: Resugid *)
Record ids := Ids { ruid : Z; euid : Z; suid : Z; rgid : Z; egid : Z; sgid : Z }.
Record asked := Asked { a_ruid : option Z; a_euid : option Z; a_suid : option Z; a_rgid : option Z; a_egid : option Z; a_sgid : option Z }.
Record state := State { manager : ids; copy : ids }.
(* the manager's answer to the six numbers it is sent *)
Definition policy := ids -> list Z -> option Z.
Definition EINVAL : Z := 22.
Definition U32_MAX : Z := 4294967295.

Definition unwrap_or (o : option Z) (d : Z) : Z := match o with Some v => v | None => d end.
(* the process manager (not part of relibc): U32_MAX leaves an id as it is *)
Definition keep (v old : Z) : Z := if v =? U32_MAX then old else v.
Definition accept (i : ids) (l : list Z) : ids :=
  match l with
  | [a; b; c; d; e; f] => Ids (keep a (ruid i)) (keep b (euid i)) (keep c (suid i)) (keep d (rgid i)) (keep e (egid i)) (keep f (sgid i))
  | _ => i
  end.
(* redox-rt/src/sys.rs 424-472: posix_setresugid, for the process itself; the error or None *)
Definition posix_setresugid (p : policy) (s : state) (a : asked) : state * option Z :=
  let buf := [unwrap_or (a_ruid a) U32_MAX; unwrap_or (a_euid a) U32_MAX; unwrap_or (a_suid a) U32_MAX;
              unwrap_or (a_rgid a) U32_MAX; unwrap_or (a_egid a) U32_MAX; unwrap_or (a_sgid a) U32_MAX] in
  match p (manager s) buf with
  | Some e => (s, Some e)
  | None =>
      let c := copy s in
      (State (accept (manager s) buf)
         (Ids (unwrap_or (a_ruid a) (ruid c)) (unwrap_or (a_euid a) (euid c)) (unwrap_or (a_suid a) (suid c))
              (unwrap_or (a_rgid a) (rgid c)) (unwrap_or (a_egid a) (egid c)) (unwrap_or (a_sgid a) (sgid c))), None)
  end.
(* platform/redox/mod.rs 93-98: cvt_uid; inr is the error *)
Definition cvt_uid (id : Z) : option Z + Z := if id =? -1 then inl None else if id <? 0 then inr EINVAL else inl (Some id).
(* platform/redox/mod.rs 1173-1201 *)
Definition sys_setresgid (p : policy) (s : state) (r e v : Z) : state * option Z :=
  match cvt_uid r with inr x => (s, Some x) | inl r =>
  match cvt_uid e with inr x => (s, Some x) | inl e =>
  match cvt_uid v with inr x => (s, Some x) | inl v => posix_setresugid p s (Asked None None None r e v) end end end.
Definition sys_setresuid (p : policy) (s : state) (r e v : Z) : state * option Z :=
  match cvt_uid r with inr x => (s, Some x) | inl r =>
  match cvt_uid e with inr x => (s, Some x) | inl e =>
  match cvt_uid v with inr x => (s, Some x) | inl v => posix_setresugid p s (Asked r e v None None None) end end end.

(* header/unistd/mod.rs: state, result, errno if it is set *)
Definition or_minus_one (r : state * option Z) : state * Z * option Z := match r with (s, None) => (s, 0, None) | (s, Some e) => (s, -1, Some e) end.
Definition setresuid p s r e v := or_minus_one (sys_setresuid p s r e v).
Definition setreuid p s r e := or_minus_one (sys_setresuid p s r e (-1)).
Definition seteuid p s u := or_minus_one (sys_setresuid p s (-1) u (-1)).
Definition setuid p s u := or_minus_one (sys_setresuid p s u u (-1)).
Definition setresgid p s r e v := or_minus_one (sys_setresgid p s r e v).
Definition setregid p s r e := or_minus_one (sys_setresgid p s r e (-1)).
Definition setegid p s u := or_minus_one (sys_setresgid p s (-1) u (-1)).
Definition setgid p s u := or_minus_one (sys_setresgid p s u u (-1)).
(* platform/redox/mod.rs: as uid_t, an i32 *)
Definition as_int (v : Z) : Z := if v <? 2147483648 then v else v - 4294967296.
Definition getuid (s : state) : Z := as_int (ruid (copy s)).
Definition geteuid (s : state) : Z := as_int (euid (copy s)).
Definition getgid (s : state) : Z := as_int (rgid (copy s)).
Definition getegid (s : state) : Z := as_int (egid (copy s)).
Definition getresuid (s : state) : Z * Z * Z := (as_int (ruid (copy s)), as_int (euid (copy s)), as_int (suid (copy s))).
Definition getresgid (s : state) : Z * Z * Z := (as_int (rgid (copy s)), as_int (egid (copy s)), as_int (sgid (copy s))).
