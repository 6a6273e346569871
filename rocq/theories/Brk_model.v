(* The break: /repo/src/header/unistd/brk.rs, /repo/src/platform/redox/mod.rs 84-85, 151-185.  Pointers are numbers of 64 bits.  What mmap answers, the address
   of the 4 megabytes or errno, is a parameter of each call. *)
From Verif Require Import Base.
Open Scope Z_scope.

Record state := State { BRK : Z; BRK_CUR : Z; BRK_END : Z }.
Definition start : state := State NULL NULL NULL.
Definition ENOMEM : Z := 12.
Definition BRK_MAX_SIZE : Z := 4 * 1024 * 1024.
Definition ptr (n : Z) : Z := n mod 2 ^ 64.

(* redox/mod.rs 151-185 *)
Definition sys_brk (mmap : Z + Z) (s : state) (addr : Z) : state * (Z + Z) :=
  let allocated := if BRK_CUR s =? NULL then match mmap with inl a => inl (State (BRK s) a (ptr (a + BRK_MAX_SIZE))) | inr e => inr e end else inl s in
  match allocated with
  | inr e => (s, inr e)
  | inl s =>
      if addr =? NULL then (s, inl (BRK_CUR s))
      else if (BRK_CUR s <=? addr) && (addr <? BRK_END s) then (State (BRK s) addr (BRK_END s), inl addr)
      else (s, inr ENOMEM)
  end.
(* or_errno_null_mut: the pointer, and errno if it was set *)
Definition or_null (r : Z + Z) : Z * option Z := match r with inl a => (a, None) | inr e => (NULL, Some e) end.
Definition set_brk (s : state) (a : Z) : state := State a (BRK_CUR s) (BRK_END s).
(* brk.rs 21-30 *)
Definition brk (mmap : Z + Z) (s : state) (addr : Z) : state * Z * option Z :=
  let (s, r) := sys_brk mmap s addr in
  let (b, e) := or_null r in
  let s := set_brk s b in
  if BRK s <? addr then (s, -1, Some ENOMEM) else (s, 0, e).
(* brk.rs 39-58; the two calls of the kernel can be answered differently *)
Definition FAILED : Z := 2 ^ 64 - 1.
Definition sbrk (mmap mmap' : Z + Z) (s : state) (incr : Z) : state * Z * option Z :=
  let (s, e) := if BRK s =? NULL then let (s, r) := sys_brk mmap s NULL in let (b, e) := or_null r in (set_brk s b, e) else (s, None) in
  let old_brk := BRK s in
  if incr =? 0 then (s, old_brk, e)
  else
    let addr := ptr (old_brk + incr) in
    let (s, r) := sys_brk mmap' s addr in
    let (b, e') := or_null r in
    let s := set_brk s b in
    if BRK s <? addr then (s, FAILED, Some ENOMEM) else (s, old_brk, match e' with Some x => Some x | None => e end).
(* a program's calls, and what they return *)
Fixpoint sbrks (mmap : Z + Z) (s : state) (incrs : list Z) : state * list Z :=
  match incrs with
  | [] => (s, [])
  | i :: r => let '(s, a, _) := sbrk mmap mmap s i in let (s, l) := sbrks mmap s r in (s, a :: l)
  end.
