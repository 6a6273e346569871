(* Thread attributes, /repo/src/header/pthread/attr.rs, and the part of pthread::create that
   uses them, /repo/src/pthread/mod.rs 111-198 (x86_64, Redox).  The object is a record, not its
   bytes.  The kernel's answers and the addresses of other things are parameters. *)
From Verif Require Import Base Pattr_spec.

(* header/pthread/mod.rs 27-38 *)
Record rattr := A { detachstate : Z; inheritsched : Z; schedpolicy : Z; scope : Z; guardsize : Z; stacksize : Z; stack : Z; param : Z }.
(* attr.rs 20-45, 256-259 *)
Definition attr_init (page : Z) : rattr := A 1 1 1 1 page 1048576 0 0.
Definition w64 (x : Z) : Z := x mod 18446744073709551616.
Definition s64 (x : Z) : Z := (x + 9223372036854775808) mod 18446744073709551616 - 9223372036854775808.
Definition s32 (x : Z) : Z := (x + 2147483648) mod 4294967296 - 2147483648.

(* 271-287 *)
Definition setdetachstate (t : rattr) (v : Z) : rattr * Z :=
  if (v =? 0) || (v =? 1) then (A v (inheritsched t) (schedpolicy t) (scope t) (guardsize t) (stacksize t) (stack t) (param t), 0) else (t, 22).
(* 303-311: the parameter is a c_int, to which the caller's size_t is converted *)
Definition setguardsize (t : rattr) (v : Z) : rattr * Z :=
  (A (detachstate t) (inheritsched t) (schedpolicy t) (scope t) (w64 (s32 v)) (stacksize t) (stack t) (param t), 0).
(* 323-340 *)
Definition setinheritsched (t : rattr) (v : Z) : rattr * Z :=
  if (v =? 1) || (v =? 0) then (A (detachstate t) v (schedpolicy t) (scope t) (guardsize t) (stacksize t) (stack t) (param t), 0) else (t, 95).
(* 355-363 *)
Definition setschedparam (t : rattr) (v : Z) : rattr * Z :=
  (A (detachstate t) (inheritsched t) (schedpolicy t) (scope t) (guardsize t) (stacksize t) (stack t) v, 0).
(* 375-392 *)
Definition setschedpolicy (t : rattr) (v : Z) : rattr * Z :=
  if (v =? 0) || (v =? 2) || (v =? 1) then (A (detachstate t) (inheritsched t) v (scope t) (guardsize t) (stacksize t) (stack t) (param t), 0) else (t, 95).
(* 404-421 *)
Definition setscope (t : rattr) (v : Z) : rattr * Z :=
  if (v =? 1) || (v =? 0) then (A (detachstate t) (inheritsched t) (schedpolicy t) v (guardsize t) (stacksize t) (stack t) (param t), 0) else (t, 95).
(* 434-450 *)
Definition setstack (t : rattr) (a n : Z) : rattr * Z :=
  if 65536 <=? s64 n then (A (detachstate t) (inheritsched t) (schedpolicy t) (scope t) (guardsize t) n a (param t), 0) else (t, 22).
(* 462-474 *)
Definition setstacksize (t : rattr) (n : Z) : rattr * Z :=
  if 65536 <=? s64 n then (A (detachstate t) (inheritsched t) (schedpolicy t) (scope t) (guardsize t) n (stack t) (param t), 0) else (t, 22).

Definition perform (t : rattr) (c : call) : rattr * Z :=
  match c with
  | SetDetach v => setdetachstate t v
  | SetGuard v => setguardsize t v
  | SetInherit v => setinheritsched t v
  | SetParam v => setschedparam t v
  | SetPolicy v => setschedpolicy t v
  | SetScope v => setscope t v
  | SetStack a n => setstack t a n
  | SetStacksize n => setstacksize t n
  end.
(* the latest call first *)
Fixpoint performed (page : Z) (h : list call) : rattr :=
  match h with [] => attr_init page | c :: h => fst (perform (performed page h) c) end.
(* the getters, 80-243 *)
Definition get (t : rattr) (x : attribute) : Z :=
  match x with
  | Detach => detachstate t | Guard => guardsize t | Inherit => inheritsched t | Param => param t
  | Policy => schedpolicy t | Scope => scope t | Stackaddr => stack t | Stacksize => stacksize t
  end.

(* What pthread::create did: its code (0 or an errno), the words written for the new thread, the
   stack pointer it was cloned with, the areas unmapped and the thread's flags, stack and size. *)
Record created := C { code : Z; words : list (Z * Z); sp : Z; unmapped : list (Z * Z); flags : Z; base : Z; size : Z }.
(* usize::next_multiple_of, wrapping as in release builds *)
Definition next_multiple_of (n page : Z) : Z := if n mod page =? 0 then n else w64 (n + (page - n mod page)).
(* 172-179 *)
Fixpoint push (sp : Z) (vs : list Z) (acc : list (Z * Z)) : Z * list (Z * Z) :=
  match vs with [] => (sp, acc) | v :: r => push (sp - 8) r ((sp - 8, v) :: acc) end.
(* mmap: the mapping made, -1 if refused; tcb: the new control block, None if there is none *)
Definition create (page : Z) (attrs : option rattr) (mmap : Z -> Z) (tcb : option Z) (clone : bool) (start arg mutex shim : Z) : res created :=
  let attrs := match attrs with Some a => a | None => attr_init page end in
  let n := next_multiple_of (stacksize attrs) page in
  let b := if negb (stack attrs =? 0) then stack attrs else mmap n in
  if (stack attrs =? 0) && (b =? -1) then Ok (C 11 [] 0 [] 0 0 0)
  else if negb ((detachstate attrs =? 0) || (detachstate attrs =? 1)) then Panic
  else
    let f := if detachstate attrs =? 0 then 1 else 0 in
    match tcb with
    | None => Ok (C 12 [] 0 [(b, n)] 0 0 0)
    | Some t =>
        let '(s, ws) := push (b + n) [0; 0; mutex; t; arg; start; shim] [] in
        if clone then Ok (C 0 ws s [] f b n) else Ok (C 11 ws s [(b, n)] f b n)
    end.
(* attr.rs 488-500 *)
Definition getattr_np (page : Z) (c : created) : rattr :=
  A (if negb (Z.land (flags c) 1 =? 0) then 0 else 1) 1 1 1 page (size c) (base c) 0.
