(* Functions the program registers to be run at fork (C75), when a thread ends (C76) and at exit or dlclose (C77).
   Functions are named by numbers. *)
From Coq Require Import ZArith List Bool.
From Verif Require Import Base.
Import ListNotations.
Open Scope Z_scope.

(** * pthread_atfork and fork *)

(** src/header/pthread/mod.rs 96-97: #[thread_local] fork_hooks: [LinkedList; 3] of every thread *)
Record fhooks := FH { fh0 : list Z; fh1 : list Z; fh2 : list Z }.
Definition fstate := Z -> fhooks.
Definition f_init : fstate := fun _ => FH [] [] [].

(** push_back of Some hook *)
Definition push_hook (l : list Z) (h : option Z) : list Z :=
  match h with Some f => l ++ [f] | None => l end.
(** src/header/pthread/mod.rs 144-166 pthread_atfork, called by thread t *)
Definition atfork (s : fstate) (t : Z) (pre par chi : option Z) : fstate :=
  fun u => if u =? t then FH (push_hook (fh0 (s t)) pre) (push_hook (fh1 (s t)) par) (push_hook (fh2 (s t)) chi) else s u.

(** what Sys::fork does: the parent's copy and, unless it failed, the child's *)
Inductive forked := FFail | FOk.
(** src/header/unistd/mod.rs 466-481 fork, called by thread t: the functions run in the parent before and after Sys::fork, and in the child *)
Definition do_fork (s : fstate) (t : Z) (r : forked) : list Z * list Z * option (list Z) :=
  match r with
  | FFail => (fh0 (s t), [], None)
  | FOk => (fh0 (s t), fh1 (s t), Some (fh2 (s t)))
  end.

(** * pthread_cleanup_push and pthread_cleanup_pop *)

(** A thread's program, as far as clean-up handlers go: Push p r a is pthread_cleanup_push(r, a) with the
    list entry of the macro (src/header/pthread/cbindgen.toml 23-36) at address p; Pop e is pthread_cleanup_pop(e);
    Test a cancellation point. *)
Inductive cop := Push (p r a : Z) | Pop (e : bool) | Test.
(** head: CLEANUP_LL_HEAD; node: the CleanupLinkedListEntry (routine, arg, prev) at an address;
    dtors: DTORS of src/cxa.rs, newest first; clog: the calls made, newest first *)
Record cstate := CS { chead : Z; cnode : Z -> option (Z * Z * Z); clog : list (Z * Z) }.
Definition c_init : cstate := CS 0 (fun _ => None) [].
Definition called (s : cstate) (r a : Z) : cstate := CS (chead s) (cnode s) ((r, a) :: clog s).

(** src/header/pthread/mod.rs 332-338 __relibc_internal_pthread_cleanup_push, after the macro has filled routine and arg *)
Definition c_push (s : cstate) (p r a : Z) : cstate :=
  CS p (fun q => if q =? p then Some (r, a, chead s) else cnode s q) (clog s).

Inductive ctask := Prog (l : list cop) | Walk (ptr : Z).
Section cleanup.
(** body r a: what the handler r does when called with a; pend: a cancellation request is pending and
    cancellation is enabled (src/pthread/mod.rs 370-380 testcancel) *)
Variable body : Z -> Z -> list cop.
Variable pend : bool.
(** Result true: the thread has exited.
    Prog: the calls of a program.  Pop is src/header/pthread/mod.rs 339-346.
    Walk: the loop of run_destructor_stack, 351-358, which ends with the thread
    (__cxa_thread_finalize, 349, is modelled apart). *)
Fixpoint c_exec (fuel : nat) (s : cstate) (k : ctask) {struct fuel} : res (cstate * bool) :=
  match fuel with
  | O => OutOfFuel
  | S fuel =>
    match k with
    | Prog [] => Ok (s, false)
    | Prog (Push p r a :: l) => c_exec fuel (c_push s p r a) (Prog l)
    | Prog (Pop e :: l) =>
      match cnode s (chead s) with
      | None => Fault
      | Some (r, a, prev) =>
        let s := CS prev (cnode s) (clog s) in
        if e then
          ' (s, ex) <- c_exec fuel (called s r a) (Prog (body r a)) ;;
          if ex : bool then Ok (s, true) else c_exec fuel s (Prog l)
        else c_exec fuel s (Prog l)
      end
    | Prog (Test :: l) => if pend then c_exec fuel s (Walk (chead s)) else c_exec fuel s (Prog l)
    | Walk ptr =>
      if ptr =? 0 then Ok (s, true) else
      match cnode s ptr with
      | None => Fault
      | Some (r, a, prev) =>
        ' (s, ex) <- c_exec fuel (called s r a) (Prog (body r a)) ;;
        if ex : bool then Ok (s, true) else c_exec fuel s (Walk prev)
      end
    end
  end.

(** A thread that runs l and then calls pthread_exit (or returns from its start routine):
    src/pthread/mod.rs 298-302 exit_current_thread runs run_destructor_stack *)
Definition c_thread (fuel : nat) (l : list cop) : res cstate :=
  ' (s, ex) <- c_exec fuel c_init (Prog l) ;;
  if ex : bool then Ok s else ' (s, _) <- c_exec fuel s (Walk (chead s)) ;; Ok s.
End cleanup.

(** * __cxa_atexit and __cxa_finalize, src/cxa.rs *)

(** CxaAtExitFunc *)
Record xfunc := XF { xf : Z; xarg : Z; xdso : Z }.
Definition xslots := list (option xfunc).
(** 37-52: the first empty slot, or a new one *)
Fixpoint x_put (l : xslots) (e : xfunc) : xslots :=
  match l with
  | [] => [Some e]
  | None :: t => Some e :: t
  | s :: t => s :: x_put t e
  end.
(** 25-53 __cxa_atexit; func None is accepted and ignored *)
Definition x_atexit (l : xslots) (func : option Z) (arg dso : Z) : xslots :=
  match func with None => l | Some f => x_put l (XF f arg dso) end.
(** 57-66: one slot of the loop, which goes backwards (so the slots of the tail come first): the slot left, and the calls *)
Definition x_hit (dso : Z) (e : xfunc) : bool := (dso =? 0) || (xdso e =? dso).
Fixpoint x_loop (dso : Z) (l : xslots) : xslots * list (Z * Z) :=
  match l with
  | [] => ([], [])
  | o :: t =>
    let (t, calls) := x_loop dso t in
    match o with
    | Some e => if x_hit dso e then (None :: t, calls ++ [(xf e, xarg e)]) else (o :: t, calls)
    | None => (o :: t, calls)
    end
  end.
(** 69-73 *)
Definition is_some (o : option xfunc) : bool := match o with Some _ => true | None => false end.
Definition x_finalize (dso : Z) (l : xslots) : xslots * list (Z * Z) :=
  let (l, calls) := x_loop dso l in
  (if dso =? 0 then [] else filter is_some l, calls).

(** The calls of a program; result of each Finalize: the functions called.
    A function that itself calls __cxa_atexit or __cxa_finalize spins for ever on CXA_ATEXIT_FUNCS
    (locked during the loop, 57): [deadlock] *)
Inductive xop := XReg (func : option Z) (arg dso : Z) | XFin (dso : Z).
Section cxa.
(** calls_cxa f a: f(a) calls __cxa_atexit or __cxa_finalize *)
Variable calls_cxa : Z -> Z -> bool.
(** None: spins for ever *)
Fixpoint x_run (l : xslots) (ops : list xop) : option (list (list (Z * Z))) :=
  match ops with
  | [] => Some []
  | XReg f a d :: ops => x_run (x_atexit l f a d) ops
  | XFin d :: ops =>
    let (l, calls) := x_finalize d l in
    if existsb (fun c => calls_cxa (fst c) (snd c)) calls then None else
    match x_run l ops with Some r => Some (calls :: r) | None => None end
  end.
End cxa.

(** * __cxa_thread_atexit_impl and __cxa_thread_finalize, src/cxa.rs 77-93: DTORS of one thread, newest first.
    body o: the destructors that destructor o registers, in order; [Panic]: the RefCell DTORS is borrowed during the loop *)
Fixpoint t_finalize (body : Z -> list Z) (dtors : list Z) : res (list Z) :=
  match dtors with
  | [] => Ok []
  | d :: t => match body d with [] => r <- t_finalize body t ;; Ok (d :: r) | _ => Panic end
  end.
Definition t_thread (body : Z -> list Z) (regs : list Z) : res (list Z) := t_finalize body (rev regs).
