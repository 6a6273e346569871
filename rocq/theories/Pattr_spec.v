(* Thread attributes as POSIX has them: an attribute has the value last set, or its default. *)
From Verif Require Import Base.

(* the setters; sizes and addresses are below 2^64, the others are ints *)
Inductive call := SetDetach (v : Z) | SetGuard (v : Z) | SetInherit (v : Z) | SetParam (v : Z) | SetPolicy (v : Z)
  | SetScope (v : Z) | SetStack (a n : Z) | SetStacksize (n : Z).
Inductive attribute := Detach | Guard | Inherit | Param | Policy | Scope | Stackaddr | Stacksize.

(* PTHREAD_CREATE_DETACHED 0, PTHREAD_CREATE_JOINABLE 1, PTHREAD_EXPLICIT_SCHED 0,
   PTHREAD_INHERIT_SCHED 1, SCHED_FIFO 0, SCHED_RR 1, SCHED_OTHER 2, PTHREAD_SCOPE_PROCESS 0,
   PTHREAD_SCOPE_SYSTEM 1, PTHREAD_STACK_MIN 65536 *)
Definition accepted (c : call) : Prop :=
  match c with
  | SetDetach v | SetInherit v | SetScope v => v = 0 \/ v = 1
  | SetPolicy v => v = 0 \/ v = 1 \/ v = 2
  | SetGuard _ | SetParam _ => True
  | SetStack _ n | SetStacksize n => 65536 <= n < 9223372036854775808
  end.
(* the calls a C program can make *)
Definition well_typed (c : call) : Prop :=
  match c with
  | SetDetach v | SetInherit v | SetScope v | SetPolicy v | SetParam v => -2147483648 <= v < 2147483648
  | SetGuard v | SetStacksize v => 0 <= v < 18446744073709551616
  | SetStack a n => 0 <= a < 18446744073709551616 /\ 0 <= n < 18446744073709551616
  end.
(* what a call sets *)
Definition sets (c : call) (x : attribute) : option Z :=
  match c, x with
  | SetDetach v, Detach | SetGuard v, Guard | SetInherit v, Inherit | SetParam v, Param | SetPolicy v, Policy
  | SetScope v, Scope | SetStack v _, Stackaddr | SetStack _ v, Stacksize | SetStacksize v, Stacksize => Some v
  | _, _ => None
  end.
(* EINVAL 22, ENOTSUP 95 *)
Definition refusal (c : call) : Z := match c with SetDetach _ | SetStack _ _ | SetStacksize _ => 22 | _ => 95 end.
Definition default (page : Z) (x : attribute) : Z :=
  match x with Detach => 1 | Guard => page | Inherit => 1 | Param => 0 | Policy => 1 | Scope => 1 | Stackaddr => 0 | Stacksize => 1048576 end.

(* v is what x has after the calls h, the latest first *)
Inductive has (page : Z) (x : attribute) : list call -> Z -> Prop :=
| has_default : has page x [] (default page x)
| has_set c h v : accepted c -> sets c x = Some v -> has page x (c :: h) v
| has_other c h v : sets c x = None -> has page x h v -> has page x (c :: h) v
| has_refused c h v : ~ accepted c -> has page x h v -> has page x (c :: h) v.
