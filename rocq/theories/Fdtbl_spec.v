(* What POSIX says about allocating, duplicating and closing descriptors. *)
From Coq Require Import ZArith List Bool.
Import ListNotations.

(* The calls a program makes.  What opening a file gives is outside: the open file or an
   errno value.  ce: close-on-exec is asked for. *)
Inductive op :=
| Open (f : Z + Z) (ce : bool)
| Dup (fd : nat)
| Dup2 (a b : nat)
| DupFd (fd min : nat) (ce : bool)      (* fcntl F_DUPFD, F_DUPFD_CLOEXEC *)
| Close (fd : nat)
| GetFd (fd : nat)                      (* fcntl F_GETFD: is close-on-exec set *)
| SetFd (fd : nat) (ce : bool)          (* fcntl F_SETFD *)
| Pipe (f : Z * Z + Z) (ce : bool).     (* pipe2 *)
Inductive answer := Fd (n : nat) | Fds (a b : nat) | Flag (ce : bool) | Done | Err (e : Z).

(* the descriptors of a process: open file and close-on-exec flag *)
Definition fds := nat -> option (Z * bool).
Definition updated (t t' : fds) (fd : nat) (x : option (Z * bool)) : Prop :=
  t' fd = x /\ forall k, k <> fd -> t' k = t k.
Definition same (t t' : fds) : Prop := forall k, t' k = t k.
(* the lowest that is not below min and not open *)
Definition lowest (t : fds) (min k : nat) : Prop :=
  (min <= k)%nat /\ t k = None /\ forall i, (min <= i < k)%nat -> t i <> None.

Inductive does (t : fds) : op -> answer -> fds -> Prop :=
| D_open : forall f ce k t', lowest t 0 k -> updated t t' k (Some (f, ce)) -> does t (Open (inl f) ce) (Fd k) t'
| D_open_fails : forall e ce t', same t t' -> does t (Open (inr e) ce) (Err e) t'
| D_dup : forall fd f b k t', t fd = Some (f, b) -> lowest t 0 k -> updated t t' k (Some (f, false)) -> does t (Dup fd) (Fd k) t'
| D_dup_bad : forall fd t', t fd = None -> same t t' -> does t (Dup fd) (Err 9) t'
| D_dup2 : forall a b f c t', t a = Some (f, c) -> a <> b -> updated t t' b (Some (f, false)) -> does t (Dup2 a b) (Fd b) t'
| D_dup2_same : forall a x t', t a = Some x -> same t t' -> does t (Dup2 a a) (Fd a) t'
| D_dup2_bad : forall a b t', t a = None -> same t t' -> does t (Dup2 a b) (Err 9) t'
| D_dupfd : forall fd min ce f b k t', t fd = Some (f, b) -> lowest t min k -> updated t t' k (Some (f, ce)) -> does t (DupFd fd min ce) (Fd k) t'
| D_dupfd_bad : forall fd min ce t', t fd = None -> same t t' -> does t (DupFd fd min ce) (Err 9) t'
| D_close : forall fd x t', t fd = Some x -> updated t t' fd None -> does t (Close fd) Done t'
| D_close_bad : forall fd t', t fd = None -> same t t' -> does t (Close fd) (Err 9) t'
| D_getfd : forall fd f b t', t fd = Some (f, b) -> same t t' -> does t (GetFd fd) (Flag b) t'
| D_getfd_bad : forall fd t', t fd = None -> same t t' -> does t (GetFd fd) (Err 9) t'
| D_setfd : forall fd f b ce t', t fd = Some (f, b) -> updated t t' fd (Some (f, ce)) -> does t (SetFd fd ce) Done t'
| D_setfd_bad : forall fd ce t', t fd = None -> same t t' -> does t (SetFd fd ce) (Err 9) t'
| D_pipe : forall r w ce k1 k2 t1 t', lowest t 0 k1 -> updated t t1 k1 (Some (r, ce)) -> lowest t1 0 k2 ->
    updated t1 t' k2 (Some (w, ce)) -> does t (Pipe (inl (r, w)) ce) (Fds k1 k2) t'
| D_pipe_fails : forall e ce t', same t t' -> does t (Pipe (inr e) ce) (Err e) t'.

(* a run of calls, each of them in ok *)
Inductive runs (ok : fds -> op -> Prop) : fds -> list op -> list answer -> fds -> Prop :=
| R_end : forall t t', same t t' -> runs ok t [] [] t'
| R_call : forall t o a t1 ops l t', ok t o -> does t o a t1 -> runs ok t1 ops l t' -> runs ok t (o :: ops) (a :: l) t'.

(* after exec *)
Definition kept (t : fds) (k : nat) : option Z := match t k with Some (f, false) => Some f | _ => None end.
