(* What POSIX says about posix_spawn. *)
From Coq Require Import ZArith List Bool.
From Verif Require Import Base.
Import ListNotations.
Open Scope Z_scope.

(* file actions as they were asked for *)
Inductive act :=
| AOpen (fd : Z) (path : list Z) (flag mode : Z)
| AClose (fd : Z)
| AChdir (path : list Z)
| AFchdir (fd : Z)
| ADup2 (old new : Z).

(* a process: open file and close-on-exec flag of each descriptor, working directory *)
Definition fds := Z -> option (Z * bool).
Definition updated (t t' : fds) (fd : Z) (x : option (Z * bool)) : Prop :=
  t' fd = x /\ forall k, k <> fd -> t' k = t k.

Section Acts.
Variable openat : list Z -> list Z -> Z -> Z -> Z + Z.
Variable fpath : Z -> Z + list Z.
Variable cloexec : Z -> bool.   (* O_CLOEXEC is among the flags *)

(* the working directory after chdir *)
Definition resolve (cwd path : list Z) : list Z :=
  match path with 47 :: _ => path | _ => cwd ++ 47 :: path end.

(* the child performs the actions one after the other *)
Inductive acts : list act -> fds -> list Z -> fds -> list Z -> Prop :=
| A_end : forall t t' c, (forall k, t k = t' k) -> acts [] t c t' c
| A_open : forall fd p fl md f r t t1 t' c c', openat c p fl md = inl f ->
    updated t t1 fd (Some (f, cloexec fl)) -> acts r t1 c t' c' -> acts (AOpen fd p fl md :: r) t c t' c'
| A_close : forall fd x r t t1 t' c c', t fd = Some x -> updated t t1 fd None -> acts r t1 c t' c' -> acts (AClose fd :: r) t c t' c'
| A_chdir : forall p r t t' c c', acts r t (resolve c p) t' c' -> acts (AChdir p :: r) t c t' c'
| A_fchdir : forall fd f b d r t t' c c', t fd = Some (f, b) -> fpath f = inr d -> acts r t d t' c' -> acts (AFchdir fd :: r) t c t' c'
| A_dup2 : forall old new f b r t t1 t' c c', t old = Some (f, b) ->
    updated t t1 new (Some (f, false)) -> acts r t1 c t' c' -> acts (ADup2 old new :: r) t c t' c'.
End Acts.

(* then exec closes what is marked *)
Definition execs (t t' : fds) : Prop :=
  forall fd, match t fd with Some (f, false) => exists b, t' fd = Some (f, b) | _ => t' fd = None end.

(* the attributes asked for, and what they make of a child *)
Record request := Rq { r_reset : bool; r_group : option Z; r_default : option Z; r_mask : option Z; r_prio : option Z }.
Definition child_mask (r : request) (mask : Z) : Z := match r_mask r with Some m => m | None => mask end.
Definition child_ignored (r : request) (ign : Z) : Z := match r_default r with Some d => Z.land ign (Z.lnot d) | None => ign end.
Definition child_group (r : request) (pid group : Z) : Z :=
  match r_group r with Some 0 => pid | Some g => g | None => group end.
(* an effective id: of the file with set-id bit, the real id, or the caller's *)
Definition child_id (r : request) (setid : bool) (owner real effective : Z) : Z :=
  if setid then owner else if r_reset r then real else effective.
