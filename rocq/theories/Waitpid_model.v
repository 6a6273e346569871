(* waitpid: /repo/src/platform/redox/mod.rs 1746-1807, /repo/redox-rt/src/sys.rs 29-49 (wrapper), 343-375;
   the macros of /repo/src/header/sys_wait/cbindgen.toml 13-29.  Not of /repo are the numbers of WaitFlags and wifstopped
   (redox_protocols; taken to be those of the header) and the process manager, whose part is described
   by `call` below.  Sessions of ptrace (the code is commented out, 1762-1781) are left out. *)
From Verif Require Import Base.

Definition WNOHANG : Z := 1.
Definition WUNTRACED : Z := 2.
Definition WCONTINUED : Z := 8.
Definition EINVAL : Z := 22.
Definition ECHILD : Z := 10.
Definition EINTR : Z := 4.

(* The process manager, an assumption: what the children did last and has not been reported; a child whose end
   has been reported is gone. *)
Inductive state := Exited (code : Z) | Killed (sig : Z) (core : bool) | Stopped (sig : Z) | Continued.
Definition ended (s : state) : bool := match s with Exited _ | Killed _ _ => true | _ => false end.
Record child := Child { pid : Z; pgid : Z; report : option state }.
(* how it writes a state as a number *)
Definition encode (s : state) : Z :=
  match s with
  | Exited c => c mod 256 * 256
  | Killed s core => s + (if core then 128 else 0)
  | Stopped s => s * 256 + 127
  | Continued => 65535
  end.
(* what happens while the call waits: a child changes its state, a handler is to run (for one with SA_RESTART: true) *)
Inductive happening := Change (p : Z) (s : state) | Interrupt (restart : bool).
Definition change (w : list child) (p : Z) (s : state) : list child :=
  map (fun c => if (pid c =? p) && negb (match report c with Some r => ended r | None => false end) then Child (pid c) (pgid c) (Some s) else c) w.
Inductive target := Proc (p : Z) | Group (g : Z).   (* 0: every child, the caller's group *)
Definition hits (own : Z) (t : target) (c : child) : bool :=
  match t with
  | Proc p => (p =? 0) || (pid c =? p)
  | Group g => pgid c =? (if g =? 0 then own else g)
  end.
Definition asked (flags : Z) (s : state) : bool :=
  match s with Stopped _ => Z.testbit flags 1 | Continued => Z.testbit flags 3 | _ => true end.
Fixpoint pick (own : Z) (t : target) (flags : Z) (w : list child) : option (list child * Z * state) :=
  match w with
  | [] => None
  | c :: w =>
      match (if hits own t c then report c else None) with
      | Some s =>
          if asked flags s then Some (if ended s then w else Child (pid c) (pgid c) None :: w, pid c, s)
          else match pick own t flags w with Some (w, p, s) => Some (c :: w, p, s) | None => None end
      | None => match pick own t flags w with Some (w, p, s) => Some (c :: w, p, s) | None => None end
      end
  end.
Inductive answer :=
| Reported (w : list child) (tr : list happening) (p : Z) (s : state)
| Zero (w : list child) (tr : list happening)
| Failed (w : list child) (tr : list happening) (e : Z)
| Interrupted (w : list child) (tr : list happening) (restart : bool)
| Blocked.
Fixpoint call (own : Z) (t : target) (flags : Z) (w : list child) (tr : list happening) : answer :=
  match pick own t flags w with
  | Some (w, p, s) => Reported w tr p s
  | None =>
      if existsb (hits own t) w then
        if Z.testbit flags 0 then Zero w tr
        else
          match tr with
          | [] => Blocked
          | Change p s :: tr => call own t flags (change w p s) tr
          | Interrupt r :: tr => Interrupted w tr r
          end
      else Failed w tr ECHILD
  end.

(* sys.rs 350-369 *)
Definition target_of (raw : Z) : target :=
  if raw =? 0 then Group 0 else if raw =? -1 then Proc 0 else if 1 <=? raw then Proc raw else Group (- raw).

Inductive outcome :=
| Ret (w : list child) (tr : list happening) (r : Z + Z) (status : Z)
| Waits      (* blocked, with nothing more to come *)
| NoFuel.
(* sys_waitpid (363-375) in wrapper(true, false, ..): the status is written when a child is reported *)
Fixpoint sys_waitpid (fuel : nat) (own : Z) (t : target) (flags : Z) (w : list child) (tr : list happening) (status : Z) : outcome :=
  match fuel with
  | O => NoFuel
  | S fuel =>
      match call own t flags w tr with
      | Reported w tr p s => Ret w tr (inl p) (encode s)
      | Zero w tr => Ret w tr (inl 0) status
      | Failed w tr e => Ret w tr (inr e) status
      | Interrupted w tr r => if r then sys_waitpid fuel own t flags w tr status else Ret w tr (inr EINTR) status
      | Blocked => Waits
      end
  end.
Definition wifstopped (status : Z) : bool := Z.land status 255 =? 127.
(* 1787-1799 *)
Fixpoint loop (fuel : nat) (own : Z) (traceme : bool) (arg options : Z) (w : list child) (tr : list happening) (status : Z) : outcome :=
  match fuel with
  | O => NoFuel
  | S n =>
      match sys_waitpid fuel own (target_of arg) (Z.lor options WUNTRACED) w tr status with
      | Ret w tr r status =>
          if negb (wifstopped status) || Z.testbit options 1 || traceme then Ret w tr r status
          else loop n own traceme arg options w tr status
      | o => o
      end
  end.
(* stat_loc receives the status given back, whatever the result (1801-1804), except for EINVAL *)
Definition waitpid (fuel : nat) (own : Z) (traceme : bool) (w : list child) (tr : list happening) (arg options : Z) : outcome :=
  if (options <? 0) || negb (Z.land options (Z.lnot 11) =? 0) then Ret w tr (inr EINVAL) 0
  else loop fuel own traceme arg options w tr 0.

(* the macros *)
Definition WEXITSTATUS (s : Z) : Z := Z.land (Z.shiftr s 8) 255.
Definition WTERMSIG (s : Z) : Z := Z.land s 127.
Definition WSTOPSIG (s : Z) : Z := WEXITSTATUS s.
Definition WCOREDUMP (s : Z) : bool := negb (Z.land s 128 =? 0).
Definition WIFEXITED (s : Z) : bool := Z.land s 127 =? 0.
Definition WIFSTOPPED (s : Z) : bool := Z.land s 255 =? 127.
Definition WIFSIGNALED (s : Z) : bool := 2 <=? Z.land ((Z.land s 127 + 1) mod 2 ^ 32) 127.
Definition WIFCONTINUED (s : Z) : bool := s =? 65535.
