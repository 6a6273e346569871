(* Model of sync/waitval.rs (the hand-off used by pthread_join). *)
From Coq Require Import ZArith List Bool.
From Verif Require Import Conc.
Import ListNotations.
Open Scope Z_scope.

(* PWritten: post wrote the value, the store of 1 is to come.  PWake: the
   futex_wake is to come.  WLoad: at the loop condition.  WWait: about to call
   futex_wait.  WAsleep: asleep in it.  WRead: about to read the cell.  WGot d:
   wait returned what the cell held ([None]: uninitialised memory). *)
Inductive vpc := VIdle | PWritten | PWake | PDone | WLoad | WWait | WAsleep | WRead
  | WGot (d : option Z).

(* [posted] is a ghost: the argument of post once it has been called. *)
Record vstate := VState { vword : Z; cell : option Z; posted : option Z; vpcs : tid -> vpc }.

(* /repo/src/sync/waitval.rs 20-25 *)
Definition wv_init : vstate := VState 0 None None (fun _ => VIdle).

Inductive vact := VPost (v : Z) | VWait | VStep | VSpurious.

Definition vwake_all (f : tid -> vpc) : tid -> vpc :=
  fun u => match f u with WAsleep => WLoad | x => x end.

Definition wv_exec (s : vstate) (l : tid * vact) : option vstate :=
  let t := fst l in
  let go w p := Some (VState w (cell s) (posted s) (setf (vpcs s) t p)) in
  match vpcs s t, snd l with
  (* /repo/src/sync/waitval.rs 29-33 post; its contract (27-28): called once *)
  | VIdle, VPost v =>
      match posted s with
      | None => Some (VState (vword s) (Some v) (Some v) (setf (vpcs s) t PWritten))
      | Some _ => None
      end
  | PWritten, VStep => go 1 PWake
  | PWake, VStep =>
      Some (VState (vword s) (cell s) (posted s) (setf (vwake_all (vpcs s)) t PDone))
  (* /repo/src/sync/waitval.rs 35-41 wait *)
  | VIdle, VWait => go (vword s) WLoad
  | WGot _, VWait => go (vword s) WLoad
  | WLoad, VStep => go (vword s) (if vword s =? 0 then WWait else WRead)
  | WWait, VStep => go (vword s) (if vword s =? 0 then WAsleep else WLoad)
  | WAsleep, VSpurious => go (vword s) WLoad
  | WRead, VStep => go (vword s) (WGot (cell s))
  | _, _ => None
  end.
