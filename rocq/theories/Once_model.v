(* Model of sync/once.rs (pthread_once, header/pthread/once.rs). *)
From Coq Require Import ZArith List Bool.
From Verif Require Import Conc Waituntil_model.
Import ListNotations.
Open Scope Z_scope.

(* /repo/src/sync/once.rs 10-13 *)
Definition UNINITIALIZED := 0.
Definition INITIALIZING := 1.
Definition WAITING := 2.
Definition INITIALIZED := 3.

(* /repo/src/sync/once.rs 73-77: attempt closure (a load). *)
Definition on_attempt (w : Z) (_ : bool) : Z * status :=
  (w, if w =? WAITING then Waiting else if w =? INITIALIZED then Desired else Other).

(* /repo/src/sync/once.rs 81-93: mark_long closure. *)
Definition on_mark_long (w : Z) (spur : bool) : Z * status :=
  let '(w', _, seen) := cas w INITIALIZING WAITING spur in
  (w', if seen =? WAITING then Waiting else if seen =? INITIALIZED then Desired else Other).

(* OIn: the constructor is running.  OStore: it returned and its value is
   written, the swap is to come.  OWaking: the futex_wake is to come.  ORead:
   about to read the cell (line 103).  ORet d: call_once returned what the cell
   held ([None]: uninitialised memory).  OPanic: the unreachable! arm. *)
Inductive opc := OIdle | OIn | OStore | OWaking | OWait (p : wpc) | ORead
  | ORet (d : option Z) | OPanic.

(* [data] is the cell; [runs] counts how often a constructor ran to its end
   (ghost). *)
Record ostate := OState { ostatus : Z; data : option Z; runs : nat; opcs : tid -> opc }.

(* /repo/src/sync/once.rs 37-42 *)
Definition on_init : ostate := OState UNINITIALIZED None 0 (fun _ => OIdle).

Inductive oact :=
| OCall               (* call_once *)
| OConstruct (v : Z)  (* the constructor returns v *)
| OStep (spur : bool)
| OSpurious.

Definition owake_all (f : tid -> opc) : tid -> opc :=
  fun u => match f u with OWait p => OWait (wu_wake p) | x => x end.

Definition ofin (p : wpc) : opc := match p with WDone => ORead | p => OWait p end.

(* /repo/src/sync/once.rs 43-104 call_once *)
Definition on_exec (s : ostate) (l : tid * oact) : option ostate :=
  let t := fst l in
  let go w p := Some (OState w (data s) (runs s) (setf (opcs s) t p)) in
  let call (_ : unit) :=
    let '(w', ok, seen) := cas (ostatus s) UNINITIALIZED INITIALIZING false in
    if ok : bool then go w' OIn
    else if (seen =? INITIALIZING) || (seen =? WAITING) then go w' (OWait (WSpin SPINS))
    else if seen =? INITIALIZED then go w' ORead
    else go w' OPanic in
  match opcs s t, snd l with
  | OIdle, OCall => call tt
  | ORet _, OCall => call tt
  | OIn, OConstruct v =>
      Some (OState (ostatus s) (Some v) (S (runs s)) (setf (opcs s) t OStore))
  | OStore, OStep _ => go INITIALIZED (if ostatus s =? WAITING then OWaking else ORead)
  | OWaking, OStep _ =>
      Some (OState (ostatus s) (data s) (runs s) (setf (owake_all (opcs s)) t ORead))
  | OWait WSleep, OSpurious => go (ostatus s) (OWait WRetry)
  | OWait p, OStep spur =>
      match wu_step on_attempt on_mark_long WAITING (ostatus s) p spur with
      | Some (w', p') => go w' (ofin p')
      | None => None
      end
  | ORead, OStep _ => go (ostatus s) (ORet (data s))
  | _, _ => None
  end.
