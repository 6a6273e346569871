(* Model of header/pthread/spin.rs. *)
From Coq Require Import ZArith List Bool.
From Verif Require Import Conc Waituntil_model.
Import ListNotations.
Open Scope Z_scope.

(* /repo/src/header/pthread/spin.rs 9-11, and EBUSY (header/errno) *)
Definition S_UNLOCKED := 0.
Definition S_LOCKED := 1.
Definition EBUSY := 16.

(* PSpin: inside pthread_spin_lock.  POwn: acquired.  PRet n: a call returned n
   without (or after giving up) the lock. *)
Inductive ppc := PSpin | POwn | PRet (n : Z).

Record pstate := PState { pword : Z; ppcs : tid -> ppc }.

(* spin.rs 51-66 pthread_spin_init *)
Definition sp_init : pstate := PState S_UNLOCKED (fun _ => PRet 0).

Inductive pact := PLock | PTry | PUnlock | PStep (spur : bool).

Definition sp_exec (s : pstate) (l : tid * pact) : option pstate :=
  let t := fst l in
  match ppcs s t, snd l with
  (* spin.rs 77-93 pthread_spin_lock *)
  | PRet _, PLock => Some (PState (pword s) (setf (ppcs s) t PSpin))
  | PSpin, PStep spur =>
      let '(w', ok, _) := cas (pword s) S_UNLOCKED S_LOCKED spur in
      Some (PState w' (setf (ppcs s) t (if ok : bool then POwn else PSpin)))
  (* spin.rs 103-115 pthread_spin_trylock *)
  | PRet _, PTry =>
      let '(w', ok, _) := cas (pword s) S_UNLOCKED S_LOCKED false in
      Some (PState w' (setf (ppcs s) t (if ok : bool then POwn else PRet EBUSY)))
  (* spin.rs 131-137 pthread_spin_unlock *)
  | POwn, PUnlock => Some (PState S_UNLOCKED (setf (ppcs s) t (PRet 0)))
  | _, _ => None
  end.
