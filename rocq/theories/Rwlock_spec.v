(* Independent vocabulary for read-write locks (C33). *)
From Coq Require Import ZArith List Bool.
From Verif Require Import Conc Rwlock_model.
Import ListNotations.
Open Scope Z_scope.

(* Who holds the lock: a holder is inside until the step of unlock that gives it up. *)
Inductive cls := Out | Reads | Writes.
Definition class (p : rpc) : cls :=
  match p with
  | RRead | ULoad false | USub => Reads
  | RWrite | ULoad true | UStore => Writes
  | _ => Out
  end.

(* Nobody holds the lock. *)
Definition free (s : rwstate) : Prop := forall u, class (rpcs s u) = Out.

Definition asleep (p : rpc) : Prop := match p with WSleep _ _ | RSleep _ => True | _ => False end.

(* Inside pthread_rwlock_trywrlock / tryrdlock. *)
Definition in_trywr (p : rpc) : Prop := match p with TLoad | TCas _ => True | _ => False end.
Definition in_tryrd (p : rpc) : Prop := match p with RLoad RTry | RCas RTry _ => True | _ => False end.
(* Inside a waiting pthread_rwlock_wrlock / rdlock (timed or not). *)
Definition in_wrlock (p : rpc) : Prop :=
  match p with WLoad _ | WCas _ _ | WOr _ _ | WFutex _ _ | WSleep _ _ => True | _ => False end.
Definition in_rdlock (p : rpc) : Prop :=
  match p with RLoad (RWait _) | RCas (RWait _) _ | RFutex _ _ | RSleep _ => True | _ => False end.

(* [t] gets to [p] by ordinary steps alone: no new calls, no spurious wake-ups
   or failures, no timeouts. *)
Definition gets (s : rwstate) (t : tid) (p : rpc) : Prop :=
  exists ls s', run rw_exec s ls = Some s' /\ rpcs s' t = p /\
    Forall (fun l => snd l = RStep false) ls.
