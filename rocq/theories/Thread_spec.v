(* What the users of threads promise, and when a thread has ended. *)
From Coq Require Import ZArith List Bool.
From Verif Require Import Conc Thread_model.
Import ListNotations.
Open Scope Z_scope.

(* A thread is joined or detached at most once, after its creation has returned and while
   it is not being cancelled; it is cancelled before that only.  [b]: threads are created
   detached, and the process does not call exit; or the other way round. *)
Definition allowed (b : bool) (s : tstate) (l : tid * tact) : Prop :=
  match snd l with
  | ACreate _ d _ => d = true -> b = true
  | AJoin u => u = fst l \/ (claimed s u = false /\ known s u = true /\ forall k, pc s k <> KLoad u /\ pc s k <> KKill u)
  | ADetach u => claimed s u = false /\ known s u = true /\ forall k, pc s k <> KLoad u /\ pc s k <> KKill u
  | ACancel u => claimed s u = false /\ known s u = true
  | ATerminate => b = false
  | _ => True
  end.
Inductive reached (b : bool) : tstate -> Prop :=
  | r_init : reached b t_init
  | r_step s l s' : reached b s -> allowed b s l -> t_exec s l = Some s' -> reached b s'.
(* past its last handler and its last use of the flags *)
Definition ended (p : pcs) : Prop := p = XWake \/ p = XStatus \/ p = Gone.
Definition joining (p : pcs) (u : tid) : Prop :=
  p = JLoad u \/ p = JWait u \/ p = JAsleep u \/ p = JRead u \/ (exists v, p = JRemove u v) \/ (exists v, p = JUnmap u v).
(* what the process can still come to *)
Inductive later (b : bool) (s : tstate) : tstate -> Prop :=
  | l_refl : later b s s
  | l_step s1 l s2 : later b s s1 -> allowed b s1 l -> t_exec s1 l = Some s2 -> later b s s2.
(* the steps of one thread *)
Fixpoint alone (t : tid) (n : nat) (s : tstate) : option tstate :=
  match n with 0%nat => Some s | S n' => match t_exec s (t, AStep) with Some s' => alone t n' s' | None => None end end.
(* nobody asks for the end of [u] *)
Inductive spared (u : tid) : tstate -> Prop :=
  | sp_init : spared u t_init
  | sp_step s l s' : spared u s -> snd l <> ACancel u -> snd l <> ATerminate -> t_exec s l = Some s' -> spared u s'.
(* a run in which every step meets [P] *)
Fixpoint follow (P : tstate -> tid * tact -> Prop) (s : tstate) (ls : list (tid * tact)) (s' : tstate) : Prop :=
  match ls with
  | [] => s' = s
  | l :: r => P s l /\ match t_exec s l with Some s1 => follow P s1 r s' | None => False end
  end.
