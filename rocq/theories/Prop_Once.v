(* C35: pthread_once / Once::call_once. *)
From Coq Require Import ZArith List Bool.
From Verif Require Import Conc Waituntil_model Once_model Once_proofs.
Import ListNotations.
Open Scope Z_scope.

(* However many calls there are, the init routine runs at most once. *)
Theorem C35_runs_at_most_once : forall s, reachable on_exec on_init s -> (runs s <= 1)%nat.
Proof. exact once_runs. Qed.
Print Assumptions C35_runs_at_most_once.

(* A call that returned did so after the (one) run of the init routine was
   complete, none is running, and it returned the value that run produced. *)
Theorem C35_returns_after_completion : forall s t d, reachable on_exec on_init s ->
  opcs s t = ORet d ->
  runs s = 1%nat /\ (forall u, opcs s u <> OIn) /\ exists v, d = Some v /\ data s = Some v.
Proof. exact once_returned. Qed.
Print Assumptions C35_returns_after_completion.

(* All calls, whenever they return, return the same value. *)
Theorem C35_one_value : forall s t v ls s' u d, reachable on_exec on_init s ->
  opcs s t = ORet (Some v) -> run on_exec s ls = Some s' -> opcs s' u = ORet d -> d = Some v.
Proof. exact once_value_fixed. Qed.
Print Assumptions C35_one_value.

(* Unless the init routine is still running, every call in progress can return by
   steps of threads already inside call_once, without any spurious wake-up. *)
Theorem C35_no_call_is_stranded : forall s t, reachable on_exec on_init s ->
  (forall u, opcs s u <> OIn) -> in_call (opcs s t) -> returns s t.
Proof. exact once_progress. Qed.
Print Assumptions C35_no_call_is_stranded.

(* The unreachable! arm is. *)
Theorem C35_never_panics : forall s t, reachable on_exec on_init s -> opcs s t <> OPanic.
Proof. exact once_no_panic. Qed.
Print Assumptions C35_never_panics.

Definition C35_trace : list (tid * oact) :=
  [(1, OCall); (2, OCall)] ++ repeat (2, OStep false) 1002 ++
  [(1, OConstruct 7); (1, OStep false)].

(* Thread 2 fell asleep while thread 1 ran the routine; thread 1 has published
   and is about to wake it; after the wake both return 7. *)
Example C35_case :
  match run on_exec on_init C35_trace with
  | Some s => opcs s 1 = OWaking /\ opcs s 2 = OWait WSleep /\ runs s = 1%nat
  | None => False
  end /\
  match run on_exec on_init (C35_trace ++
      [(1, OStep false); (2, OStep false); (2, OStep false); (1, OStep false); (3, OCall); (3, OStep false)]) with
  | Some s => opcs s 1 = ORet (Some 7) /\ opcs s 2 = ORet (Some 7) /\ opcs s 3 = ORet (Some 7)
  | None => False
  end.
Proof. vm_compute. repeat split; reflexivity. Qed.
