(** C23: exit handlers.  Theorems only; lemmas are in Exit_proofs.v. *)
From Verif Require Import Base Exit_model Exit_proofs.

(** The first 32 registrations succeed and all later ones fail. *)
Theorem C23_atexit_results : forall fs,
  snd (register_all empty_table fs) = repeat 0 (min 32 (length fs)) ++ repeat 1 (length fs - 32).
Proof. exact atexit_results. Qed.
Print Assumptions C23_atexit_results.

(** Full statement: handlers registered while exit runs are called too.
    Proved: the handlers registered (successfully) before exit run exactly once per
    registration, in reverse order, whatever the handlers register themselves. *)
Theorem C23_exit_partial : forall fs body,
  fst (exit (fst (register_all empty_table fs)) body) = rev (firstn 32 fs).
Proof. exact exit_ok. Qed.
Print Assumptions C23_exit_partial.

(** quick_exit and at_quick_exit use a table of their own in the same way. *)
Theorem C23_quick_exit_partial : forall fs body,
  fst (quick_exit (fst (register_all empty_table fs)) body) = rev (firstn 32 fs).
Proof. exact exit_ok. Qed.
Print Assumptions C23_quick_exit_partial.

(** Handler 1 registers handler 2 (successfully) while exit is running; 2 never runs. *)
Theorem C23_exit_refuted :
  let body := fun (_ : list Z) f => if f =? 1 then [2] else [] in
  exit (fst (register_all empty_table [5; 1])) body = ([1; 5], [(2, 0)]).
Proof. vm_compute. reflexivity. Qed.
Print Assumptions C23_exit_refuted.

Example C23_case : fst (exit (fst (register_all empty_table [7; 8; 7])) (fun _ _ => [])) = [7; 8; 7] /\
  fst (exit (fst (register_all empty_table [7; 8; 9])) (fun _ _ => [])) = [9; 8; 7].
Proof. vm_compute. auto. Qed.
