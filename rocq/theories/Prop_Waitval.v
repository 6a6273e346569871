(* C36: the one-shot hand-off behind pthread_join. *)
From Coq Require Import ZArith List Bool.
From Verif Require Import Conc Waitval_model Waitval_proofs.
Import ListNotations.
Open Scope Z_scope.

(* A wait that returned, returned the argument of a post made before it. *)
Theorem C36_value : forall ls s t d, run wv_exec wv_init ls = Some s -> vpcs s t = WGot d ->
  exists v, d = Some v /\ exists u, In (u, VPost v) ls.
Proof. exact waitval_value. Qed.
Print Assumptions C36_value.

(* There is only one posted value, so that is the value. *)
Theorem C36_one_post : forall ls s t u v w, run wv_exec wv_init ls = Some s ->
  In (t, VPost v) ls -> In (u, VPost w) ls -> v = w.
Proof. exact waitval_once. Qed.
Print Assumptions C36_one_post.

(* Once post has been called, every waiter, asleep or not, can return with the
   value by steps of the poster and itself, without a spurious wake-up. *)
Theorem C36_no_waiter_is_stranded : forall ls s t u v, run wv_exec wv_init ls = Some s ->
  In (u, VPost v) ls -> in_wait (vpcs s t) -> gets s t v.
Proof.
  exact (fun ls s t u v E K W =>
    waitval_progress s t v (ex_intro _ ls E)
      (proj2 (posted_by ls s v E) (ex_intro _ u K)) W).
Qed.
Print Assumptions C36_no_waiter_is_stranded.

(* Thread 1 and 2 wait, 1 falls asleep, 2 is about to; 3 posts 42. *)
Example C36_case :
  match run wv_exec wv_init
    [(1, VWait); (1, VStep); (1, VStep); (2, VWait); (2, VStep); (3, VPost 42); (3, VStep)] with
  | Some s => vpcs s 1 = WAsleep /\ vpcs s 2 = WWait /\ in_wait (vpcs s 1)
  | None => False
  end /\
  match run wv_exec wv_init
    [(1, VWait); (1, VStep); (1, VStep); (2, VWait); (2, VStep); (3, VPost 42); (3, VStep);
     (2, VStep); (2, VStep); (2, VStep); (3, VStep); (1, VStep); (1, VStep)] with
  | Some s => vpcs s 1 = WGot (Some 42) /\ vpcs s 2 = WGot (Some 42)
  | None => False
  end.
Proof. vm_compute. repeat split; auto. Qed.
