(* C71: creation and joining of threads.  C72: what they hold.  C73: cancellation. *)
From Coq Require Import ZArith List Bool Lia.
From Verif Require Import Conc Thread_model Thread_spec Thread_proofs.
Import ListNotations.
Open Scope Z_scope.

(* C71.  A thread whose creation has returned runs. *)
Theorem C71_create : forall b s t u, reached b s -> res s t = Created u -> started s u = true /\ pc s u <> NotYet.
Proof. exact create_started. Qed.
Print Assumptions C71_create.
Theorem C71_create_progress : forall b s t u, reached b s -> pc s t = CWait u ->
  exists n s1 s2, (n <= 1)%nat /\ alone u n s = Some s1 /\ alone t 2 s1 = Some s2 /\ pc s2 t = Running /\ res s2 t = Created u.
Proof. exact create_progress. Qed.
Print Assumptions C71_create_progress.
(* Joining returns when the thread has ended, with the value it ended with ... *)
Theorem C71_join_value : forall b s t u c, reached b s -> res s t = Joined u c -> exists v, c = Some v /\ ret s u = Some v /\ ended (pc s u).
Proof. exact join_value. Qed.
Print Assumptions C71_join_value.
(* ... which is the one it gave to pthread_exit. *)
Theorem C71_exit_value : forall b s u v s1 s2 t c,
  reached b s -> t_exec s (u, AExit v) = Some s1 -> later b s1 s2 -> res s2 t = Joined u c -> c = Some v.
Proof. exact exit_value. Qed.
Print Assumptions C71_exit_value.
(* No wake-up is lost: once the thread has ended, its joiner needs nobody else. *)
Theorem C71_join_progress : forall b s t u, reached b s -> joining (pc s t) u -> pc s u = XStatus \/ pc s u = Gone ->
  exists n s', (n <= 5)%nat /\ alone t n s = Some s' /\ pc s' t = Running /\ res s' t = Joined u (ret s u).
Proof. exact join_progress. Qed.
Print Assumptions C71_join_progress.
Theorem C71_exit_progress : forall s u v, pc s u = XClean v -> exists n s', (n <= 6)%nat /\ alone u n s = Some s' /\ pc s' u = Gone.
Proof. exact exit_progress. Qed.
Print Assumptions C71_exit_progress.
Theorem C71_self_join : forall s t, pc s t = Running -> exists s', t_exec s (t, AJoin t) = Some s' /\ pc s' t = Running /\ res s' t = JoinError EDEADLK.
Proof.
  intros s t P. unfold t_exec. cbn. rewrite P, Z.eqb_refl. eexists. split; [reflexivity|]. cbn. rewrite setf_same. auto.
Qed.
Print Assumptions C71_self_join.

Definition st (t : tid) : tid * tact := (t, AStep).
(* thread 1 created, started and known *)
Definition begin (d us : bool) : list (tid * tact) := [(0, ACreate 1 d us); st 1; st 0; st 0].
(* its end *)
Definition finish (v : Z) : list (tid * tact) := [(1, AExit v); st 1; st 1; st 1; st 1; st 1; st 1].
Definition outcome (s : tstate) := (pc s 0, res s 0, pc s 1, live s 1, bad s).
Definition known_run (ob : option bool) (ls : list (tid * tact)) : option tstate := runb [0; 1] ob t_init ls.
Definition look {A} (f : tstate -> A) (o : option tstate) : option A := match o with Some s => Some (f s) | None => None end.
Lemma looked {A} (f : tstate -> A) b ls a : look f (known_run (Some b) ls) = Some a -> exists s, reached b s /\ f s = a.
Proof.
  unfold look, known_run. destruct (runb _ _ _ _) as [s|] eqn:E; [|discriminate]. intros [= <-]. exists s. split; [|reflexivity].
  eapply runb_reached; [|exact E]. left. reflexivity.
Qed.
Lemma looked_run {A} (f : tstate -> A) b ls a : look f (known_run (Some b) ls) = Some a -> exists s, follow (allowed b) t_init ls s /\ f s = a.
Proof.
  unfold look, known_run. destruct (runb _ _ _ _) as [s|] eqn:E; [|discriminate]. intros [= <-]. exists s. split; [|reflexivity].
  eapply runb_allowed; [|exact E]. left. reflexivity.
Qed.
Lemma looked_either {A} (f : tstate -> A) ls a : look f (known_run None ls) = Some a -> exists s, follow (fun s l => allowed true s l \/ allowed false s l) t_init ls s /\ f s = a.
Proof.
  unfold look, known_run. destruct (runb _ _ _ _) as [s|] eqn:E; [|discriminate]. intros [= <-]. exists s. split; [|reflexivity].
  eapply runb_either; [|exact E]. left. reflexivity.
Qed.
(* the joiner sleeps before the thread ends *)
Example C71_join_example : forall b, exists s, reached b s /\ outcome s = (Running, Joined 1 (Some 7), Gone, false, false).
Proof. intros b. apply (looked outcome b (begin false false ++ [(0, AJoin 1); st 0; st 0] ++ finish 7 ++ [st 0; st 0; st 0; st 0])%list). destruct b; vm_compute; reflexivity. Qed.
Example C71_create_example : forall b, exists s, reached b s /\ (pc s 0, res s 0, pc s 1) = (Running, Created 1, Running).
Proof. intros b. apply (looked (fun s => (pc s 0, res s 0, pc s 1)) b (begin false false)). destruct b; vm_compute; reflexivity. Qed.
Example C71_wait_example : forall b, exists s, reached b s /\ pc s 0 = CWait 1.
Proof. intros b. apply (looked (fun s => pc s 0) b [(0, ACreate 1 false false)]). destruct b; vm_compute; reflexivity. Qed.
Example C71_progress_example : forall b, exists s, reached b s /\ (pc s 0, pc s 1) = (JLoad 1, XStatus).
Proof. intros b. apply (looked (fun s => (pc s 0, pc s 1)) b (begin false false ++ [(0, AJoin 1); st 0; st 0; (1, AExit 7); st 1; st 1; st 1; st 1; st 1])%list). destruct b; vm_compute; reflexivity. Qed.
Example C71_exit_example : forall b, exists s, reached b s /\ (pc s 0, pc s 1) = (JAsleep 1, XClean 7).
Proof. intros b. apply (looked (fun s => (pc s 0, pc s 1)) b (begin false false ++ [(0, AJoin 1); st 0; st 0; (1, AExit 7)])%list). destruct b; vm_compute; reflexivity. Qed.

(* C72.  The full statement drops the distinction [b] that [allowed] makes, and has the
   memory of every thread that has been joined or has ended detached unmapped, and that of
   the caller not. *)
Theorem C72_no_stale_use_partial : forall b s, reached b s -> bad s = false.
Proof. intros b s R. exact (i_bad b s (reached_inv b s R)). Qed.
Print Assumptions C72_no_stale_use_partial.
Theorem C72_join_frees : forall b s, reached b s -> forall t u c, res s t = Joined u c -> live s u = false.
Proof. exact joined_freed. Qed.
Print Assumptions C72_join_frees.
Theorem C72_detached_frees_partial : forall b s s' u,
  reached b s -> pc s u = Running -> det s u = true -> later b s s' -> pc s' u = Gone -> live s' u = false.
Proof. exact detached_freed. Qed.
Print Assumptions C72_detached_frees_partial.
Example C72_detached_example : exists s, reached true s /\ (pc s 1, det s 1, live s 1) = (Running, true, true).
Proof. apply (looked (fun s => (pc s 1, det s 1, live s 1)) true (begin true false)). vm_compute. reflexivity. Qed.
Example C72_detached_end_example : exists s, reached true s /\ (pc s 1, det s 1, live s 1) = (Gone, true, false).
Proof. apply (looked (fun s => (pc s 1, det s 1, live s 1)) true (begin true false ++ removelast (finish 7) )%list). vm_compute. reflexivity. Qed.
(* A thread that is detached after it has ended is never freed. *)
Theorem C72_late_detach_refuted : forall b, exists s, reached b s /\ pc s 1 = Gone /\ det s 1 = true /\
  forall s', later b s s' -> live s' 1 = true.
Proof.
  intros b. destruct (looked (fun s => (pc s 1, det s 1, live s 1)) b (begin false false ++ finish 7 ++ [(0, ADetach 1)])%list (Gone, true, true)) as (s & R & E);
    [destruct b; vm_compute; reflexivity|].
  injection E as P D L. exists s. repeat split; try assumption. intros s' H. eapply kept_later; [exact R|exact H|exact D|exact L|rewrite P; reflexivity].
Qed.
Print Assumptions C72_late_detach_refuted.
(* A detached thread may end before its creator enters it in the registry; exit then uses
   the memory it had. *)
Theorem C72_registry_refuted :
  exists ls s, follow (fun s l => allowed true s l \/ allowed false s l) t_init ls s /\ bad s = true.
Proof.
  exists [(0, ACreate 1 true false); st 1; (1, AExit 7); st 1; st 1; st 1; st 1; st 0; st 0; (0, ATerminate)].
  apply (looked_either bad). vm_compute. reflexivity.
Qed.
Print Assumptions C72_registry_refuted.
(* The stack the caller supplied is unmapped. *)
Theorem C72_user_stack_refuted : forall b, exists s, reached b s /\ (users s 1, stack s 1) = (true, false).
Proof. intros b. apply (looked (fun s => (users s 1, stack s 1)) b (begin false true ++ finish 7)%list). destruct b; vm_compute; reflexivity. Qed.
Print Assumptions C72_user_stack_refuted.

(* C73.  The full statement has threads start with cancellation enabled, cancels them in
   blocking calls too, and at no other time. *)
Theorem C73_cancel_partial : forall b s k u s1 s2,
  reached b s -> allowed b s (k, ACancel u) -> t_exec s (k, ACancel u) = Some s1 -> later b s1 s2 -> queued s2 u = true.
Proof. exact cancel_sticks. Qed.
Print Assumptions C73_cancel_partial.
Theorem C73_cancel_returns : forall s k u, pc s k = KLoad u \/ pc s k = KKill u ->
  exists n s', (n <= 2)%nat /\ alone k n s = Some s' /\ pc s' k = Running /\ res s' k = Nothing.
Proof. exact cancel_progress. Qed.
Print Assumptions C73_cancel_returns.
Theorem C73_testcancel_partial : forall s u, pc s u = Running -> queued s u = true -> enabled s u = true ->
  exists s1 s2, t_exec s (u, ATestCancel) = Some s1 /\ t_exec s1 (u, AStep) = Some s2 /\ pc s2 u = XClean CANCELED.
Proof. exact testcancel_acts. Qed.
Print Assumptions C73_testcancel_partial.
Theorem C73_value : forall b s u v s2 t c, reached b s -> pc s u = XClean v -> later b s s2 -> res s2 t = Joined u c -> c = Some v.
Proof. exact canceled_value. Qed.
Print Assumptions C73_value.
(* Nobody is cancelled unasked ... *)
Theorem C73_spared : forall s u s1, spared u s -> pc s u = Running -> t_exec s (u, ATestCancel) = Some s1 -> pc s1 u = Running /\ res s1 u = Nothing.
Proof. intros s u s1 S P X. exact (testcancel_idle s u s1 P (spared_queued u s S) X). Qed.
Print Assumptions C73_spared.
(* ... or while it has it disabled, which only it can do. *)
Theorem C73_disabled : forall s u, pc s u = Running -> enabled s u = false ->
  exists n s1 s2, (n <= 1)%nat /\ t_exec s (u, ATestCancel) = Some s1 /\ alone u n s1 = Some s2 /\ pc s2 u = Running /\ res s2 u = Nothing.
Proof. exact testcancel_disabled. Qed.
Print Assumptions C73_disabled.
Theorem C73_own_state : forall s t a s' u, t_exec s (t, a) = Some s' -> t <> u -> pc s u <> NotYet -> enabled s' u = enabled s u.
Proof. exact own_enabled. Qed.
Print Assumptions C73_own_state.
Theorem C73_setcancelstate_partial : forall s u c, pc s u = Running -> queued s u = false ->
  exists n s1 s2, (n <= 1)%nat /\ t_exec s (u, ASetCancel c) = Some s1 /\ alone u n s1 = Some s2 /\ pc s2 u = Running /\ res s2 u = OldState (enabled s u) /\ enabled s2 u = c.
Proof. exact setcancel_old. Qed.
Print Assumptions C73_setcancelstate_partial.
Example C73_cancel_example : forall b, exists s, reached b s /\ (pc s 0, res s 0, pc s 1, queued s 1, enabled s 1) = (Running, Nothing, Running, true, true).
Proof. intros b. apply (looked (fun s => (pc s 0, res s 0, pc s 1, queued s 1, enabled s 1)) b (begin false false ++ [(1, ASetCancel true); st 1; (0, ACancel 1); st 0; st 0])%list). destruct b; vm_compute; reflexivity. Qed.
Example C73_value_example : forall b, exists s, reached b s /\ outcome s = (Running, Joined 1 (Some CANCELED), XStatus, false, false).
Proof.
  intros b. apply (looked outcome b (begin false false ++ [(1, ASetCancel true); st 1; (0, ACancel 1); st 0; st 0; (1, ATestCancel); st 1; (0, AJoin 1); st 1; st 1; st 1; st 1; st 1; st 0; st 0; st 0; st 0])%list).
  destruct b; vm_compute; reflexivity.
Qed.
(* A new thread has cancellation disabled: cancelled before it does anything, it passes a
   cancellation point. *)
Theorem C73_initial_refuted : forall b, exists s, reached b s /\ (res s 0, queued s 1, pc s 1, res s 1) = (Nothing, true, Running, Nothing) /\
  exists ls, follow (allowed b) t_init ls s /\ In (0, ACancel 1) ls /\ last ls (0, AStep) = (1, AStep) /\ In (1, ATestCancel) ls /\ forall t c, ~ In (t, ASetCancel c) ls.
Proof.
  intros b.
  destruct (looked_run (fun s => (res s 0, queued s 1, pc s 1, res s 1)) b (begin false false ++ [(0, ACancel 1); st 0; (1, ATestCancel); st 1])%list (Nothing, true, Running, Nothing)) as (s & F & E); [destruct b; vm_compute; reflexivity|].
  exists s. split; [exact (follow_reached b _ t_init s (r_init b) F)|]. split; [exact E|]. eexists. split; [exact F|]. clear. split; [cbn; auto 10|]. split; [reflexivity|]. split; [cbn; auto 10|].
  intros t c H. cbn in H. repeat (destruct H as [H|H]; [discriminate|]). exact H.
Qed.
Print Assumptions C73_initial_refuted.
(* Enabling it ends a thread that has been cancelled there and then. *)
Theorem C73_setcancelstate_refuted : forall b, exists s s1 s2, reached b s /\ pc s 1 = Running /\
  t_exec s (1, ASetCancel true) = Some s1 /\ t_exec s1 (1, AStep) = Some s2 /\ pc s2 1 = XClean CANCELED.
Proof.
  intros b. destruct (looked (fun s => (pc s 1, queued s 1)) b (begin false false ++ [(0, ACancel 1); st 0])%list (Running, true)) as (s & R & E); [destruct b; vm_compute; reflexivity|].
  injection E as P Q. exists s. unfold t_exec at 1. cbn. rewrite P. eexists. eexists. split; [exact R|]. split; [reflexivity|]. split; [reflexivity|].
  unfold t_exec. cbn. rewrite Q. split; reflexivity.
Qed.
Print Assumptions C73_setcancelstate_refuted.
