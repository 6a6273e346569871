(* C75, C76, C77: functions registered for fork, for the end of a thread, and for exit. *)
From Coq Require Import ZArith List Bool.
From Verif Require Import Base Hooks_model Hooks_spec Hooks_proofs.
Import ListNotations.
Open Scope Z_scope.

(* Missing from C75 (refuted below): the order of the prepare handlers, handlers registered by other threads,
   and a fork that fails. *)

(* A successful fork runs, once each and in the order of registration, exactly the handlers its own thread registered. *)
Theorem C75_fork_partial : forall h t, do_fork (after f_init h) t FOk =
  (prepares (by_thread t h), parents (by_thread t h), Some (children (by_thread t h))).
Proof. exact fork_own. Qed.
Print Assumptions C75_fork_partial.

(* If only one thread registers handlers and forks, the parent and child handlers are as asked for. *)
Theorem C75_one_thread_partial : forall h t, (forall r, In r h -> fst r = t) ->
  snd (fst (do_fork (after f_init h) t FOk)) = snd (fst (wanted h FOk)) /\
  snd (do_fork (after f_init h) t FOk) = snd (wanted h FOk).
Proof. intros h t H. rewrite fork_own, (by_one _ _ H). split; reflexivity. Qed.
Print Assumptions C75_one_thread_partial.

(* Prepare handlers run oldest first. *)
Theorem C75_prepare_refuted : exists h, (forall r, In r h -> fst r = 1) /\
  fst (fst (wanted h FOk)) = [20; 10] /\ fst (fst (do_fork (after f_init h) 1 FOk)) = [10; 20].
Proof.
  exists [(1, (Some 10, Some 11, None)); (1, (Some 20, None, Some 22))].
  split; [intros r [<-|[<-|[]]]; reflexivity|]. split; reflexivity.
Qed.
Print Assumptions C75_prepare_refuted.

(* Handlers registered by another thread are not run. *)
Theorem C75_thread_refuted : exists h,
  wanted h FOk = ([10], [11], Some [12]) /\ do_fork (after f_init h) 2 FOk = ([], [], Some []).
Proof. exists [(1, (Some 10, Some 11, Some 12))]. split; reflexivity. Qed.
Print Assumptions C75_thread_refuted.

(* When fork fails the prepare handlers have run (and locked, say) but the parent handlers do not. *)
Theorem C75_failure_refuted : exists h, (forall r, In r h -> fst r = 1) /\
  wanted h FFail = ([10], [11], None) /\ do_fork (after f_init h) 1 FFail = ([10], [], None).
Proof.
  exists [(1, (Some 10, Some 11, Some 12))]. split; [intros r [<-|[]]; reflexivity|]. split; reflexivity.
Qed.
Print Assumptions C75_failure_refuted.

Example C75_case : exists h, (forall r, In r h -> fst r = 1) /\
  do_fork (after f_init h) 1 FOk = ([10; 20], [11], Some [22; 32]).
Proof.
  exists [(1, (Some 10, Some 11, None)); (1, (Some 20, None, Some 22)); (1, (None, None, Some 32))].
  split; [intros r [<-|[<-|[<-|[]]]]; reflexivity|]. reflexivity.
Qed.

(* C76 for threads none of whose handlers reaches a cancellation point ([no_test]; otherwise refuted below). *)

(* A thread, cancelled ([pend]) or not, calls exactly the handlers wanted: those popped with a nonzero argument,
   and at its end all that are left, newest first. *)
Theorem C76_handlers_partial : forall body, (forall r a, no_test (body r a)) ->
  forall pend f l c, sthread body pend f l = Some c ->
  exists g s, c_thread body pend g l = Ok s /\ rev (clog s) = c.
Proof. exact c_thread_ok. Qed.
Print Assumptions C76_handlers_partial.

(* A cancelled thread whose handler reaches a cancellation point starts over, for ever. *)
Definition test1 (r a : Z) : list cop := if r =? 1 then [Test] else [].
Theorem C76_cancel_refuted :
  sthread test1 true 9 [Push 100 2 0; Push 200 1 0; Test] = Some [(1, 0); (2, 0)] /\
  forall g, c_thread test1 true g [Push 100 2 0; Push 200 1 0; Test] = OutOfFuel.
Proof.
  split; [reflexivity|]. intros g. unfold c_thread.
  assert (W : forall g s, chead s = 200 -> cnode s 200 = Some (1, 0, 100) ->
    c_exec test1 true g s (Walk 200) = OutOfFuel /\ c_exec test1 true g s (Prog [Test]) = OutOfFuel).
  { induction g0 as [|g0 IH]; intros s H N; [split; reflexivity|].
    destruct (IH (called s 1 0) H N) as [_ B]. destruct (IH s H N) as [A _].
    split; cbn; [rewrite N; change (test1 1 0) with [Test]; rewrite B; reflexivity|rewrite H, A; reflexivity]. }
  destruct g as [|[|g]]; try reflexivity. cbn [c_exec].
  destruct (W g (c_push (c_push c_init 100 2 0) 200 1 0) eq_refl eq_refl) as [_ E]. rewrite E. reflexivity.
Qed.
Print Assumptions C76_cancel_refuted.

(* Handler 1 pushes and pops a handler of its own; the cancellation arrives with two handlers left. *)
Example C76_case :
  let body := fun r a : Z => if r =? 1 then [Push 900 5 a; Pop true] else [] in
  (forall r a, no_test (body r a)) /\
  sthread body true 20 [Push 100 1 7; Push 200 2 8; Push 300 3 9; Pop true; Push 300 4 0; Pop false; Test; Pop true] =
    Some [(3, 9); (2, 8); (1, 7); (5, 7)].
Proof.
  cbn zeta. split; [|reflexivity]. intros r a. destruct (r =? 1); intros [E|[E|[]]] || intros []; discriminate.
Qed.

(* Missing from C77 (refuted below): functions that themselves call __cxa_atexit or __cxa_finalize, or register a
   destructor of the thread.  Not modelled: whether exit calls __cxa_finalize, which is up to the startup files. *)

(* Every function is called once, at the first __cxa_finalize of its object or of everything, newest first. *)
Theorem C77_finalize_partial : forall cc ops, (forall f a d, In (XReg (Some f) a d) ops -> cc f a = false) ->
  x_run cc [] ops = Some (xwanted [] ops).
Proof. exact x_ok. Qed.
Print Assumptions C77_finalize_partial.

(* The destructors of a thread run once each, newest first. *)
Theorem C77_thread_partial : forall body l, (forall d, In d l -> body d = []) -> t_thread body l = Ok (rev l).
Proof. exact t_ok. Qed.
Print Assumptions C77_thread_partial.

(* __cxa_finalize never returns when a function it runs calls __cxa_atexit. *)
Theorem C77_nested_refuted : x_run (fun f _ => f =? 2) [] [XReg (Some 1) 0 5; XReg (Some 2) 0 5; XFin 5] = None.
Proof. reflexivity. Qed.
Print Assumptions C77_nested_refuted.

(* The process is aborted when the destructor of a thread-local object creates another such object. *)
Theorem C77_thread_nested_refuted : t_thread (fun d => if d =? 2 then [3] else []) [1; 2] = Panic.
Proof. reflexivity. Qed.
Print Assumptions C77_thread_nested_refuted.

Example C77_case : xwanted []
    [XReg (Some 1) 10 5; XReg (Some 2) 20 6; XReg None 0 5; XReg (Some 3) 30 5; XFin 5; XReg (Some 4) 40 5; XFin 5; XFin 0; XFin 0] =
  [[(3, 30); (1, 10)]; [(4, 40)]; [(2, 20)]; []].
Proof. reflexivity. Qed.
