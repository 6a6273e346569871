(* Shared conventions of the concurrency models.

   A model is an executable step function [exec : state -> label -> option state];
   a label says which thread moves and which of its possible moves it makes (a
   call it starts, or how the environment answers: a weak compare-exchange that
   fails spuriously, a futex wait that returns early).  [None] means that the
   move is not possible in this state.  An execution is any list of labels, so
   "for every interleaving" is "for every list of labels", of any length and
   over any number of threads.

   Each shared-memory access of the code is one step (sequentially consistent
   interleaving of atomic accesses: the orderings passed to the atomics are not
   modelled).  Steps of a thread between two shared accesses are merged into
   the access that precedes them. *)
From Coq Require Import ZArith List Bool Lia.
Import ListNotations.
Open Scope Z_scope.

Definition tid := Z.

Definition setf {A} (f : tid -> A) (t : tid) (v : A) : tid -> A :=
  fun u => if u =? t then v else f u.

Lemma setf_same {A} (f : tid -> A) t v : setf f t v t = v.
Proof. unfold setf. rewrite Z.eqb_refl. reflexivity. Qed.

Lemma setf_other {A} (f : tid -> A) t v u : u <> t -> setf f t v u = f u.
Proof. intro H. unfold setf. apply Z.eqb_neq in H. rewrite H. reflexivity. Qed.

Fixpoint run {S L} (exec : S -> L -> option S) (s : S) (ls : list L) : option S :=
  match ls with
  | [] => Some s
  | l :: r => match exec s l with Some s' => run exec s' r | None => None end
  end.

Lemma run_app {S L} (exec : S -> L -> option S) ls1 : forall s ls2,
  run exec s (ls1 ++ ls2) =
  match run exec s ls1 with Some s' => run exec s' ls2 | None => None end.
Proof.
  induction ls1 as [|l r IH]; intros; cbn [app run]; [reflexivity|].
  destruct (exec s l); [apply IH|reflexivity].
Qed.

(* Every property that holds at the start and is kept by each step holds after
   every execution. *)
Lemma run_inv {S L} (exec : S -> L -> option S) (P : S -> Prop) :
  (forall s l s', P s -> exec s l = Some s' -> P s') ->
  forall ls s s', P s -> run exec s ls = Some s' -> P s'.
Proof.
  intro K. induction ls as [|l r IH]; intros s s' H E; cbn [run] in E.
  - inversion E; subst; exact H.
  - destruct (exec s l) as [s1|] eqn:X; [|discriminate].
    eapply IH; [|exact E]. eapply K; eauto.
Qed.

(* The state reached is one the initial state can evolve into. *)
Definition reachable {S L} (exec : S -> L -> option S) (init s : S) : Prop :=
  exists ls, run exec init ls = Some s.

Lemma reachable_inv {S L} (exec : S -> L -> option S) (P : S -> Prop) init s :
  P init -> (forall s l s', P s -> exec s l = Some s' -> P s') ->
  reachable exec init s -> P s.
Proof. intros H K (ls & E). eapply run_inv; eauto. Qed.

Lemma reachable_step {S L} (exec : S -> L -> option S) init s l s' :
  reachable exec init s -> exec s l = Some s' -> reachable exec init s'.
Proof.
  intros (ls & E) X. exists (ls ++ [l]). rewrite run_app, E. cbn [run]. rewrite X. reflexivity.
Qed.

(* Case analysis on a thread map that was updated at one place. *)
Ltac setf_cases :=
  repeat match goal with
  | H : context [setf ?f ?t ?v ?t] |- _ => rewrite (setf_same f t v) in H
  | |- context [setf ?f ?t ?v ?t] => rewrite (setf_same f t v)
  | N : ?u <> ?t, H : context [setf ?f ?t ?v ?u] |- _ => rewrite (setf_other f t v u N) in H
  | N : ?u <> ?t |- context [setf ?f ?t ?v ?u] => rewrite (setf_other f t v u N)
  | H : context [setf ?f ?t ?v ?u] |- _ =>
      let E := fresh "E" in
      destruct (Z.eq_dec u t) as [E|E];
      [ first [subst u | subst t | rewrite E in *]; rewrite ?(setf_same f t v) in * | rewrite ?(setf_other f t v u E) in * ]
  | |- context [setf ?f ?t ?v ?u] =>
      let E := fresh "E" in
      destruct (Z.eq_dec u t) as [E|E];
      [ first [subst u | subst t | rewrite E in *]; rewrite ?(setf_same f t v) in * | rewrite ?(setf_other f t v u E) in * ]
  end.
