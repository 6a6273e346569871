From Coq Require Import ZArith List Bool Lia.
From Verif Require Import Conc Waituntil_model Spin_model.
Import ListNotations.
Open Scope Z_scope.

Record pinv (s : pstate) : Prop := PInv {
  p_own : forall t, ppcs s t = POwn -> pword s = 1;
  p_ex : pword s <> 0 -> exists t, ppcs s t = POwn;
  p_un : forall t u, ppcs s t = POwn -> ppcs s u = POwn -> t = u }.

Lemma pinv_init : pinv sp_init.
Proof. constructor; cbn; try discriminate. intro K; exfalso; apply K; reflexivity. Qed.

Lemma p_acquire s t : pinv s -> pword s = 0 -> pinv (PState 1 (setf (ppcs s) t POwn)).
Proof.
  intros [A B C] W. constructor; cbn [pword ppcs]; auto.
  - intros _. exists t. apply setf_same.
  - intros u v K1 K2. setf_cases; auto; pose proof (A _ ltac:(eassumption)); lia.
Qed.

Lemma p_move s t p : pinv s -> ppcs s t <> POwn -> p <> POwn ->
  pinv (PState (pword s) (setf (ppcs s) t p)).
Proof.
  intros [A B C] N1 N2. constructor; cbn [pword ppcs].
  - intros u K. setf_cases; [congruence|eauto].
  - intro K. destruct (B K) as (u & U). exists u. setf_cases; congruence.
  - intros u v K1 K2. setf_cases; try congruence. eauto.
Qed.

Lemma pinv_step s l s' : pinv s -> sp_exec s l = Some s' -> pinv s'.
Proof.
  intros I X. destruct l as (t & a). unfold sp_exec in X. cbn [fst snd] in X.
  destruct (ppcs s t) eqn:P; destruct a; try discriminate.
  - unfold cas, S_UNLOCKED, S_LOCKED in X.
    destruct (Z.eqb_spec (pword s) 0); destruct spur; cbn [andb negb] in X; inversion X; subst.
    + apply p_move; auto; congruence.
    + apply p_acquire; auto.
    + apply p_move; auto; congruence.
    + apply p_move; auto; congruence.
  - inversion X; subst. destruct I as [A B C]. constructor; cbn [pword ppcs]; unfold S_UNLOCKED.
    + intros u K. setf_cases; [discriminate|]. exfalso. apply E. eauto.
    + intro K; exfalso; apply K; reflexivity.
    + intros u v K1 K2. setf_cases; try discriminate. eauto.
  - inversion X; subst. apply p_move; auto; congruence.
  - unfold cas, S_UNLOCKED, S_LOCKED in X.
    destruct (Z.eqb_spec (pword s) 0); cbn [andb negb] in X; inversion X; subst.
    + apply p_acquire; auto.
    + apply p_move; auto; congruence.
Qed.

Lemma pinv_reach s : reachable sp_exec sp_init s -> pinv s.
Proof. apply reachable_inv; [exact pinv_init|exact pinv_step]. Qed.

Lemma spin_exclusion s t u : reachable sp_exec sp_init s ->
  ppcs s t = POwn -> ppcs s u = POwn -> t = u.
Proof. intro R. apply (p_un s (pinv_reach s R)). Qed.

Lemma spin_try s t s' : reachable sp_exec sp_init s -> sp_exec s (t, PTry) = Some s' ->
  (ppcs s' t = PRet EBUSY /\ (exists u, ppcs s u = POwn) /\ forall u, ppcs s' u = POwn <-> ppcs s u = POwn) \/
  (ppcs s' t = POwn /\ forall u, ppcs s u <> POwn).
Proof.
  intros R X. pose proof (pinv_reach s R) as I. unfold sp_exec in X. cbn [fst snd] in X.
  destruct (ppcs s t) eqn:P; try discriminate.
  unfold cas, S_UNLOCKED, S_LOCKED in X.
  destruct (Z.eqb_spec (pword s) 0) as [W|W]; cbn [andb negb] in X; inversion X; subst; cbn [ppcs].
  - right. rewrite setf_same. split; [reflexivity|]. intros u K. pose proof (p_own s I u K). lia.
  - left. rewrite setf_same. split; [reflexivity|]. split; [apply (p_ex s I W)|].
    intro u. setf_cases; [|tauto]. rewrite P. split; discriminate.
Qed.

Lemma spin_lock_step s t spur s' : reachable sp_exec sp_init s -> ppcs s t = PSpin ->
  sp_exec s (t, PStep spur) = Some s' ->
  (ppcs s' t = POwn -> forall u, ppcs s u <> POwn) /\
  (spur = false -> (forall u, ppcs s u <> POwn) -> ppcs s' t = POwn).
Proof.
  intros R P X. pose proof (pinv_reach s R) as I. unfold sp_exec in X. cbn [fst snd] in X. rewrite P in X.
  unfold cas, S_UNLOCKED, S_LOCKED in X.
  destruct (Z.eqb_spec (pword s) 0) as [W|W]; destruct spur; cbn [andb negb] in X; inversion X; subst; cbn [ppcs];
    rewrite setf_same; (split; [try discriminate|]).
  - discriminate.
  - intros _ u K. pose proof (p_own s I u K). lia.
  - reflexivity.
  - discriminate.
  - intros _ N. destruct (p_ex s I W) as (u & U). exfalso. exact (N u U).
Qed.
