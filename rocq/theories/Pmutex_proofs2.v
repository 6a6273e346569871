From Coq Require Import ZArith List Bool Lia.
From Verif Require Import Conc Waituntil_model Pmutex_model Pmutex_proofs.
Import ListNotations.
Open Scope Z_scope.

Lemma pm_exclusion k robust s t u : reachable (pm_exec k robust) pm_init s ->
  0 < held s t -> 0 < held s u -> t = u.
Proof.
  intros R A B. pose proof (linv_reach _ _ _ R) as I.
  destruct (l_occ k s I t (or_introl A)). destruct (l_occ k s I u (or_introl B)). congruence.
Qed.

(* nothing but the caller's return value changed *)
Definition unchanged (s s' : lstate) (t : tid) (r : Z) : Prop :=
  inner s' = inner s /\ rcount s' = rcount s /\ (forall u, held s' u = held s u) /\
  (forall u, u <> t -> lp s' u = lp s u) /\ lp s' t = LRet r.

Lemma unchanged_go s t r :
  unchanged s (LState (inner s) (rcount s) (held s) (setf (lp s) t (LRet r))) t r.
Proof.
  repeat split; cbn [inner rcount held lp]; auto.
  - intros u N. apply setf_other; auto.
  - apply setf_same.
Qed.

Lemma not_occ_inner k s t : linv k s -> held s t = 0 -> inop (lp s t) = false -> 0 < t -> inner s <> t.
Proof.
  intros I H N T E. destruct (l_own k s I) as [K|K]; [lia| |].
  - rewrite E in K. lia.
  - rewrite E in K. congruence.
Qed.

Ltac enter V := unfold pm_exec; cbn [fst snd]; rewrite (proj2 (valid_rng _) V); cbn [negb].

Lemma pm_unlock_not_owner k robust s t r : reachable (pm_exec k robust) pm_init s ->
  0 < t < 2 ^ 31 -> robust = true \/ k = Recursive \/ k = Errck ->
  lp s t = LRet r -> held s t = 0 ->
  exists s', pm_exec k robust s (t, LUnlock) = Some s' /\ unchanged s s' t EPERM.
Proof.
  intros R V C P H. pose proof (linv_reach _ _ _ R) as I.
  assert (N : inner s <> t). { eapply not_occ_inner; eauto; [rewrite P; reflexivity|lia]. }
  eexists. split; [|apply unchanged_go]. enter V. rewrite P.
  replace (robust || is_rec k || is_errck k) with true
    by (destruct C as [->|[->| ->]]; try destruct robust; reflexivity).
  rewrite mask_small by (apply (l_rng k s I)). apply Z.eqb_neq in N. rewrite N. reflexivity.
Qed.

Definition by_t (t : tid) (l : tid * lact) : Prop := l = (t, LStep false).

(* t alone gets from s to a state that satisfies Q *)
Definition solo k robust (s : lstate) (t : tid) (Q : lstate -> Prop) : Prop :=
  exists ls s', run (pm_exec k robust) s ls = Some s' /\ Forall (by_t t) ls /\ Q s'.

Lemma solo_now k robust s t (Q : lstate -> Prop) : Q s -> solo k robust s t Q.
Proof. intro H. exists [], s. repeat split; auto. Qed.

Lemma solo_step k robust s t s1 Q : pm_exec k robust s (t, LStep false) = Some s1 ->
  solo k robust s1 t Q -> solo k robust s t Q.
Proof.
  intros X (ls & s' & R & F & H). exists ((t, LStep false) :: ls), s'. cbn [run]. rewrite X.
  repeat split; auto. constructor; [reflexivity|auto].
Qed.

Lemma solo_store k robust s t (Q : lstate -> Prop) : 0 < t < 2 ^ 31 -> lp s t = UStore ->
  (forall s', inner s' = 0 -> held s' t = held s t -> lp s' t = LRet 0 -> Q s') ->
  solo k robust s t Q.
Proof.
  intros V P H. eapply solo_step. { enter V. rewrite P. reflexivity. }
  eapply solo_step. { enter V. cbn [lp]. rewrite setf_same. reflexivity. }
  apply solo_now. apply H; cbn; auto. apply setf_same.
Qed.

Lemma pm_unlock_owner k robust s t r : reachable (pm_exec k robust) pm_init s ->
  0 < t < 2 ^ 31 -> lp s t = LRet r -> 0 < held s t ->
  exists s1, pm_exec k robust s (t, LUnlock) = Some s1 /\
    solo k robust s1 t (fun s' => lp s' t = LRet 0 /\ held s' t = held s t - 1 /\
      (held s' t = 0 -> inner s' = 0) /\ (0 < held s' t -> inner s' = t)).
Proof.
  intros R V P H. pose proof (linv_reach _ _ _ R) as I.
  assert (OT : occ s t) by (left; auto). destruct (l_occ k s I t OT) as (W & T).
  set (s1 := LState (inner s) (rcount s) (setf (held s) t (held s t - 1))
               (setf (lp s) t (if is_rec k then URec else UStore))).
  assert (X : pm_exec k robust s (t, LUnlock) = Some s1).
  { enter V. rewrite P. rewrite mask_small by (apply (l_rng k s I)). rewrite (proj2 (Z.eqb_eq _ _) W). cbn [negb].
    apply Z.ltb_lt in H. rewrite H. destruct (robust || is_rec k || is_errck k); reflexivity. }
  exists s1. split; [exact X|].
  destruct (is_rec k) eqn:KR.
  - apply rec_true in KR. subst k. pose proof (l_recc _ s I eq_refl t OT) as RC. rewrite P in RC. cbn in RC.
    pose proof (l_rr _ s I) as RR.
    eapply solo_step. { enter V. subst s1. cbn [lp]. rewrite setf_same. reflexivity. }
    eapply solo_step. { enter V. subst s1. cbn [lp]. rewrite setf_same. reflexivity. }
    subst s1. cbn [rcount]. rewrite Z.mod_small by lia. cbn [inner held lp rcount].
    destruct (Z.ltb_spec 0 (rcount s - 1)).
    + apply solo_now. cbn [inner held lp]. rewrite !setf_same. repeat split; auto; lia.
    + apply solo_store; auto; [cbn [lp]; apply setf_same|]. cbn [held]. rewrite setf_same.
      intros s' A B C. repeat split; auto; lia.
  - apply rec_false in KR. pose proof (l_nr k s I KR t).
    apply solo_store; auto; [subst s1; cbn [lp]; apply setf_same|]. subst s1. cbn [held]. rewrite setf_same.
    intros s' A B C. repeat split; auto; lia.
Qed.

Lemma solo_inc robust s t (Q : lstate -> Prop) : linv Recursive s -> 0 < t < 2 ^ 31 -> lp s t = LInc ->
  (forall s', inner s' = t ->
     (held s t < 2 ^ 32 - 1 /\ lp s' t = LRet 0 /\ held s' t = held s t + 1 \/
      held s t = 2 ^ 32 - 1 /\ lp s' t = LRet EAGAIN /\ held s' t = held s t) -> Q s') ->
  solo Recursive robust s t Q.
Proof.
  intros I V P H.
  assert (OT : occ s t) by (right; rewrite P; reflexivity).
  destruct (l_occ _ s I t OT) as (W & T).
  pose proof (l_recc _ s I eq_refl t OT) as RC. rewrite P in RC. cbn in RC.
  pose proof (l_rr _ s I) as RR.
  eapply solo_step. { enter V. rewrite P. reflexivity. }
  destruct (Z.eqb_spec (rcount s) RECURSIVE_COUNT_MAX_INCLUSIVE) as [M|M]; unfold RECURSIVE_COUNT_MAX_INCLUSIVE in M.
  - apply solo_now. apply H; cbn [inner held lp]; auto. right. rewrite setf_same. repeat split; lia.
  - eapply solo_step. { enter V. cbn [lp]. rewrite setf_same. reflexivity. }
    apply solo_now. apply H; cbn [inner held lp]; auto. left. rewrite !setf_same. repeat split; lia.
Qed.

Definition relocked s t (s' : lstate) : Prop := inner s' = t /\
  (held s t < 2 ^ 32 - 1 /\ lp s' t = LRet 0 /\ held s' t = held s t + 1 \/
   held s t = 2 ^ 32 - 1 /\ lp s' t = LRet EAGAIN /\ held s' t = held s t).

Lemma pm_relock_recursive robust s t r c : reachable (pm_exec Recursive robust) pm_init s ->
  0 < t < 2 ^ 31 -> lp s t = LRet r -> 0 < held s t -> (c = LTry \/ exists d, c = LLock d) ->
  exists s1, pm_exec Recursive robust s (t, c) = Some s1 /\
    solo Recursive robust s1 t (relocked s t).
Proof.
  intros R V P H C. pose proof (linv_reach _ _ _ R) as I.
  assert (OT : occ s t) by (left; auto). destruct (l_occ _ s I t OT) as (W & T).
  assert (NZ : (inner s =? 0) = false) by (apply Z.eqb_neq; lia).
  destruct C as [->|(d & ->)].
  - assert (X : pm_exec Recursive robust s (t, LTry) =
              Some (LState (inner s) (rcount s) (held s) (setf (lp s) t LInc))).
    { enter V. rewrite P. unfold cas, STATE_UNLOCKED. rewrite NZ. cbn [andb negb is_rec].
      rewrite mask_small by (apply (l_rng _ s I)). rewrite (proj2 (Z.eqb_eq _ _) W). reflexivity. }
    eexists. split; [exact X|]. apply solo_inc; auto.
    + eapply linv_step; eauto.
    + cbn [lp]. apply setf_same.
    + intros s' A B. split; auto.
  - assert (X : pm_exec Recursive robust s (t, LLock d) =
              Some (LState (inner s) (rcount s) (held s) (setf (lp s) t (LCas d)))).
    { enter V. rewrite P. reflexivity. }
    assert (X2 : pm_exec Recursive robust (LState (inner s) (rcount s) (held s) (setf (lp s) t (LCas d))) (t, LStep false) =
              Some (LState (inner s) (rcount s) (held s) (setf (setf (lp s) t (LCas d)) t LInc))).
    { enter V. cbn [lp]. rewrite setf_same. unfold cas, STATE_UNLOCKED. cbn [inner rcount held]. rewrite NZ.
      cbn [andb negb is_rec]. rewrite mask_small by (apply (l_rng _ s I)). rewrite (proj2 (Z.eqb_eq _ _) W). reflexivity. }
    eexists. split; [exact X|]. eapply solo_step; [exact X2|]. apply solo_inc; auto.
    + eapply linv_step; [|exact X2]. eapply linv_step; eauto.
    + cbn [lp]. apply setf_same.
    + intros s' A B. split; auto.
Qed.

(* Errck: the owner's lock fails in its first attempt *)
Lemma pm_relock_errck robust s t r d : reachable (pm_exec Errck robust) pm_init s ->
  0 < t < 2 ^ 31 -> lp s t = LRet r -> 0 < held s t ->
  exists s1 s2, pm_exec Errck robust s (t, LLock d) = Some s1 /\
    pm_exec Errck robust s1 (t, LStep false) = Some s2 /\ unchanged s s2 t EAGAIN.
Proof.
  intros R V P H. pose proof (linv_reach _ _ _ R) as I.
  assert (OT : occ s t) by (left; auto). destruct (l_occ _ s I t OT) as (W & T).
  assert (NZ : (inner s =? 0) = false) by (apply Z.eqb_neq; lia).
  eexists. eexists. split; [enter V; rewrite P; reflexivity|].
  split.
  { enter V. cbn [lp]. rewrite setf_same. unfold cas, STATE_UNLOCKED. cbn [inner rcount held]. rewrite NZ.
    cbn [andb negb is_rec]. rewrite mask_small by (apply (l_rng _ s I)). rewrite (proj2 (Z.eqb_eq _ _) W). cbn [andb is_errck].
    reflexivity. }
  repeat split; cbn [inner rcount held lp]; auto.
  - intros u N. rewrite !setf_other by auto. reflexivity.
  - apply setf_same.
Qed.

(* trylock of a mutex held by somebody *)
Lemma pm_trylock_held k robust s t u r : reachable (pm_exec k robust) pm_init s ->
  0 < t < 2 ^ 31 -> lp s t = LRet r -> 0 < held s u -> (u <> t \/ k <> Recursive) ->
  exists s', pm_exec k robust s (t, LTry) = Some s' /\
    unchanged s s' t (if (u =? t) && is_errck k then EDEADLK else EBUSY).
Proof.
  intros R V P H C. pose proof (linv_reach _ _ _ R) as I.
  assert (OT : occ s u) by (left; auto). destruct (l_occ _ s I u OT) as (W & T).
  assert (NZ : (inner s =? 0) = false) by (apply Z.eqb_neq; lia).
  eexists. split; [|apply unchanged_go]. enter V. rewrite P. unfold cas, STATE_UNLOCKED. rewrite NZ.
  cbn [andb negb]. rewrite mask_small by (apply (l_rng _ s I)). rewrite W.
  destruct (Z.eqb_spec u t) as [E|E].
  - destruct C as [C|C]; [contradiction|]. subst u. cbn [andb negb]. 
    destruct k; try contradiction; reflexivity.
  - cbn [andb negb]. destruct k; reflexivity.
Qed.

Definition free (s : lstate) : Prop := forall u, held s u = 0 /\ inop (lp s u) = false.

Lemma free_inner k s : linv k s -> free s -> inner s = 0.
Proof.
  intros I F. destruct (Z.eq_dec (inner s) 0) as [E|E]; auto.
  destruct (F (inner s)) as (A & B). destruct (l_own k s I E); [lia|congruence].
Qed.

Definition locked s t (s' : lstate) : Prop := inner s' = t /\ lp s' t = LRet 0 /\ held s' t = held s t + 1.

Lemma cas_locks k robust s t d : linv k s -> 0 < t < 2 ^ 31 -> lp s t = LCas d -> free s ->
  solo k robust s t (locked s t).
Proof.
  intros I V P F. pose proof (free_inner _ _ I F) as W.
  destruct (is_rec k) eqn:KR.
  - assert (K : k = Recursive) by (apply rec_true; auto). subst k.
    assert (X : pm_exec Recursive robust s (t, LStep false) =
              Some (LState t (rcount s) (held s) (setf (lp s) t LInc))).
    { enter V. rewrite P, W. reflexivity. }
    eapply solo_step; [exact X|]. apply solo_inc; auto.
    + eapply linv_step; eauto.
    + cbn [lp]. apply setf_same.
    + cbn [held]. intros s' A [(B & C & D)|(B & C & D)].
      * split; auto.
      * destruct (F t). lia.
  - eapply solo_step. { enter V. rewrite P, W. cbn [cas STATE_UNLOCKED]. unfold cas. cbn. rewrite KR. reflexivity. }
    apply solo_now. unfold locked. cbn [inner held lp]. rewrite !setf_same. auto.
Qed.

Definition lplain (l : tid * lact) : Prop := snd l = LStep false.

Lemma solo_plain k robust s t Q : solo k robust s t Q ->
  exists ls s', run (pm_exec k robust) s ls = Some s' /\ Forall lplain ls /\ Q s'.
Proof.
  intros (ls & s' & R & F & H). exists ls, s'. repeat split; auto.
  eapply Forall_impl; [|exact F]. intros l ->. reflexivity.
Qed.

Lemma busy_valid k robust s t : reachable (pm_exec k robust) pm_init s ->
  (forall r, lp s t <> LRet r) -> 0 < t < 2 ^ 31.
Proof.
  intro R. revert t.
  refine (reachable_inv (pm_exec k robust) (fun s => forall t, (forall r, lp s t <> LRet r) -> 0 < t < 2 ^ 31)
    pm_init s _ _ R).
  - intros t K. exfalso. exact (K 0 eq_refl).
  - clear. intros s l s' I X t K. destruct l as (u & a).
    destruct (Z.eq_dec u t) as [E|E].
    + subst. apply valid_rng. unfold pm_exec in X. cbn [fst snd] in X.
      destruct (valid_tid t); [reflexivity|discriminate].
    + apply I. intros r Q. apply (K r). unfold pm_exec in X. cbn [fst snd] in X.
      destruct (valid_tid u); cbn [negb] in X; [|discriminate].
      assert (E' : t <> u) by congruence.
      repeat match type of X with
      | context [match ?x with _ => _ end] => destruct x; try discriminate
      end; inversion X; subst; cbn [lp]; setf_cases; try exact Q;
      unfold lwake_all; rewrite Q; reflexivity.
Qed.

Lemma pm_progress k robust s t : reachable (pm_exec k robust) pm_init s -> 0 < t < 2 ^ 31 ->
  free s -> match lp s t with LCas _ | LFutex _ _ | LAsleep _ => True | _ => False end ->
  exists ls s', run (pm_exec k robust) s ls = Some s' /\ Forall lplain ls /\ locked s t s'.
Proof.
  intros R V F C. pose proof (linv_reach _ _ _ R) as I. pose proof (free_inner _ _ I F) as W.
  destruct (lp s t) as [r|d|d v|d| |n| |n| |] eqn:P; try contradiction.
  - eapply solo_plain. eapply cas_locks; eauto.
  - assert (NV : (0 =? v) = false).
    { apply Z.eqb_neq. pose proof (l_fv k s I t d v P). lia. }
    assert (X : pm_exec k robust s (t, LStep false) =
              Some (LState (inner s) (rcount s) (held s) (setf (lp s) t (LCas d)))).
    { enter V. rewrite P, W, NV. reflexivity. }
    set (s1 := LState (inner s) (rcount s) (held s) (setf (lp s) t (LCas d))) in *.
    assert (P1 : lp s1 t = LCas d) by (subst s1; cbn [lp]; apply setf_same).
    assert (F1 : free s1).
    { intro w. subst s1. cbn [held lp]. split; [apply F|]. setf_cases; [reflexivity|]. apply F. }
    destruct (solo_plain k robust _ t _ (cas_locks k robust s1 t d (linv_step _ _ _ _ _ I X) V P1 F1)) as (ls & s' & A & B & Q).
    exists ((t, LStep false) :: ls), s'. cbn [run]. rewrite X. repeat split; try (exact A); try apply Q.
    constructor; [reflexivity|exact B].
  - destruct (l_sl k s I t d P) as [|(u & U)]; [lia|].
    assert (VU : 0 < u < 2 ^ 31) by (eapply busy_valid; [exact R|intros r K; congruence]).
    set (s1 := LState (inner s) (rcount s) (held s) (setf (lwake_all (lp s)) u (LRet 0))).
    assert (X : pm_exec k robust s (u, LStep false) = Some s1) by (enter VU; rewrite U; reflexivity).
    assert (P1 : lp s1 t = LCas d).
    { subst s1. cbn [lp]. rewrite setf_other by congruence. unfold lwake_all. rewrite P. reflexivity. }
    assert (F1 : free s1).
    { intro w. subst s1. cbn [held lp]. split; [apply F|]. setf_cases; [reflexivity|].
      rewrite (proj1 (lwake_inop (lp s) w)). apply F. }
    destruct (solo_plain k robust _ t _ (cas_locks k robust s1 t d (linv_step _ _ _ _ _ I X) V P1 F1)) as (ls & s' & A & B & Q).
    exists ((u, LStep false) :: ls), s'. cbn [run]. rewrite X. repeat split; try (exact A); try apply Q.
    constructor; [reflexivity|exact B].
Qed.

Lemma pm_sleeper k robust s t d : reachable (pm_exec k robust) pm_init s -> lp s t = LAsleep d ->
  (exists u, inner s = u /\ (0 < held s u \/ inop (lp s u) = true)) \/
  (exists u, lp s u = UWake /\
     forall b s', pm_exec k robust s (u, LStep b) = Some s' -> forall v d', lp s' v <> LAsleep d').
Proof.
  intros R P. pose proof (linv_reach _ _ _ R) as I.
  destruct (l_sl k s I t d P) as [W|(u & U)].
  - left. exists (inner s). split; [reflexivity|]. exact (l_own k s I W).
  - right. exists u. split; [exact U|]. intros b s' X v d'.
    assert (VU : 0 < u < 2 ^ 31) by (eapply busy_valid; [exact R|intros r K; congruence]).
    unfold pm_exec in X. cbn [fst snd] in X. rewrite (proj2 (valid_rng _) VU), U in X. cbn [negb] in X.
    inversion X; subst. cbn [lp]. setf_cases; [discriminate|]. unfold lwake_all. destruct (lp s v); discriminate.
Qed.
