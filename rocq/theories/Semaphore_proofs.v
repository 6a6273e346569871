From Coq Require Import ZArith List Bool Lia.
From Verif Require Import Conc Waituntil_model Semaphore_model.
Import ListNotations.
Open Scope Z_scope.

Record qinv (v0 : Z) (s : qstate) : Prop := QInv {
  q_ge : 0 <= v0 + posts s - taken s;
  q_cnt : count s = (v0 + posts s - taken s) mod 2 ^ 32;
  q_t : 0 <= taken s;
  q_p : 0 <= posts s;
  q_cas : forall t k v, qpcs s t = QCas k v -> v <> 0;
  q_sl : forall t k, qpcs s t = QAsleep k -> count s = 0 \/ exists u, qpcs s u = QWake }.

Lemma qinv_init v0 : 0 <= v0 < 2 ^ 32 -> qinv v0 (sem_init v0).
Proof.
  intro H. constructor; cbn -[Z.pow]; try lia; try discriminate. rewrite Z.mod_small; lia.
Qed.

Lemma q_move v0 s t p : qinv v0 s -> qpcs s t <> QWake ->
  (forall k v, p = QCas k v -> v <> 0) -> (forall k, p = QAsleep k -> count s = 0) ->
  qinv v0 (QState (count s) (posts s) (taken s) (setf (qpcs s) t p)).
Proof.
  intros [A B C D E F] N1 N2 N3. constructor; cbn [count posts taken qpcs]; auto.
  - intros u k v K. setf_cases; eauto.
  - intros u k K. setf_cases; [left; eauto|]. destruct (F u k K) as [|(w & W)]; auto.
    right. exists w. setf_cases; auto. congruence.
Qed.

Lemma qinv_step v0 s l s' : qinv v0 s -> sem_exec s l = Some s' -> qinv v0 s'.
Proof.
  intros I X. destruct l as (t & a). unfold sem_exec in X. cbn [fst snd] in X.
  destruct (qpcs s t) as [r|k|k v|k|k|] eqn:P; destruct a; try discriminate;
    try (destruct k; discriminate).
  - inversion X; subst. apply q_move; auto; try congruence; discriminate.
  - inversion X; subst. destruct I as [A B C D E F].
    constructor; cbn [count posts taken qpcs]; try lia.
    + rewrite B, Z.add_mod_idemp_l by lia. f_equal. lia.
    + intros u k v K. setf_cases; [discriminate|eauto].
    + intros u k K. right. exists t. apply setf_same.
  - destruct (Z.eqb_spec (count s) 0); inversion X; subst; apply q_move; auto; try congruence;
      destruct k; discriminate.
  - unfold cas in X. destruct (Z.eqb_spec (count s) v); destruct spur; cbn [andb negb] in X; inversion X; subst.
    1,3,4: apply q_move; auto; try congruence; discriminate.
    pose proof (q_cas v0 s I t k _ P) as NZ. destruct I as [A B C D E F].
    assert (0 < v0 + posts s - taken s).
    { destruct (Z.eq_dec (v0 + posts s - taken s) 0) as [Z0|Z0]; [|lia].
      exfalso. apply NZ. rewrite B, Z0. reflexivity. }
    constructor; cbn [count posts taken qpcs]; try lia.
    + rewrite B. rewrite B in NZ.
      pose proof (Z.mod_pos_bound (v0 + posts s - taken s) (2 ^ 32) ltac:(lia)).
      pose proof (Z.div_mod (v0 + posts s - taken s) (2 ^ 32) ltac:(lia)).
      apply Z.mod_unique with ((v0 + posts s - taken s) / 2 ^ 32); lia.
    + intros u k0 v K. setf_cases; [discriminate|eauto].
    + intros u k0 K. setf_cases; [discriminate|]. destruct (F u k0 K) as [|(w & W)]; [lia|].
      right. exists w. setf_cases; auto. congruence.
  - inversion X; subst. apply q_move; auto; try congruence.
    + destruct (count s =? 0); discriminate.
    + intros k0. destruct (Z.eqb_spec (count s) 0); [auto|discriminate].
  - inversion X; subst. apply q_move; auto; try congruence; destruct k; discriminate.
  - inversion X; subst. apply q_move; auto; try congruence; destruct k; discriminate.
  - destruct k; try discriminate. inversion X; subst. apply q_move; auto; try congruence; discriminate.
  - inversion X; subst. destruct I as [A B C D E F].
    constructor; cbn [count posts taken qpcs]; auto.
    + intros u k v K. setf_cases; [discriminate|]. unfold qwake_all in K.
      destruct (qpcs s u) eqn:PU; try discriminate. inversion K; subst. eauto.
    + intros u k K. setf_cases; [discriminate|]. unfold qwake_all in K.
      destruct (qpcs s u) eqn:PU; discriminate.
Qed.

Lemma qinv_reach v0 s : 0 <= v0 < 2 ^ 32 -> reachable sem_exec (sem_init v0) s -> qinv v0 s.
Proof. intro H. apply reachable_inv; [apply qinv_init; exact H|apply qinv_step]. Qed.

(* the ghosts count the events of the execution *)
Lemma posts_count v0 ls s : run sem_exec (sem_init v0) ls = Some s ->
  posts s = Z.of_nat (length (filter (fun l => match snd l with QPost => true | _ => false end) ls)).
Proof.
  revert s. induction ls as [|l ls IH] using rev_ind; intros s E.
  - inversion E; subst. reflexivity.
  - rewrite run_app in E. destruct (run sem_exec (sem_init v0) ls) as [s0|] eqn:E0; [|discriminate].
    cbn [run] in E. destruct (sem_exec s0 l) as [s1|] eqn:X; [|discriminate]. inversion E; subst s1.
    specialize (IH s0 eq_refl). destruct l as (t & a). rewrite filter_app, app_length. cbn [filter snd].
    unfold sem_exec in X. cbn [fst snd] in X.
    assert (K : posts s = posts s0 + match a with QPost => 1 | _ => 0 end).
    { destruct (qpcs s0 t) as [r|k|k v|k|k|]; destruct a; try discriminate; try (destruct k; discriminate);
        try (inversion X; subst; cbn [posts]; lia).
      - destruct (count s0 =? 0); inversion X; subst; cbn [posts]; lia.
      - destruct (cas (count s0) v (v - 1) spur) as ((w & ok) & z). destruct ok; inversion X; subst; cbn [posts]; lia.
      - destruct k; inversion X; subst; cbn [posts]; lia. }
    destruct a; cbn [length]; lia.
Qed.

Lemma sem_bounded v0 ls s : 0 <= v0 < 2 ^ 32 -> run sem_exec (sem_init v0) ls = Some s ->
  taken s <= v0 + Z.of_nat (length (filter (fun l => match snd l with QPost => true | _ => false end) ls)).
Proof.
  intros H E. rewrite <- (posts_count _ _ _ E).
  pose proof (q_ge v0 s (qinv_reach v0 s H (ex_intro _ ls E))). lia.
Qed.

Lemma sem_value v0 s : 0 <= v0 < 2 ^ 32 -> reachable sem_exec (sem_init v0) s ->
  v0 + posts s < 2 ^ 32 -> count s = v0 + posts s - taken s.
Proof.
  intros H R B. destruct (qinv_reach v0 s H R) as [A C D E _ _]. rewrite C. apply Z.mod_small. lia.
Qed.

Lemma sem_overflow : exists v0 ls s, 0 <= v0 < 2 ^ 32 /\
  run sem_exec (sem_init v0) ls = Some s /\ qpcs s 1 = QRet 0 /\
  count s = 0 /\ v0 + posts s - taken s > 0.
Proof.
  exists (2 ^ 32 - 1), [(1, QPost); (1, QStep false)].
  destruct (run sem_exec (sem_init (2 ^ 32 - 1)) [(1, QPost); (1, QStep false)]) as [s|] eqn:E;
    [|vm_compute in E; discriminate].
  exists s. split; [lia|]. split; [reflexivity|].
  vm_compute in E. inversion E; subst. cbn. repeat split; try reflexivity; lia.
Qed.

(* Steps that decide a call. *)
Lemma sem_decide v0 s t spur s' r : 0 <= v0 < 2 ^ 32 -> reachable sem_exec (sem_init v0) s ->
  (qpcs s t = QLoad KTry \/ exists v, qpcs s t = QCas KTry v) ->
  sem_exec s (t, QStep spur) = Some s' -> qpcs s' t = QRet r ->
  (r = 0 /\ 0 < count s /\ count s' = count s - 1 /\ taken s' = taken s + 1) \/
  (r = EAGAIN /\ count s = 0 /\ count s' = 0 /\ taken s' = taken s).
Proof.
  intros H R P X Q. pose proof (qinv_reach v0 s H R) as I.
  unfold sem_exec in X. cbn [fst snd] in X. destruct P as [P|(v & P)]; rewrite P in X.
  - destruct (Z.eqb_spec (count s) 0) as [C|C]; inversion X; subst; cbn [qpcs] in Q;
      rewrite setf_same in Q; inversion Q; subst. right. cbn. auto.
  - unfold cas in X. destruct (Z.eqb_spec (count s) v); destruct spur; cbn [andb negb] in X; inversion X; subst;
      cbn [qpcs] in Q; rewrite setf_same in Q; inversion Q; subst.
    left. pose proof (q_cas v0 s I t KTry _ P). pose proof (q_cnt v0 s I).
    pose proof (Z.mod_pos_bound (v0 + posts s - taken s) (2 ^ 32) ltac:(lia)). cbn. repeat split; lia.
Qed.

Definition qplain (l : tid * qact) : Prop := snd l = QStep false.
Definition acquires (s : qstate) (t : tid) : Prop :=
  exists ls s', run sem_exec s ls = Some s' /\ qpcs s' t = QRet 0 /\ taken s' = taken s + 1 /\ Forall qplain ls.

Lemma acquires_step s t u s1 : sem_exec s (u, QStep false) = Some s1 -> taken s1 = taken s ->
  acquires s1 t -> acquires s t.
Proof.
  intros X T (ls & s' & R & P & A & F). exists ((u, QStep false) :: ls), s'.
  cbn [run]. rewrite X. repeat split; auto; try lia. constructor; [reflexivity|auto].
Qed.

Lemma cas_acquires s t k : qpcs s t = QCas k (count s) -> acquires s t.
Proof.
  intro P. exists [(t, QStep false)]. eexists. cbn [run]. unfold sem_exec. cbn [fst snd]. rewrite P.
  unfold cas. rewrite Z.eqb_refl. cbn [andb negb]. split; [reflexivity|].
  split; [cbn [qpcs]; apply setf_same|]. split; [reflexivity|]. repeat constructor.
Qed.

Lemma qload_acquires s t k : qpcs s t = QLoad k -> count s <> 0 -> acquires s t.
Proof.
  intros P C. apply Z.eqb_neq in C. eapply (acquires_step s t t).
  - unfold sem_exec. cbn [fst snd]. rewrite P, C. reflexivity.
  - reflexivity.
  - eapply cas_acquires. cbn [qpcs count]. apply setf_same.
Qed.

Lemma sem_progress v0 s t p : 0 <= v0 < 2 ^ 32 -> reachable sem_exec (sem_init v0) s ->
  0 < count s -> qpcs s t = p ->
  match p with QLoad _ | QCas _ _ | QAsleep _ => True | _ => False end -> acquires s t.
Proof.
  intros H R C P K. pose proof (qinv_reach v0 s H R) as I.
  destruct p as [r|k|k v|k|k|]; try contradiction.
  - eapply qload_acquires; [exact P|lia].
  - destruct (Z.eq_dec (count s) v) as [E|E]; [subst v; eapply cas_acquires; eauto|].
    eapply (acquires_step s t t).
    + unfold sem_exec. cbn [fst snd]. rewrite P. unfold cas. apply Z.eqb_neq in E. rewrite E. reflexivity.
    + reflexivity.
    + eapply qload_acquires; [cbn [qpcs]; apply setf_same|cbn; lia].
  - destruct (q_sl v0 s I t k P) as [|(u & U)]; [lia|].
    eapply (acquires_step s t u).
    + unfold sem_exec. cbn [fst snd]. rewrite U. reflexivity.
    + reflexivity.
    + eapply qload_acquires; [cbn [qpcs]; rewrite setf_other by congruence; unfold qwake_all; rewrite P; reflexivity|].
      cbn. lia.
Qed.

Lemma sem_sleeper v0 s t k : 0 <= v0 < 2 ^ 32 -> reachable sem_exec (sem_init v0) s ->
  qpcs s t = QAsleep k -> 0 < count s ->
  exists u, qpcs s u = QWake /\ forall b s', sem_exec s (u, QStep b) = Some s' ->
    forall w k', qpcs s' w <> QAsleep k'.
Proof.
  intros H R P C. destruct (q_sl v0 s (qinv_reach v0 s H R) t k P) as [|(u & U)]; [lia|].
  exists u. split; [exact U|]. intros b s' X w k'. unfold sem_exec in X. cbn [fst snd] in X. rewrite U in X.
  inversion X; subst. cbn [qpcs]. setf_cases; [discriminate|]. unfold qwake_all.
  destruct (qpcs s w); discriminate.
Qed.

(* Without a signal or a timeout, the only failure of sem_wait is the stale
   futex comparison. *)
Lemma sem_wait_fails_only s t a s' k r : qpcs s t = QLoad k \/ (exists v, qpcs s t = QCas k v) \/ qpcs s t = QAsleep k ->
  k <> KTry -> a <> QInterrupt -> a <> QTimeout ->
  sem_exec s (t, a) = Some s' -> qpcs s' t = QRet r -> r = 0.
Proof.
  intros P NK N1 N2 X Q. unfold sem_exec in X. cbn [fst snd] in X.
  destruct P as [P|[(v & P)|P]]; rewrite P in X; destruct a; try discriminate; try congruence.
  - destruct (count s =? 0); inversion X; subst; cbn [qpcs] in Q; rewrite setf_same in Q;
      destruct k; congruence.
  - destruct (cas (count s) v (v - 1) spur) as ((w & ok) & z). destruct ok; inversion X; subst;
      cbn [qpcs] in Q; rewrite setf_same in Q; congruence.
  - inversion X; subst; cbn [qpcs] in Q; rewrite setf_same in Q. congruence.
Qed.
