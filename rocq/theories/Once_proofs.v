From Coq Require Import ZArith List Bool Lia.
From Verif Require Import Conc Waituntil_model Once_model.
Import ListNotations.
Open Scope Z_scope.

Definition owner (p : opc) : Prop := p = OIn \/ p = OStore.
Definition fini (p : opc) : Prop := match p with OWaking | ORead | ORet _ => True | _ => False end.
Definition bad (p : opc) : Prop := p = OPanic \/ p = OWait WDone.

Record oinv (s : ostate) : Prop := OInv {
  o_st : ostatus s = 0 \/ ostatus s = 1 \/ ostatus s = 2 \/ ostatus s = 3;
  o_in : forall t, opcs s t = OIn -> (ostatus s = 1 \/ ostatus s = 2) /\ runs s = 0%nat;
  o_store : forall t, opcs s t = OStore ->
    (ostatus s = 1 \/ ostatus s = 2) /\ runs s = 1%nat /\ data s <> None;
  o_ex : ostatus s = 1 \/ ostatus s = 2 -> exists t, owner (opcs s t);
  o_un : forall t u, owner (opcs s t) -> owner (opcs s u) -> t = u;
  o_fini : forall t, fini (opcs s t) -> ostatus s = 3;
  o_3 : ostatus s = 3 -> runs s = 1%nat /\ data s <> None;
  o_0 : ostatus s = 0 -> runs s = 0%nat;
  o_ret : forall t d, opcs s t = ORet d -> d = data s;
  o_sl : forall t, opcs s t = OWait WSleep -> ostatus s = 2 \/ exists u, opcs s u = OWaking;
  o_bad : forall t, ~ bad (opcs s t);
  o_wait : forall t p, opcs s t = OWait p -> ostatus s <> 0 }.

Lemma oinv_init : oinv on_init.
Proof.
  constructor; cbn; unfold owner, bad; try discriminate; auto;
    try (intros; intuition discriminate); try (intros; contradiction).
Qed.

Definition oquiet (p : opc) : Prop := ~ owner p /\ ~ fini p /\ ~ bad p.

Ltac oq := repeat split; unfold owner, bad; cbn; try (intros [|]; discriminate); try (let K := fresh in intro K; exact K); auto.

(* the status and the data are unchanged, t moves between quiet places *)
Lemma o_move s t p : oinv s -> oquiet p -> ~ owner (opcs s t) -> opcs s t <> OWaking ->
  (p = OWait WSleep -> ostatus s = 2) -> ostatus s <> 0 ->
  oinv (OState (ostatus s) (data s) (runs s) (setf (opcs s) t p)).
Proof.
  intros I (Q1 & Q2 & Q3) NO NW SL N0. destruct I.
  constructor; cbn [ostatus data runs opcs]; auto.
  - intros u K. setf_cases; eauto. exfalso; apply Q1; left; auto.
  - intros u K. setf_cases; eauto. exfalso; apply Q1; right; auto.
  - intro K. destruct (o_ex0 K) as (u & Hu). exists u. setf_cases; auto. contradiction.
  - intros u v K1 K2. setf_cases; try contradiction; eauto.
  - intros u K. setf_cases; eauto. contradiction.
  - intros u d K. setf_cases; eauto. subst p. exfalso; apply Q2; cbn; auto.
  - intros u K. setf_cases; auto. destruct (o_sl0 u K) as [X|(v & X)]; auto.
    right. exists v. setf_cases; auto. congruence.
  - intros u. setf_cases; auto.
Qed.

(* t starts the constructor *)
Lemma o_begin s t : oinv s -> ostatus s = 0 -> ~ owner (opcs s t) -> opcs s t <> OWaking ->
  oinv (OState 1 (data s) (runs s) (setf (opcs s) t OIn)).
Proof.
  intros I Z0 NO NW. destruct I.
  assert (NOW : forall u, ~ owner (opcs s u)).
  { intros u [K|K]; [destruct (o_in0 u K)|destruct (o_store0 u K)]; lia. }
  constructor; cbn [ostatus data runs opcs]; auto; try lia.
  - intros u K. setf_cases; [discriminate|]. exfalso; apply (NOW u); right; auto.
  - intros _. exists t. rewrite setf_same. left; auto.
  - intros u v K1 K2. setf_cases; auto; exfalso; eapply NOW; eauto.
  - intros u K. setf_cases; [destruct K|]. pose proof (o_fini0 u K). lia.
  - intros u d K. setf_cases; [discriminate|]. eauto.
  - intros u K. setf_cases; [discriminate|]. destruct (o_sl0 u K) as [X|(v & X)]; [lia|].
    right. exists v. setf_cases; auto. congruence.
  - intros u. setf_cases; auto. intros [|]; discriminate.
Qed.

Lemma o_construct s t v : oinv s -> opcs s t = OIn ->
  oinv (OState (ostatus s) (Some v) (S (runs s)) (setf (opcs s) t OStore)).
Proof.
  intros I P. destruct I. destruct (o_in0 t P) as (S12 & R0).
  assert (ONE : forall u, owner (opcs s u) -> u = t) by (intros u K; apply o_un0; auto; left; auto).
  constructor; cbn [ostatus data runs opcs]; auto; try lia.
  - intros u K. setf_cases; [discriminate|]. exfalso. apply E. apply ONE. left; auto.
  - intros u K. setf_cases; [repeat split; auto; try lia; discriminate|]. exfalso. apply E. apply ONE. right; auto.
  - intros _. exists t. rewrite setf_same. right; auto.
  - intros u w K1 K2. setf_cases; auto; try (symmetry; apply ONE; auto; fail).
  - intros u K. setf_cases; [destruct K|]. eauto.
  - intros u d K. setf_cases; [discriminate|]. assert (F : fini (opcs s u)) by (rewrite K; exact Logic.I).
    pose proof (o_fini0 u F). lia.
  - intros u K. setf_cases; [discriminate|]. destruct (o_sl0 u K) as [X|(w & X)]; auto.
    right. exists w. setf_cases; auto. congruence.
  - intros u. setf_cases; auto. intros [|]; discriminate.
Qed.

Lemma o_publish s t p : oinv s -> opcs s t = OStore ->
  p = (if ostatus s =? 2 then OWaking else ORead) ->
  oinv (OState 3 (data s) (runs s) (setf (opcs s) t p)).
Proof.
  intros I P EP. destruct I. destruct (o_store0 t P) as (S12 & R1 & D).
  assert (ONE : forall u, owner (opcs s u) -> u = t) by (intros u K; apply o_un0; auto; right; auto).
  assert (FP : fini p) by (subst p; destruct (ostatus s =? 2); exact Logic.I).
  assert (NP : ~ owner p) by (subst p; destruct (ostatus s =? 2); intros [|]; discriminate).
  constructor; cbn [ostatus data runs opcs]; auto; try lia.
  - intros u K. setf_cases; [exfalso; apply NP; left; auto|]. exfalso. apply E. apply ONE. left; auto.
  - intros u K. setf_cases; [exfalso; apply NP; right; auto|]. exfalso. apply E. apply ONE. right; auto.
  - intros u w K1 K2. setf_cases; try contradiction. auto.
  - intros u d K. setf_cases.
    + try subst p. destruct (ostatus s =? 2); discriminate.
    + eauto.
  - intros u K. setf_cases; [try subst p; destruct (ostatus s =? 2); discriminate|].
    destruct (o_sl0 u K) as [X|(w & X)].
    + right. exists t. rewrite setf_same. try subst p. rewrite X. reflexivity.
    + right. exists w. setf_cases; auto. congruence.
  - intros u. setf_cases; auto. try subst p; destruct (ostatus s =? 2); intros [|]; discriminate.
Qed.

Lemma owake_inv f u p : owake_all f u = p -> (forall q, p <> OWait q) -> f u = p.
Proof. unfold owake_all. destruct (f u); intros; subst; auto. exfalso; eapply H0; eauto. Qed.

Lemma owake_sleep f u : owake_all f u <> OWait WSleep.
Proof. unfold owake_all. destruct (f u) as [| | | |p| | |]; try discriminate. destruct p; discriminate. Qed.

Lemma o_wakes s t : oinv s -> opcs s t = OWaking ->
  oinv (OState (ostatus s) (data s) (runs s) (setf (owake_all (opcs s)) t ORead)).
Proof.
  intros I P. destruct I.
  assert (S3 : ostatus s = 3) by (apply (o_fini0 t); rewrite P; exact Logic.I).
  assert (OW : forall u, owner (owake_all (opcs s) u) <-> owner (opcs s u)).
  { intro u. unfold owner, owake_all. destruct (opcs s u); split; intros [|]; try discriminate; auto. }
  assert (FW : forall u, fini (owake_all (opcs s) u) <-> fini (opcs s u)).
  { intro u. unfold owake_all. destruct (opcs s u); cbn; tauto. }
  constructor; cbn [ostatus data runs opcs]; auto; try lia.
  - intros u K. setf_cases; [discriminate|]. apply owake_inv in K; [eauto|discriminate].
  - intros u K. setf_cases; [discriminate|]. apply owake_inv in K; [eauto|discriminate].
  - intros u v K1 K2. setf_cases; try (destruct K1; discriminate); try (destruct K2; discriminate).
    apply o_un0; apply OW; auto.
  - intros u d K. setf_cases; [discriminate|]. apply owake_inv in K; [eauto|discriminate].
  - intros u K. setf_cases; [discriminate|]. exfalso; eapply owake_sleep; eauto.
  - intros u. setf_cases; [intros [|]; discriminate|].
    unfold owake_all. specialize (o_bad0 u). unfold bad in *. destruct (opcs s u) as [| | | |p| | |]; auto.
    destruct p; cbn; intros [|]; try discriminate. apply o_bad0; auto.
Qed.

Lemma o_finish s t p : oinv s -> ostatus s = 3 -> ~ owner (opcs s t) -> opcs s t <> OWaking ->
  (p = ORead \/ p = ORet (data s)) ->
  oinv (OState (ostatus s) (data s) (runs s) (setf (opcs s) t p)).
Proof.
  intros I S3 NO NW EP. destruct I.
  assert (NP : ~ owner p) by (intros [X|X]; destruct EP; congruence).
  constructor; cbn [ostatus data runs opcs]; auto; try lia.
  - intros u K. setf_cases; eauto. destruct EP; congruence.
  - intros u K. setf_cases; eauto. destruct EP; congruence.
  - intros u v K1 K2. setf_cases; try contradiction; auto.
  - intros u d K. setf_cases; eauto. destruct EP; congruence.
  - intros u K. setf_cases; [destruct EP; congruence|]. destruct (o_sl0 u K) as [X|(v & X)]; auto.
    right. exists v. setf_cases; auto. congruence.
  - intros u. setf_cases; auto. intros [X|X]; destruct EP; congruence.
Qed.

(* t marks the word: 1 -> 2 *)
Lemma o_mark s t : oinv s -> ostatus s = 1 -> ~ owner (opcs s t) -> opcs s t <> OWaking ->
  oinv (OState 2 (data s) (runs s) (setf (opcs s) t (OWait WFutex))).
Proof.
  intros I S1 NO NW. destruct I.
  constructor; cbn [ostatus data runs opcs]; auto; try lia.
  - intros u K. setf_cases; [discriminate|]. destruct (o_in0 u K); auto.
  - intros u K. setf_cases; [discriminate|]. destruct (o_store0 u K); auto.
  - intros _. destruct o_ex0 as (u & Hu); auto. exists u. setf_cases; auto. contradiction.
  - intros u v K1 K2. setf_cases; try (destruct K1; discriminate); try (destruct K2; discriminate). auto.
  - intros u K. setf_cases; [destruct K|]. pose proof (o_fini0 u K). lia.
  - intros u d K. setf_cases; [discriminate|]. eauto.
  - intros u. setf_cases; auto. intros [|]; discriminate.
Qed.

Lemma on_attempt_cases w spur :
  (w = 3 /\ on_attempt w spur = (w, Desired)) \/
  (exists st, on_attempt w spur = (w, st) /\ st <> Desired /\ w <> 3).
Proof.
  unfold on_attempt, WAITING, INITIALIZED.
  destruct (Z.eqb_spec w 2); [right; exists Waiting; repeat split; try discriminate; lia|].
  destruct (Z.eqb_spec w 3); [left; auto|right; exists Other; repeat split; auto; discriminate].
Qed.

Lemma on_mark_cases w spur :
  (w = 1 /\ on_mark_long w spur = (2, Other)) \/
  (exists st, on_mark_long w spur = (w, st)).
Proof.
  unfold on_mark_long, cas, INITIALIZING, WAITING.
  destruct (Z.eqb_spec w 1); destruct spur; cbn [andb negb]; subst; auto; right; eexists; reflexivity.
Qed.

Lemma o_call s t s' : oinv s -> opcs s t = OIdle \/ (exists d, opcs s t = ORet d) ->
  on_exec s (t, OCall) = Some s' -> oinv s'.
Proof.
  intros I P X.
  assert (NO : ~ owner (opcs s t)) by (intros [K|K]; destruct P as [P|(d & P)]; congruence).
  assert (NW : opcs s t <> OWaking) by (intro K; destruct P as [P|(d & P)]; congruence).
  unfold on_exec in X. cbn [fst snd] in X.
  unfold cas, UNINITIALIZED, INITIALIZING, WAITING, INITIALIZED in X.
  assert (X' : s' =
    if ostatus s =? 0 then OState 1 (data s) (runs s) (setf (opcs s) t OIn)
    else if (ostatus s =? 1) || (ostatus s =? 2)
      then OState (ostatus s) (data s) (runs s) (setf (opcs s) t (OWait (WSpin SPINS)))
    else if ostatus s =? 3 then OState (ostatus s) (data s) (runs s) (setf (opcs s) t ORead)
    else OState (ostatus s) (data s) (runs s) (setf (opcs s) t OPanic)).
  { destruct P as [P|(d & P)]; rewrite P in X;
      destruct (ostatus s =? 0); cbn -[setf Z.eqb SPINS] in X; try congruence;
      destruct (ostatus s =? 1); cbn -[setf Z.eqb SPINS] in X |- *; try congruence;
      destruct (ostatus s =? 2); cbn -[setf Z.eqb SPINS] in X |- *; try congruence;
      destruct (ostatus s =? 3); congruence. }
  clear X. subst s'.
  destruct (Z.eqb_spec (ostatus s) 0); [apply o_begin; auto|].
  destruct (Z.eqb_spec (ostatus s) 1); cbn [orb]; [apply o_move; auto; try discriminate; oq|].
  destruct (Z.eqb_spec (ostatus s) 2); cbn [orb]; [apply o_move; auto; try discriminate; oq|].
  destruct (Z.eqb_spec (ostatus s) 3); [apply o_finish; auto|].
  destruct (o_st s I) as [|[|[|]]]; contradiction.
Qed.

Opaque on_attempt on_mark_long.

Lemma oinv_step s l s' : oinv s -> on_exec s l = Some s' -> oinv s'.
Proof.
  intros I X. destruct l as (t & a).
  destruct a; [destruct (opcs s t) eqn:P; try (eapply o_call; eauto; fail)| | |];
    unfold on_exec in X; cbn [fst snd] in X.
  all: try (rewrite P in X; discriminate).
  - rewrite P in X. destruct p; discriminate.
  - destruct (opcs s t) eqn:P; try discriminate; try (destruct p; discriminate).
    inversion X; subst. apply o_construct; auto.
  - destruct (opcs s t) as [| | | |p| |d|] eqn:P; try discriminate.
    + inversion X; subst. eapply o_publish; eauto.
    + inversion X; subst. apply o_wakes; auto.
    + assert (NO : ~ owner (opcs s t)) by (intros [K|K]; congruence).
      assert (NW : opcs s t <> OWaking) by congruence.
      pose proof (o_wait s I t p P) as N0.
      destruct (wu_step on_attempt on_mark_long WAITING (ostatus s) p spur) as [(w' & p')|] eqn:W;
        [|destruct p; discriminate].
      assert (X' : s' = OState w' (data s) (runs s) (setf (opcs s) t (ofin p'))) by (destruct p; congruence).
      clear X. subst s'.
      destruct p as [[|k]|[|]| | | |]; cbn [wu_step] in W; try discriminate;
        inversion W; subst w' p'; clear W.
      * destruct (on_attempt_cases (ostatus s) spur) as [(S3 & R)|(st & R & NS & _)]; rewrite R; cbn [fst snd].
        -- apply o_finish; auto.
        -- destruct st; try congruence; cbn; apply o_move; auto; try discriminate; oq.
      * destruct (on_attempt_cases (ostatus s) spur) as [(S3 & R)|(st & R & NS & _)]; rewrite R; cbn [fst snd].
        -- apply o_finish; auto.
        -- destruct st; try congruence; cbn; apply o_move; auto; try discriminate; oq.
      * cbn. apply o_move; auto; try discriminate; oq.
      * destruct (on_mark_cases (ostatus s) spur) as [(S1 & R)|(st & R)]; rewrite R; cbn [fst snd].
        -- cbn. apply o_mark; auto.
        -- destruct st; cbn; apply o_move; auto; try discriminate; oq.
      * unfold WAITING. destruct (Z.eqb_spec (ostatus s) 2); cbn; apply o_move; auto; try discriminate; oq.
      * destruct (on_attempt_cases (ostatus s) spur) as [(S3 & R)|(st & R & NS & _)]; rewrite R; cbn [fst snd].
        -- apply o_finish; auto.
        -- destruct st; try congruence; cbn; apply o_move; auto; try discriminate; oq.
    + inversion X; subst. apply o_finish; auto; try congruence.
      * apply (o_fini s I t). rewrite P. exact Logic.I.
      * intros [|]; congruence.
  - destruct (opcs s t) as [| | | |p| |d|] eqn:P; try discriminate. destruct p; try discriminate.
    inversion X; subst. apply o_move; auto; try congruence; try (oq; fail).
    + intros [|]; congruence.
    + eapply o_wait; eauto.
Qed.

Transparent on_attempt on_mark_long.

Lemma oinv_reach s : reachable on_exec on_init s -> oinv s.
Proof. apply reachable_inv; [exact oinv_init|exact oinv_step]. Qed.

Lemma once_runs s : reachable on_exec on_init s -> (runs s <= 1)%nat.
Proof.
  intro R. pose proof (oinv_reach s R) as I.
  assert (OW : forall u, owner (opcs s u) -> (runs s <= 1)%nat).
  { intros u [U|U]; [rewrite (proj2 (o_in s I u U)); auto|].
    destruct (o_store s I u U) as (_ & -> & _). auto. }
  destruct (o_st s I) as [K|[K|[K|K]]].
  - rewrite (o_0 s I K). auto.
  - destruct (o_ex s I) as (u & U); eauto.
  - destruct (o_ex s I) as (u & U); eauto.
  - rewrite (proj1 (o_3 s I K)). auto.
Qed.

Lemma once_returned s t d : reachable on_exec on_init s -> opcs s t = ORet d ->
  runs s = 1%nat /\ (forall u, opcs s u <> OIn) /\ exists v, d = Some v /\ data s = Some v.
Proof.
  intros R P. pose proof (oinv_reach s R) as I.
  assert (S3 : ostatus s = 3) by (apply (o_fini s I t); rewrite P; exact Logic.I).
  destruct (o_3 s I S3) as (R1 & D). split; [exact R1|]. split.
  - intros u U. destruct (o_in s I u U). lia.
  - pose proof (o_ret s I t d P). destruct (data s) as [v|]; [|congruence]. exists v. auto.
Qed.

Lemma once_no_panic s t : reachable on_exec on_init s -> opcs s t <> OPanic.
Proof. intros R P. apply (o_bad s (oinv_reach s R) t). left. exact P. Qed.

Definition oplain (l : tid * oact) : Prop := snd l = OStep false.

Definition in_call (p : opc) : Prop := match p with OIdle | ORet _ => False | _ => True end.

Definition returns (s : ostate) (t : tid) : Prop :=
  exists ls s' d, run on_exec s ls = Some s' /\ opcs s' t = ORet d /\ Forall oplain ls.

Lemma returns_step s t u s1 : on_exec s (u, OStep false) = Some s1 -> returns s1 t -> returns s t.
Proof.
  intros X (ls & s' & d & R & P & F). exists ((u, OStep false) :: ls), s', d.
  cbn [run]. rewrite X. repeat split; auto. constructor; [reflexivity|auto].
Qed.

Lemma read_returns s t : opcs s t = ORead -> returns s t.
Proof.
  intro P. exists [(t, OStep false)]. eexists. exists (data s). cbn [run]. unfold on_exec. cbn [fst snd].
  rewrite P. split; [reflexivity|]. split; [cbn [opcs]; apply setf_same|]. repeat constructor.
Qed.

Lemma spin0_or_retry_returns s t p : ostatus s = 3 -> opcs s t = OWait p ->
  p = WRetry \/ (exists k, p = WSpin k) -> returns s t.
Proof.
  intros S3 P K. eapply (returns_step s t t).
  - unfold on_exec. cbn [fst snd]. rewrite P. destruct K as [->|(k & ->)]; [|destruct k];
      cbn [wu_step]; rewrite S3; cbn; reflexivity.
  - apply read_returns. cbn. apply setf_same.
Qed.

Lemma awake_returns s t p : ostatus s = 3 -> opcs s t = OWait p -> p <> WSleep -> p <> WDone -> returns s t.
Proof.
  intros S3 P N1 N2.
  destruct p as [k|[|]| | | |]; try congruence.
  - eapply spin0_or_retry_returns; eauto.
  - eapply (returns_step s t t). { unfold on_exec. cbn [fst snd]. rewrite P. cbn. reflexivity. }
    eapply (returns_step _ t t).
    { unfold on_exec. cbn [fst snd opcs]. rewrite setf_same. cbn. rewrite S3. cbn. reflexivity. }
    eapply spin0_or_retry_returns; [reflexivity|cbn [opcs]; apply setf_same|auto].
  - eapply (returns_step s t t).
    { unfold on_exec. cbn [fst snd]. rewrite P. cbn [wu_step]. rewrite S3. cbn. reflexivity. }
    eapply spin0_or_retry_returns; [reflexivity|cbn [opcs]; apply setf_same|auto].
  - eapply (returns_step s t t).
    { unfold on_exec. cbn [fst snd]. rewrite P. cbn [wu_step]. rewrite S3. cbn. reflexivity. }
    eapply spin0_or_retry_returns; [reflexivity|cbn [opcs]; apply setf_same|auto].
  - eapply spin0_or_retry_returns; eauto.
Qed.

Lemma done_returns s t : oinv s -> ostatus s = 3 -> in_call (opcs s t) -> returns s t.
Proof.
  intros I S3 C. destruct (opcs s t) as [| | | |p| |d|] eqn:P; try contradiction.
  - destruct (o_in s I t P). lia.
  - destruct (o_store s I t P). lia.
  - eapply (returns_step s t t). { unfold on_exec. cbn [fst snd]. rewrite P. reflexivity. }
    apply read_returns. cbn. apply setf_same.
  - destruct p; try (eapply awake_returns; eauto; discriminate).
    + destruct (o_sl s I t P) as [X|(u & U)]; [lia|].
      eapply (returns_step s t u). { unfold on_exec. cbn [fst snd]. rewrite U. reflexivity. }
      eapply (awake_returns _ t WRetry); try discriminate; auto.
      cbn [opcs]. rewrite setf_other by congruence. unfold owake_all. rewrite P. reflexivity.
    + exfalso. apply (o_bad s I t). right. exact P.
  - apply read_returns. exact P.
  - exfalso. apply (o_bad s I t). left. exact P.
Qed.

Lemma once_progress s t : reachable on_exec on_init s ->
  (forall u, opcs s u <> OIn) -> in_call (opcs s t) -> returns s t.
Proof.
  intros R N C. pose proof (oinv_reach s R) as I.
  assert (OW : forall u, opcs s u = OStore -> returns s t).
  { intros u U.
    assert (X : on_exec s (u, OStep false) =
      Some (OState 3 (data s) (runs s) (setf (opcs s) u (if ostatus s =? 2 then OWaking else ORead)))).
    { unfold on_exec. cbn [fst snd]. rewrite U. reflexivity. }
    eapply returns_step; [exact X|]. apply done_returns.
    - eapply oinv_step; eauto.
    - reflexivity.
    - cbn [opcs]. setf_cases; [|exact C]. destruct (ostatus s =? 2); exact Logic.I. }
  destruct (o_st s I) as [K|[K|[K|K]]].
  - destruct (opcs s t) eqn:P; try contradiction.
    + exfalso; eapply N; eauto.
    + eapply OW; eauto.
    + assert (ostatus s = 3) by (apply (o_fini s I t); rewrite P; exact Logic.I). lia.
    + exfalso. eapply (o_wait s I t); eauto.
    + assert (ostatus s = 3) by (apply (o_fini s I t); rewrite P; exact Logic.I). lia.
    + exfalso. apply (o_bad s I t). left. exact P.
  - destruct (o_ex s I) as (u & [U|U]); auto; [exfalso; eapply N; eauto|eauto].
  - destruct (o_ex s I) as (u & [U|U]); auto; [exfalso; eapply N; eauto|eauto].
  - apply done_returns; auto.
Qed.

(* The value in the cell never changes once a call returned. *)
Lemma once_value_fixed s t v ls s' u d : reachable on_exec on_init s ->
  opcs s t = ORet (Some v) -> run on_exec s ls = Some s' -> opcs s' u = ORet d -> d = Some v.
Proof.
  intros R P X Q.
  assert (K : oinv s' /\ ostatus s' = 3 /\ data s' = Some v).
  { eapply (run_inv on_exec (fun z => oinv z /\ ostatus z = 3 /\ data z = Some v)); [|split|exact X].
    - intros z l z' (I & S3 & D) E. pose proof (oinv_step _ _ _ I E) as I'. split; [exact I'|].
      destruct l as (w & a). unfold on_exec in E. cbn [fst snd] in E. unfold cas in E. rewrite S3 in E.
      destruct (opcs z w) as [| | | |p| |d0|] eqn:PZ; destruct a; try discriminate; try (destruct p; discriminate).
      + inversion E; subst. cbn. auto.
      + exfalso. destruct (o_in z I w PZ). lia.
      + inversion E; subst. cbn. auto.
      + inversion E; subst. cbn. auto.
      + destruct p as [[|k]|[|]| | | |]; cbn in E; try discriminate; inversion E; subst; cbn; auto;
        destruct spur; cbn; auto.
      + destruct p; inversion E; subst; cbn; auto.
      + inversion E; subst. cbn. auto.
      + inversion E; subst. cbn. auto.
    - apply oinv_reach; auto.
    - pose proof (oinv_reach s R) as I.
      split; [apply (o_fini s I t); rewrite P; exact Logic.I|]. symmetry. eapply o_ret; eauto. }
  destruct K as (I' & _ & D). rewrite <- D. eapply o_ret; eauto.
Qed.
