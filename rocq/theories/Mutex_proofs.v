From Coq Require Import ZArith List Bool Lia.
From Verif Require Import Conc Waituntil_model Mutex_model.
Import ListNotations.
Open Scope Z_scope.

Definition minv (s : mstate) : Prop :=
  (word s = 0 \/ word s = 1 \/ word s = 2) /\
  (forall t, pc s t = Held -> word s <> 0) /\
  (word s <> 0 -> exists t, pc s t = Held) /\
  (forall t u, pc s t = Held -> pc s u = Held -> t = u) /\
  (forall t, pc s t = Locking WSleep -> word s = 2 \/ exists u, pc s u = Waking) /\
  (forall t, pc s t <> Locking WDone).

Lemma minv_init : minv mx_init.
Proof.
  repeat split; cbn; try discriminate; auto. intro H; exfalso; apply H; reflexivity.
Qed.

Lemma wake_all_held f u : wake_all f u = Held <-> f u = Held.
Proof. unfold wake_all. destruct (f u); split; congruence. Qed.
Lemma wake_all_waking f u : wake_all f u = Waking <-> f u = Waking.
Proof. unfold wake_all. destruct (f u); split; congruence. Qed.
Lemma wake_all_sleep f u : wake_all f u <> Locking WSleep.
Proof. unfold wake_all. destruct (f u) as [|p| |]; try discriminate. destruct p; discriminate. Qed.
Lemma wake_all_done f u : f u <> Locking WDone -> wake_all f u <> Locking WDone.
Proof. unfold wake_all. destruct (f u) as [|p| |]; try discriminate. destruct p; cbn; congruence. Qed.

(* Four ways a step can change the state. *)
Definition quiet (p : mpc) := p <> Held /\ p <> Waking /\ p <> Locking WDone.

(* (a) the word is unchanged, and t moves between quiet places *)
Lemma minv_move s t p : minv s -> pc s t <> Held -> pc s t <> Waking ->
  quiet p -> (p = Locking WSleep -> word s = 2) ->
  minv (MState (word s) (setf (pc s) t p)).
Proof.
  intros (A & B & C & D & E & F) NH NW (Q1 & Q2 & Q3) SL.
  unfold minv; cbn [word pc]. split; [exact A|].
  split; [intros u K; setf_cases; [congruence|eauto]|].
  split. { intro K. destruct (C K) as (u & Hu). exists u. setf_cases; [congruence|auto]. }
  split; [intros u v K1 K2; setf_cases; try congruence; eauto|].
  split.
  { intros u K. setf_cases; [left; auto|].
    destruct (E u K) as [W|(v & Hv)]; [left; exact W|]. right. exists v. setf_cases; [congruence|auto]. }
  intros u K. setf_cases; [congruence|]. eapply F; eauto.
Qed.

(* (b) t acquires: 0 -> 1 *)
Lemma minv_acquire s t : minv s -> word s = 0 -> pc s t <> Waking ->
  minv (MState 1 (setf (pc s) t Held)).
Proof.
  intros (A & B & C & D & E & F) W NW. unfold minv; cbn [word pc].
  split; [auto|]. split; [intros; lia|]. split; [intros; exists t; apply setf_same|].
  split. { intros u v K1 K2. setf_cases; auto; exfalso; eapply B; eauto. }
  split.
  { intros u K. setf_cases; [discriminate|].
    destruct (E u K) as [X|(v & Hv)]; [lia|]. right. exists v. setf_cases; [congruence|auto]. }
  intros u K. setf_cases; [congruence|]. eapply F; eauto.
Qed.

(* (c) t marks the word: 1 -> 2 *)
Lemma minv_mark s t p : minv s -> word s = 1 -> pc s t <> Held -> pc s t <> Waking ->
  quiet p -> p <> Locking WSleep ->
  minv (MState 2 (setf (pc s) t p)).
Proof.
  intros (A & B & C & D & E & F) W NH NW (Q1 & Q2 & Q3) NS. unfold minv; cbn [word pc].
  split; [auto|]. split; [intros; lia|].
  split. { intros _. destruct C as (u & Hu); [lia|]. exists u. setf_cases; [congruence|auto]. }
  split; [intros u v K1 K2; setf_cases; try congruence; eauto|].
  split; [auto|].
  intros u K. setf_cases; [congruence|]. eapply F; eauto.
Qed.

(* (d) t releases *)
Lemma minv_release s t : minv s -> pc s t = Held ->
  minv (MState 0 (setf (pc s) t (if word s =? 2 then Waking else Idle))).
Proof.
  intros (A & B & C & D & E & F) H. unfold minv; cbn [word pc].
  split; [auto|]. split.
  { intros u K. setf_cases; [destruct (word s =? 2); discriminate|].
    exfalso. match goal with N : u <> t |- _ => apply N end. eauto. }
  split; [lia|]. split.
  { intros u v K1 K2. setf_cases; try (destruct (word s =? 2); discriminate). eauto. }
  split.
  { intros u K. setf_cases; [destruct (word s =? 2); discriminate|].
    destruct (E u K) as [W|(v & Hv)].
    - right. exists t. rewrite setf_same, W. reflexivity.
    - right. exists v. setf_cases; [congruence|auto]. }
  intros u K. setf_cases; [destruct (word s =? 2); discriminate|]. eapply F; eauto.
Qed.

(* (e) t wakes everybody *)
Lemma minv_wake s t : minv s -> pc s t = Waking ->
  minv (MState (word s) (setf (wake_all (pc s)) t Idle)).
Proof.
  intros (A & B & C & D & E & F) H. unfold minv; cbn [word pc].
  split; [auto|].
  split. { intros u K. setf_cases; [discriminate|]. apply (proj1 (wake_all_held _ _)) in K. exact (B u K). }
  split. { intro K. destruct (C K) as (u & Hu). exists u. setf_cases; [congruence|]. apply wake_all_held; auto. }
  split. { intros u v K1 K2. setf_cases; try discriminate. apply (proj1 (wake_all_held _ _)) in K1, K2. exact (D u v K1 K2). }
  split. { intros u K. setf_cases; [discriminate|]. exfalso; eapply wake_all_sleep; eauto. }
  intros u K. setf_cases; [discriminate|]. eapply wake_all_done; [|exact K]. apply F.
Qed.

Lemma mstate_eta s : MState (word s) (pc s) = s.
Proof. destruct s; reflexivity. Qed.

Lemma attempt_cases w spur :
  (w = 0 /\ spur = false /\ mx_attempt w spur = (1, Desired)) \/
  (exists st, mx_attempt w spur = (w, st) /\ st <> Desired).
Proof.
  unfold mx_attempt, cas, UNLOCKED, LOCKED, WAITING.
  destruct (Z.eqb_spec w 0); destruct spur; cbn [andb negb]; subst.
  - right. eexists. split; [reflexivity|]. discriminate.
  - left; auto.
  - right. eexists. split; [reflexivity|]. destruct (w =? 2); discriminate.
  - right. eexists. split; [reflexivity|]. destruct (w =? 2); discriminate.
Qed.

Lemma mark_cases w spur :
  (w = 1 /\ mx_mark_long w spur = (2, Other)) \/
  (exists st, mx_mark_long w spur = (w, st)).
Proof.
  unfold mx_mark_long, cas, UNLOCKED, LOCKED, WAITING.
  destruct (Z.eqb_spec w 1); destruct spur; cbn [andb negb]; subst.
  - right. eexists. reflexivity.
  - left; auto.
  - right. eexists. reflexivity.
  - right. eexists. reflexivity.
Qed.

Ltac quiet_tac := solve [ repeat split; discriminate | discriminate ].

Lemma minv_step s l s' : minv s -> mx_exec s l = Some s' -> minv s'.
Proof.
  intros I X. destruct l as (t & a). unfold mx_exec in X. cbn [fst snd] in X.
  destruct (pc s t) as [|p| |] eqn:P.
  - (* Idle *)
    destruct a; try discriminate.
    + inversion X; subst. apply minv_move; auto; try congruence; quiet_tac.
    + unfold cas, UNLOCKED, LOCKED in X.
      destruct (Z.eqb_spec (word s) 0) as [W|W]; cbn [andb negb] in X; inversion X; subst.
      * apply minv_acquire; auto. congruence.
      * apply minv_move; auto; try congruence; quiet_tac.
  - (* Locking *)
    destruct a; try (destruct p; discriminate).
    2:{ destruct p; try discriminate. inversion X; subst.
        apply minv_move; auto; try congruence; quiet_tac. }
    assert (NH : pc s t <> Held) by congruence.
    assert (NW : pc s t <> Waking) by congruence.
    destruct (wu_step mx_attempt mx_mark_long WAITING (word s) p spur) as [(w' & p')|] eqn:W;
      [|destruct p; discriminate].
    assert (X' : s' = MState w' (setf (pc s) t (fin p'))) by (destruct p; congruence).
    clear X. subst s'.
    destruct p as [[|k]|[|]| | | |]; cbn [wu_step] in W; try discriminate;
      inversion W; subst w' p'; clear W.
    + destruct (attempt_cases (word s) spur) as [(Z0 & _ & R)|(st & R & NS)]; rewrite R; cbn [fst snd fin].
      * apply minv_acquire; auto.
      * apply minv_move; auto; destruct st; try congruence; cbn; quiet_tac.
    + destruct (attempt_cases (word s) spur) as [(Z0 & _ & R)|(st & R & NS)]; rewrite R; cbn [fst snd fin].
      * apply minv_acquire; auto.
      * apply minv_move; auto; destruct st; try congruence; cbn; quiet_tac.
    + apply minv_move; auto; cbn; quiet_tac.
    + destruct (mark_cases (word s) spur) as [(Z1 & R)|(st & R)]; rewrite R; cbn [fst snd fin].
      * apply minv_mark; auto; cbn; quiet_tac.
      * apply minv_move; auto; destruct st; cbn; quiet_tac.
    + unfold WAITING. destruct (Z.eqb_spec (word s) 2); cbn [fin];
        apply minv_move; auto; try quiet_tac; discriminate.
    + destruct (attempt_cases (word s) spur) as [(Z0 & _ & R)|(st & R & NS)]; rewrite R; cbn [fst snd fin].
      * apply minv_acquire; auto.
      * apply minv_move; auto; destruct st; try congruence; cbn; quiet_tac.
  - destruct a; try discriminate. inversion X; subst. apply minv_release; auto.
  - destruct a; try discriminate. inversion X; subst. apply minv_wake; auto.
Qed.

Lemma minv_reach s : reachable mx_exec mx_init s -> minv s.
Proof. apply reachable_inv; [exact minv_init|exact minv_step]. Qed.

Definition plain (l : tid * mact) : Prop := snd l = Step false.

(* With the word free, a thread inside lock that is not asleep gets the mutex by
   its own next steps. *)
Lemma retry_acquires s t : word s = 0 -> pc s t = Locking WRetry ->
  exists s', mx_exec s (t, Step false) = Some s' /\ pc s' t = Held.
Proof.
  intros W P. unfold mx_exec. cbn [fst snd]. rewrite P. cbn [wu_step].
  rewrite W. cbn. eexists; split; [reflexivity|]. cbn. apply setf_same.
Qed.

Lemma futex_acquires s t : word s = 0 -> pc s t = Locking WFutex ->
  exists ls s', run mx_exec s ls = Some s' /\ pc s' t = Held /\ Forall plain ls.
Proof.
  intros W P.
  assert (X : mx_exec s (t, Step false) = Some (MState 0 (setf (pc s) t (Locking WRetry)))).
  { unfold mx_exec. cbn [fst snd]. rewrite P. cbn [wu_step]. rewrite W. reflexivity. }
  edestruct (retry_acquires (MState 0 (setf (pc s) t (Locking WRetry))) t) as (s' & X' & H);
    [reflexivity|apply setf_same|].
  exists [(t, Step false); (t, Step false)], s'. cbn [run]. rewrite X, X'.
  repeat split; auto. repeat constructor.
Qed.

Lemma awake_acquires s t p : word s = 0 -> pc s t = Locking p -> p <> WSleep -> p <> WDone ->
  exists ls s', run mx_exec s ls = Some s' /\ pc s' t = Held /\ Forall plain ls.
Proof.
  intros W P N1 N2.
  destruct p as [[|k]|[|]| | | |]; try congruence.
  - exists [(t, Step false)]. eexists. cbn [run]. unfold mx_exec. cbn [fst snd]. rewrite P.
    cbn [wu_step]. rewrite W. cbn. split; [reflexivity|]. split; [apply setf_same|].
    repeat constructor.
  - exists [(t, Step false)]. eexists. cbn [run]. unfold mx_exec. cbn [fst snd]. rewrite P.
    cbn [wu_step]. rewrite W. cbn. split; [reflexivity|]. split; [apply setf_same|].
    repeat constructor.
  - assert (X : mx_exec s (t, Step false) = Some (MState 0 (setf (pc s) t (Locking WFutex)))).
    { unfold mx_exec. cbn [fst snd]. rewrite P. cbn [wu_step]. rewrite W. reflexivity. }
    edestruct (futex_acquires (MState 0 (setf (pc s) t (Locking WFutex))) t) as (ls & s' & R & H & F);
      [reflexivity|apply setf_same|].
    exists ((t, Step false) :: ls), s'. cbn [run]. rewrite X. repeat split; auto.
    constructor; [reflexivity|auto].
  - assert (X : mx_exec s (t, Step false) = Some (MState 0 (setf (pc s) t (Locking WRetry)))).
    { unfold mx_exec. cbn [fst snd]. rewrite P. cbn [wu_step]. rewrite W. reflexivity. }
    edestruct (retry_acquires (MState 0 (setf (pc s) t (Locking WRetry))) t) as (s' & X' & H);
      [reflexivity|apply setf_same|].
    exists [(t, Step false); (t, Step false)], s'. cbn [run]. rewrite X, X'.
    repeat split; auto. repeat constructor.
  - apply futex_acquires; auto.
  - destruct (retry_acquires s t W P) as (s' & X & H).
    exists [(t, Step false)], s'. cbn [run]. rewrite X. repeat split; auto. repeat constructor.
Qed.

Lemma free_word s : minv s -> (forall u, pc s u <> Held) -> word s = 0.
Proof.
  intros (A & B & C & D & E & F) N. destruct (Z.eq_dec (word s) 0) as [W|W]; [exact W|].
  destruct (C W) as (u & Hu). exfalso. exact (N u Hu).
Qed.

Lemma wake_step s u : pc s u = Waking ->
  forall b, mx_exec s (u, Step b) = Some (MState (word s) (setf (wake_all (pc s)) u Idle)).
Proof. intros H b. unfold mx_exec. cbn [fst snd]. rewrite H. reflexivity. Qed.

Lemma mutex_progress s t p : reachable mx_exec mx_init s ->
  (forall u, pc s u <> Held) -> pc s t = Locking p ->
  exists ls s', run mx_exec s ls = Some s' /\ pc s' t = Held /\ Forall plain ls.
Proof.
  intros R N P. pose proof (minv_reach _ R) as I. pose proof (free_word _ I N) as W.
  assert (ND : p <> WDone). { intro X; subst. destruct I as (_ & _ & _ & _ & _ & F). exact (F t P). }
  destruct p; try (eapply awake_acquires; eauto; discriminate).
  assert (Q : exists u, pc s u = Waking).
  { destruct I as (_ & _ & _ & _ & E & _). destruct (E t P) as [X|X]; [lia|exact X]. }
  destruct Q as (u & Hu).
  edestruct (awake_acquires (MState (word s) (setf (wake_all (pc s)) u Idle)) t WRetry)
    as (ls & s' & R' & H & F); auto; try discriminate.
  { cbn [pc]. rewrite setf_other by congruence. unfold wake_all. rewrite P. reflexivity. }
  exists ((u, Step false) :: ls), s'. cbn [run]. rewrite (wake_step _ _ Hu). repeat split; auto.
  constructor; [reflexivity|auto].
Qed.

Lemma mutex_sleeper s t : reachable mx_exec mx_init s -> pc s t = Locking WSleep ->
  (exists u, pc s u = Held) \/
  (exists u, pc s u = Waking /\
     forall b s', mx_exec s (u, Step b) = Some s' -> forall v, pc s' v <> Locking WSleep).
Proof.
  intros R P. pose proof (minv_reach _ R) as (A & B & C & D & E & F).
  destruct (E t P) as [W|(u & Hu)].
  - left. apply C. lia.
  - right. exists u. split; [exact Hu|]. intros b s' X v. rewrite (wake_step _ _ Hu) in X.
    inversion X; subst. cbn [pc]. setf_cases; [discriminate|]. apply wake_all_sleep.
Qed.

Lemma mutex_exclusion s t u : reachable mx_exec mx_init s ->
  pc s t = Held -> pc s u = Held -> t = u.
Proof. intros R. pose proof (minv_reach _ R) as (A & B & C & D & E & F). apply D. Qed.

Lemma mutex_trylock s t s' : reachable mx_exec mx_init s ->
  mx_exec s (t, CallTryLock) = Some s' ->
  (pc s' t = Held <-> forall u, pc s u <> Held) /\ (pc s' t = Held \/ pc s' t = Idle).
Proof.
  intros R X. pose proof (minv_reach _ R) as I. pose proof I as (A & B & C & D & E & F).
  unfold mx_exec in X. cbn [fst snd] in X.
  destruct (pc s t) as [|p| |] eqn:P; try (destruct p); try discriminate.
  unfold cas, UNLOCKED, LOCKED in X.
  destruct (Z.eqb_spec (word s) 0) as [W|W]; cbn [andb negb] in X; inversion X; subst; cbn [pc];
    rewrite setf_same.
  - split; [|auto]. split; [|auto]. intros _ u Hu. exact (B u Hu W).
  - split; [|auto]. split; [discriminate|]. intro N. destruct (C W) as (u & Hu).
    exfalso. exact (N u Hu).
Qed.
