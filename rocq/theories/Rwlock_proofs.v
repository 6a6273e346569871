From Coq Require Import ZArith List Bool Lia.
From Verif Require Import Conc Waituntil_model Rwlock_model Rwlock_spec.
Import ListNotations.
Open Scope Z_scope.

(* The bit operations on the lock word. *)
Lemma low_land r : 0 <= r < 2 ^ 31 -> Z.land r WAITING_WR = 0.
Proof.
  intro H. unfold WAITING_WR. apply Z.bits_inj'. intros n Hn.
  rewrite Z.land_spec, Z.pow2_bits_eqb, Z.bits_0 by lia.
  destruct (Z.eqb_spec 31 n) as [E|E]; [|apply andb_false_r]. subst n.
  rewrite andb_true_r. destruct (Z.eq_dec r 0) as [->|N]; [apply Z.bits_0|].
  apply Z.bits_above_log2; [lia|]. apply Z.log2_lt_pow2; lia.
Qed.

Lemma low_lor r : 0 <= r < 2 ^ 31 -> Z.lor r WAITING_WR = r + 2 ^ 31.
Proof.
  intro H. pose proof (low_land r H) as L.
  rewrite <- (Z.lxor_lor _ _ L), <- (Z.add_nocarry_lxor _ _ L). reflexivity.
Qed.

Lemma land_count w : Z.land w COUNT_MASK = w mod 2 ^ 31.
Proof. unfold COUNT_MASK. change (2 ^ 31 - 1) with (Z.ones 31). apply Z.land_ones. lia. Qed.

Lemma w_split w : 0 <= w < 2 ^ 32 -> w = w mod 2 ^ 31 \/ w = w mod 2 ^ 31 + 2 ^ 31.
Proof.
  intro H. pose proof (Z.div_mod w (2 ^ 31) ltac:(lia)).
  pose proof (Z.mod_pos_bound w (2 ^ 31) ltac:(lia)).
  change (2 ^ 31) with 2147483648 in *. change (2 ^ 32) with 4294967296 in *. lia.
Qed.

Lemma m_bound w : 0 <= w mod 2 ^ 31 < 2 ^ 31.
Proof. apply Z.mod_pos_bound. lia. Qed.

Lemma land_wr w : 0 <= w < 2 ^ 32 -> Z.land w WAITING_WR = w - w mod 2 ^ 31.
Proof.
  intro H. pose proof (m_bound w) as B. destruct (w_split w H) as [E|E].
  - rewrite low_land; lia.
  - rewrite <- low_lor in E by lia. rewrite E at 1. rewrite Z.land_lor_distr_l, low_land by lia.
    rewrite Z.land_diag, Z.lor_0_l. unfold WAITING_WR. rewrite low_lor in E by lia. lia.
Qed.

Lemma lor_wr w : 0 <= w < 2 ^ 32 -> Z.lor w WAITING_WR = w mod 2 ^ 31 + 2 ^ 31.
Proof.
  intro H. pose proof (m_bound w) as B. destruct (w_split w H) as [E|E].
  - rewrite low_lor; lia.
  - rewrite <- low_lor in E by lia. rewrite E at 1. rewrite <- Z.lor_assoc, Z.lor_diag. apply low_lor. lia.
Qed.

Definition flag (x : Z) := x = 0 \/ x = 2 ^ 31.

Lemma land_flag w : 0 <= w < 2 ^ 32 -> flag (Z.land w WAITING_WR).
Proof. intro H. rewrite land_wr by lia. destruct (w_split w H); [left|right]; lia. Qed.

Lemma lor_flag r x : 0 <= r < 2 ^ 31 -> flag x -> Z.lor r x = r + x.
Proof. intros H [->| ->]; [rewrite Z.lor_0_r; lia|apply low_lor; lia]. Qed.

Lemma mod_flag r x : 0 <= r < 2 ^ 31 -> flag x -> (r + x) mod 2 ^ 31 = r.
Proof.
  intros H [->| ->]; [rewrite Z.add_0_r; apply Z.mod_small; lia|].
  symmetry. apply Z.mod_unique with 1; lia.
Qed.

Definition cnt (w : Z) := w mod 2 ^ 31.

Definition shape (w : Z) (k : tid -> cls) : Prop :=
  (cnt w = EXCLUSIVE /\ (exists t, k t = Writes /\ forall u, k u = Writes -> u = t) /\ forall u, k u <> Reads) \/
  (cnt w <> EXCLUSIVE /\ (forall u, k u <> Writes) /\
   exists l, NoDup l /\ (forall t, In t l <-> k t = Reads) /\ Z.of_nat (length l) = cnt w).

Lemma shape_ext w w' k k' : shape w k -> cnt w' = cnt w -> (forall t, k' t = k t) -> shape w' k'.
Proof.
  intros [(A & (t & B & C) & D)|(A & B & (l & C & D & E))] H K.
  - left. rewrite H. split; [exact A|]. split.
    + exists t. rewrite K. split; [exact B|]. intros u. rewrite K. apply C.
    + intro u. rewrite K. apply D.
  - right. rewrite H. split; [exact A|]. split; [intro u; rewrite K; apply B|].
    exists l. split; [exact C|]. split; [|exact E]. intro u. rewrite K. apply D.
Qed.

Lemma shape_acq_w w w' k k' t : shape w k -> cnt w = 0 -> cnt w' = EXCLUSIVE ->
  k' t = Writes -> (forall u, u <> t -> k' u = k u) -> shape w' k'.
Proof.
  intros [(A & _)|(A & B & (l & C & D & E))] Z0 H K1 K2; [rewrite Z0 in A; discriminate A|].
  left. split; [exact H|]. split.
  - exists t. split; [exact K1|]. intros u U. destruct (Z.eq_dec u t) as [|N]; auto.
    rewrite (K2 u N) in U. destruct (B u U).
  - intros u U. destruct (Z.eq_dec u t) as [->|N]; [congruence|].
    rewrite (K2 u N) in U. apply D in U. destruct l; [destruct U|]. cbn [length] in E. lia.
Qed.

Lemma shape_rel_w w w' k k' t : shape w k -> k t = Writes -> cnt w' = 0 ->
  k' t = Out -> (forall u, u <> t -> k' u = k u) -> shape w' k'.
Proof.
  intros [(A & (v & B & C) & D)|(A & B & _)] T H K1 K2; [|destruct (B t T)].
  pose proof (C t T); subst v.
  right. split; [rewrite H; discriminate|]. split.
  - intros u U. destruct (Z.eq_dec u t) as [->|N]; [congruence|]. rewrite (K2 u N) in U. auto.
  - exists []. split; [constructor|]. split; [|cbn; lia]. intro u. split; [intros []|].
    intro U. destruct (Z.eq_dec u t) as [->|N]; [congruence|]. rewrite (K2 u N) in U. destruct (D u U).
Qed.

Lemma shape_acq_r w w' k k' t : shape w k -> k t = Out -> cnt w <> EXCLUSIVE ->
  cnt w' = cnt w + 1 -> cnt w' <> EXCLUSIVE ->
  k' t = Reads -> (forall u, u <> t -> k' u = k u) -> shape w' k'.
Proof.
  intros [(A & _)|(A & B & (l & C & D & E))] T NE H HN K1 K2; [congruence|].
  right. split; [exact HN|]. split.
  - intros u U. destruct (Z.eq_dec u t) as [->|N]; [congruence|]. rewrite (K2 u N) in U. destruct (B u U).
  - exists (t :: l). split; [constructor; auto; rewrite D; congruence|].
    split; [|cbn [length]; lia]. intro u. cbn [In]. rewrite D.
    destruct (Z.eq_dec u t) as [->|N]; [rewrite K1; tauto|]. rewrite (K2 u N).
    split; [intros [|]; auto; congruence|auto].
Qed.

Lemma remove_length t (l : list Z) : NoDup l -> In t l ->
  S (length (remove Z.eq_dec t l)) = length l.
Proof.
  induction 1 as [|a l N ND IH]; intros I; [destruct I|].
  cbn [remove]. destruct (Z.eq_dec t a) as [->|NE].
  - rewrite notin_remove by exact N. reflexivity.
  - destruct I as [|I]; [congruence|]. cbn [length]. rewrite IH by exact I. reflexivity.
Qed.

Lemma nodup_remove t (l : list Z) : NoDup l -> NoDup (remove Z.eq_dec t l).
Proof.
  induction 1 as [|a l N ND IH]; [constructor|]. cbn [remove].
  destruct (Z.eq_dec t a); [exact IH|]. constructor; auto. intro I. apply in_remove in I. tauto.
Qed.

Lemma shape_rel_r w w' k k' t : shape w k -> k t = Reads -> cnt w' = cnt w - 1 ->
  k' t = Out -> (forall u, u <> t -> k' u = k u) -> shape w' k'.
Proof.
  intros [(A & _ & B)|(A & B & (l & C & D & E))] T H K1 K2; [destruct (B t T)|].
  pose proof (remove_length t l C ltac:(apply D; exact T)) as L.
  pose proof (m_bound w) as MB. fold (cnt w) in MB. right. split.
  - unfold EXCLUSIVE, COUNT_MASK in *. lia.
  - split.
    + intros u U. destruct (Z.eq_dec u t) as [->|N]; [congruence|]. rewrite (K2 u N) in U. destruct (B u U).
    + exists (remove Z.eq_dec t l). split; [apply nodup_remove; exact C|]. split; [|unfold tid in *; lia].
      intro u. destruct (Z.eq_dec u t) as [->|N].
      * rewrite K1. split; [intro I; apply in_remove in I; tauto|discriminate].
      * rewrite (K2 u N), <- D. split; [intro I; apply in_remove in I; tauto|].
        intro I. apply in_in_remove; auto.
Qed.

Lemma shape_some_reader w k t : shape w k -> k t = Reads -> 0 < cnt w < EXCLUSIVE.
Proof.
  intros [(A & _ & B)|(A & B & (l & C & D & E))] T; [destruct (B t T)|].
  pose proof (m_bound w) as MB. fold (cnt w) in MB.
  apply D in T. destruct l; [destruct T|]. cbn [length] in E. unfold EXCLUSIVE, COUNT_MASK in *. lia.
Qed.

Lemma shape_writer w k t : shape w k -> k t = Writes -> cnt w = EXCLUSIVE.
Proof. intros [(A & _)|(A & B & _)] T; [exact A|destruct (B t T)]. Qed.

Lemma shape_held w k : shape w k -> cnt w <> 0 -> exists t, k t <> Out.
Proof.
  intros [(A & (t & B & C) & D)|(A & B & (l & C & D & E))] N; [exists t; congruence|].
  destruct l as [|t l]; [cbn in E; lia|]. exists t. rewrite (proj1 (D t)) by (left; reflexivity). discriminate.
Qed.

Lemma shape_free w k : shape w k -> (forall t, k t = Out) -> cnt w = 0.
Proof.
  intros H F. destruct (Z.eq_dec (cnt w) 0) as [|N]; auto.
  destruct (shape_held w k H N) as (t & T). destruct (T (F t)).
Qed.


(* What a program counter remembers about the word. *)
Definition pc_ok (p : rpc) : Prop :=
  match p with
  | WCas _ wr | TCas wr => flag wr
  | WOr _ a => 0 <= a < 2 ^ 32
  | WFutex _ e | WSleep _ e => 0 <= e < 2 ^ 32 /\ cnt e <> 0
  | RCas _ c => 0 <= c < 2 ^ 32
  | RFutex _ c => 0 <= c < 2 ^ 32 /\ cnt c = EXCLUSIVE
  | _ => True
  end.

Record rwinv (s : rwstate) : Prop := RwInv {
  rw_rng : 0 <= rword s < 2 ^ 32;
  rw_shape : shape (rword s) (fun t => class (rpcs s t));
  rw_pc : forall t, pc_ok (rpcs s t);
  rw_sl : forall t, asleep (rpcs s t) -> cnt (rword s) <> 0 \/ exists u, rpcs s u = UWake }.

Lemma rwinv_init : rwinv rw_init.
Proof.
  constructor; cbn -[Z.pow]; auto; try lia; try tauto.
  right. split; [discriminate|]. split; [discriminate|]. exists []. split; [constructor|].
  split; [|reflexivity]. intro t. cbn. split; [tauto|discriminate].
Qed.

(* A step that neither takes nor gives up the lock nor wakes. *)
Lemma rw_move s t w' p : rwinv s -> rpcs s t <> UWake -> 0 <= w' < 2 ^ 32 -> cnt w' = cnt (rword s) ->
  class p = class (rpcs s t) -> pc_ok p -> (asleep p -> cnt w' <> 0) ->
  rwinv (RwState w' (setf (rpcs s) t p)).
Proof.
  intros [A B C D] N R W K1 K2 K3. constructor; cbn [rword rpcs]; auto.
  - eapply shape_ext; [exact B|exact W|]. intro u. cbn beta. setf_cases; auto.
  - intro u. setf_cases; auto.
  - intros u U. setf_cases; [left; auto|]. rewrite W. destruct (D u U) as [|(v & V)]; auto.
    right. exists v. setf_cases; [congruence|auto].
Qed.

(* Gaining the lock. *)
Lemma rw_gain s t w' p : rwinv s -> rpcs s t <> UWake -> 0 <= w' < 2 ^ 32 -> cnt w' <> 0 ->
  shape w' (fun u => class (setf (rpcs s) t p u)) -> pc_ok p ->
  rwinv (RwState w' (setf (rpcs s) t p)).
Proof.
  intros [A B C D] N R W SH K2. constructor; cbn [rword rpcs]; auto.
  intro u. setf_cases; auto.
Qed.

Lemma rwinv_step s l s' : rwinv s -> rw_exec s l = Some s' -> rwinv s'.
Proof.
  intros I X. destruct l as (t & a). unfold rw_exec in X. cbn [fst snd] in X.
  pose proof (rw_rng s I) as RNG. pose proof (rw_shape s I) as SH. pose proof (rw_pc s I t) as PC.
  assert (CM : cnt 0 = 0) by reflexivity.
  assert (CX : cnt EXCLUSIVE = EXCLUSIVE) by reflexivity.
  assert (FR : forall u p, u <> t -> class (setf (rpcs s) t p u) = class (rpcs s u))
    by (intros u p N; rewrite setf_other by exact N; reflexivity).
  assert (SM : forall p, class (setf (rpcs s) t p t) = class p)
    by (intro p; rewrite setf_same; reflexivity).
  destruct (rpcs s t) as [r| | |d|d wr|d ac|d e|d e|k|k c|d o|d| |wr|b| | | |] eqn:P;
    destruct a; try discriminate; cbn [pc_ok] in PC;
    try (inversion X; subst s'; clear X; apply rw_move; auto; rewrite ?P; cbn; auto; try congruence; try tauto; fail).
  - (* WLoad *) inversion X; subst s'; clear X. apply rw_move; auto; rewrite ?P; cbn [class asleep pc_ok]; try congruence; try tauto. apply land_flag; lia.
  - (* WCas *)
    unfold cas in X. destruct (Z.eqb_spec (rword s) wr) as [E|E]; destruct spur; cbn [andb negb] in X.
    2:{ inversion X; subst s'; clear X. assert (Z0 : cnt (rword s) = 0).
        { rewrite E. unfold cnt. rewrite <- (Z.add_0_l wr). apply mod_flag; [lia|exact PC]. }
        apply rw_gain; auto; rewrite ?P; try congruence; try (cbn; unfold EXCLUSIVE, COUNT_MASK; lia); try discriminate; cbn [pc_ok]; auto.
        eapply (shape_acq_w _ _ _ _ t SH); auto; cbn beta; rewrite ?SM; auto. }
    all: rewrite land_count in X; destruct (Z.eqb_spec (rword s mod 2 ^ 31) EXCLUSIVE) as [E2|E2]; inversion X; subst s'; clear X;
      apply rw_move; auto; rewrite ?P; cbn [class asleep pc_ok]; try congruence; try tauto;
      split; [lia|]; unfold cnt; rewrite E2; discriminate.
  - (* WOr *)
    inversion X; subst s'; clear X.
    assert (LA : cnt (Z.lor ac WAITING_WR) = cnt ac).
    { rewrite lor_wr by lia. apply (mod_flag _ (2 ^ 31)); [apply m_bound|right; reflexivity]. }
    assert (RA : 0 <= Z.lor ac WAITING_WR < 2 ^ 32).
    { rewrite lor_wr by lia. pose proof (m_bound ac). change (2 ^ 32) with (2 ^ 31 + 2 ^ 31). lia. }
    assert (NS : forall b e e2, asleep (if b : bool then WFutex d e else WCas d e2) -> False)
      by (intros [] ? ? K; exact K).
    apply rw_move; auto; rewrite ?P; try congruence.
    + rewrite lor_wr by lia. pose proof (m_bound (rword s)). change (2 ^ 32) with (2 ^ 31 + 2 ^ 31). lia.
    + rewrite lor_wr by lia. apply (mod_flag _ (2 ^ 31)); [apply m_bound|right; reflexivity].
    + destruct (0 <? Z.land ac COUNT_MASK); reflexivity.
    + rewrite land_count. destruct (Z.ltb_spec 0 (ac mod 2 ^ 31)); cbn [pc_ok].
      * split; [exact RA|]. rewrite LA. unfold cnt. lia.
      * apply land_flag. exact RA.
    + intro K. destruct (NS _ _ _ K).
  - (* WFutex *)
    inversion X; subst s'; clear X. destruct (Z.eqb_spec (rword s) e) as [E|E];
      apply rw_move; auto; rewrite ?P; cbn [class asleep pc_ok]; try congruence; try tauto.
    + rewrite E. tauto.
    + apply land_flag. tauto.
  - (* WSleep, spurious *) inversion X; subst s'; clear X. apply rw_move; auto; rewrite ?P; cbn [class asleep pc_ok]; try congruence; try tauto. apply land_flag; tauto.
  - (* timeout *) destruct d; inversion X; subst s'; clear X. apply rw_move; auto; rewrite ?P; cbn; auto; try congruence; try tauto.
  - (* RCas *)
    assert (OB : 0 <= (if Z.land c COUNT_MASK =? EXCLUSIVE then 0 else Z.land c COUNT_MASK) < 2 ^ 31 - 1).
    { rewrite land_count. pose proof (m_bound c). destruct (Z.eqb_spec (c mod 2 ^ 31) EXCLUSIVE) as [E|E];
        unfold EXCLUSIVE, COUNT_MASK in *; lia. }
    set (old := if Z.land c COUNT_MASK =? EXCLUSIVE then 0 else Z.land c COUNT_MASK) in *. clearbody old.
    destruct (Z.land (old + 1) COUNT_MASK =? EXCLUSIVE) eqn:EP.
    { inversion X; subst s'; clear X. apply rw_move; auto; rewrite ?P; cbn; auto; try congruence; try tauto. }
    assert (OL : Z.land old COUNT_MASK = old) by (rewrite land_count; apply Z.mod_small; lia).
    rewrite OL in X. rewrite land_count, Z.mod_small in EP by lia. apply Z.eqb_neq in EP.
    pose proof (land_flag c PC) as FL. rewrite !lor_flag in X by (auto; lia).
    set (f := Z.land c WAITING_WR) in *. clearbody f.
    unfold cas in X. destruct (Z.eqb_spec (rword s) (old + f)) as [E|E]; destruct spur; cbn [andb negb] in X.
    2:{ inversion X; subst s'; clear X.
        assert (C1 : cnt (rword s) = old) by (rewrite E; apply mod_flag; [lia|exact FL]).
        assert (C2 : cnt (old + 1 + f) = old + 1) by (apply mod_flag; [lia|exact FL]).
        apply rw_gain; auto; rewrite ?P; try congruence; cbn [pc_ok]; auto; try lia.
        - change (2 ^ 32) with (2 ^ 31 + 2 ^ 31). destruct FL as [->| ->]; lia.
        - eapply (shape_acq_r _ _ _ _ t SH); cbn beta; rewrite ?SM; auto; try (rewrite P; reflexivity); unfold EXCLUSIVE, COUNT_MASK in *; lia. }
    all: rewrite land_count in X; destruct (Z.eqb_spec (rword s mod 2 ^ 31) EXCLUSIVE) as [E2|E2]; inversion X; subst s'; clear X;
      apply rw_move; auto; rewrite ?P; try congruence; destruct k; cbn [class asleep pc_ok]; auto; try tauto.
  - (* RFutex *)
    inversion X; subst s'; clear X. destruct (Z.eqb_spec (rword s) o) as [E|E];
      apply rw_move; auto; rewrite ?P; cbn [class asleep pc_ok]; try congruence; try tauto.
    intros _. rewrite E. destruct PC as (_ & ->). discriminate.
  - (* timeout *) destruct d; inversion X; subst s'; clear X. apply rw_move; auto; rewrite ?P; cbn; auto; try congruence; try tauto.
  - (* TLoad *) inversion X; subst s'; clear X. apply rw_move; auto; rewrite ?P; cbn [class asleep pc_ok]; try congruence; try tauto. apply land_flag; lia.
  - (* TCas *)
    unfold cas in X. destruct (Z.eqb_spec (rword s) wr) as [E|E]; destruct spur; cbn [andb negb] in X.
    2:{ inversion X; subst s'; clear X. assert (Z0 : cnt (rword s) = 0).
        { rewrite E. unfold cnt. rewrite <- (Z.add_0_l wr). apply mod_flag; [lia|exact PC]. }
        apply rw_gain; auto; rewrite ?P; try congruence; try (cbn; unfold EXCLUSIVE, COUNT_MASK; lia); try discriminate; cbn [pc_ok]; auto.
        eapply (shape_acq_w _ _ _ _ t SH); auto; cbn beta; rewrite ?SM; auto. }
    all: destruct (0 <? Z.land (rword s) COUNT_MASK); inversion X; subst s'; clear X;
      apply rw_move; auto; rewrite ?P; cbn [class asleep pc_ok]; try congruence; try tauto;
      apply land_flag; lia.
  - (* ULoad *)
    inversion X; subst s'; clear X. rewrite land_count. fold (cnt (rword s)).
    assert (KT : class (rpcs s t) = (if b then Writes else Reads)) by (rewrite P; destruct b; reflexivity).
    destruct b; [pose proof (shape_writer _ _ t SH KT) as Q; rewrite Q, Z.eqb_refl
                |pose proof (shape_some_reader _ _ t SH KT) as Q; destruct (Z.eqb_spec (cnt (rword s)) EXCLUSIVE); [lia|]];
      apply rw_move; auto; rewrite ?P; cbn [class asleep pc_ok]; try congruence; try tauto.
  - (* UStore *)
    inversion X; subst s'; clear X. constructor; cbn [rword rpcs]; try lia.
    + eapply (shape_rel_w _ _ _ _ t SH); auto; cbn beta; rewrite ?SM, ?P; auto.
    + intro u. setf_cases; [exact Logic.I|apply (rw_pc s I)].
    + intros u _. right. exists t. apply setf_same.
  - (* USub *)
    inversion X; subst s'; clear X. rewrite land_count. fold (cnt (rword s)).
    assert (KT : class (rpcs s t) = Reads) by (rewrite P; reflexivity).
    pose proof (shape_some_reader _ _ t SH KT) as Q.
    assert (W1 : 1 <= rword s). { unfold cnt in Q. destruct (Z.eq_dec (rword s) 0) as [E|]; [|lia]. rewrite E in Q. cbn in Q. lia. }
    assert (C1 : cnt ((rword s - 1) mod 2 ^ 32) = cnt (rword s) - 1).
    { rewrite Z.mod_small by lia. unfold cnt in *. pose proof (w_split (rword s) RNG) as WS.
      pose proof (m_bound (rword s)). 
      destruct WS as [E|E].
      - rewrite E at 1. rewrite Z.mod_small by lia. reflexivity.
      - rewrite E at 1. replace (rword s mod 2 ^ 31 + 2 ^ 31 - 1) with (rword s mod 2 ^ 31 - 1 + 2 ^ 31) by lia.
        apply mod_flag; [lia|right; reflexivity]. }
    assert (CLO : forall b : bool, class (if b then UWake else RIdle 0) = Out) by (intros []; reflexivity).
    constructor; cbn [rword rpcs].
    + apply Z.mod_pos_bound. lia.
    + eapply (shape_rel_r _ _ _ _ t SH); auto; cbn beta; rewrite ?SM; auto.
    + intro u. setf_cases; [destruct (cnt (rword s) =? 1); exact Logic.I|apply (rw_pc s I)].
    + intros u U. destruct (Z.eqb_spec (cnt (rword s)) 1) as [E1|E1].
      * right. exists t. apply setf_same.
      * left. change (cnt ((rword s - 1) mod 2 ^ 32) <> 0). rewrite C1. lia.
  - (* UWake *)
    inversion X; subst s'; clear X. constructor; cbn [rword rpcs]; auto.
    + eapply shape_ext; [exact SH|reflexivity|]. intro u. cbn beta. setf_cases; [rewrite P; reflexivity|].
      unfold rwake_all. destruct (rpcs s u); reflexivity.
    + intro u. pose proof (rw_pc s I u) as PU. setf_cases; [exact Logic.I|]. unfold rwake_all.
      destruct (rpcs s u); cbn [pc_ok] in *; auto. apply land_flag. tauto.
    + intros u U. setf_cases; [destruct U|]. unfold rwake_all in U. destruct (rpcs s u); destruct U.
Qed.

Lemma rwinv_reach s : reachable rw_exec rw_init s -> rwinv s.
Proof. apply reachable_inv; [exact rwinv_init|exact rwinv_step]. Qed.

Lemma rw_exclusive s t u : reachable rw_exec rw_init s -> class (rpcs s t) = Writes ->
  u <> t -> class (rpcs s u) = Out.
Proof.
  intros R T N. destruct (rw_shape s (rwinv_reach s R)) as [(A & (v & B & C) & D)|(A & B & _)];
    [|destruct (B t T)].
  destruct (class (rpcs s u)) eqn:K; auto; [destruct (D u K)|].
  rewrite <- (C t T) in C. destruct (N (C u K)).
Qed.

Lemma rw_trywr s t b s' : reachable rw_exec rw_init s -> in_trywr (rpcs s t) ->
  rw_exec s (t, RStep b) = Some s' ->
  in_trywr (rpcs s' t) \/
  (rpcs s' t = RWrite /\ free s) \/
  (rpcs s' t = RIdle EBUSY /\ exists u, class (rpcs s u) <> Out).
Proof.
  intros R T X. pose proof (rwinv_reach s R) as I. pose proof (rw_shape s I) as SH.
  pose proof (rw_pc s I t) as PC.
  unfold rw_exec in X. cbn [fst snd] in X. destruct (rpcs s t) eqn:P; try destruct T.
  - inversion X; subst; cbn [rpcs]. rewrite setf_same. left. exact Logic.I.
  - unfold cas in X.
    destruct (Z.eqb_spec (rword s) wr) as [E|E]; destruct b; cbn [andb negb] in X.
    2:{ inversion X; subst s'; cbn [rpcs]. rewrite setf_same. right. left. split; [reflexivity|].
        assert (Z0 : cnt (rword s) = 0).
        { rewrite E. unfold cnt. rewrite <- (Z.add_0_l wr). apply mod_flag; [lia|exact PC]. }
        intro u. destruct (class (rpcs s u)) eqn:K; auto; exfalso.
        - pose proof (shape_some_reader _ _ u SH K). lia.
        - pose proof (shape_writer _ _ u SH K) as Q. rewrite Z0 in Q. discriminate Q. }
    all: rewrite land_count in X; fold (cnt (rword s)) in X;
      destruct (Z.ltb_spec 0 (cnt (rword s))) as [E2|E2]; inversion X; subst s'; cbn [rpcs]; rewrite setf_same;
      [right; right; split; [reflexivity|apply (shape_held _ _ SH); lia]|left; exact Logic.I].
Qed.

Lemma rw_tryrd s t b s' : reachable rw_exec rw_init s -> in_tryrd (rpcs s t) ->
  rw_exec s (t, RStep b) = Some s' ->
  in_tryrd (rpcs s' t) \/
  (rpcs s' t = RRead /\ forall u, class (rpcs s u) <> Writes) \/
  (rpcs s' t = RIdle EBUSY /\ exists u, class (rpcs s u) = Writes) \/
  (rpcs s' t = RPanic /\ exists k c, rpcs s t = RCas k c /\ c mod 2 ^ 31 = 2 ^ 31 - 2).
Proof.
  intros R T X. pose proof (rwinv_reach s R) as I. pose proof (rw_shape s I) as SH.
  pose proof (rw_pc s I t) as PC.
  unfold rw_exec in X. cbn [fst snd] in X. destruct (rpcs s t) as [ | | | | | | | |k|k c| | | | | | | | | ] eqn:P; try destruct T.
  - destruct k; [|destruct T]. inversion X; subst; cbn [rpcs]. rewrite setf_same. left. exact Logic.I.
  - destruct k; [|destruct T]. cbn [pc_ok] in PC.
    pose proof (m_bound c) as MB.
    assert (OV : (if Z.land c COUNT_MASK =? EXCLUSIVE then 0 else Z.land c COUNT_MASK) =
                 if c mod 2 ^ 31 =? 2 ^ 31 - 1 then 0 else c mod 2 ^ 31) by (rewrite land_count; reflexivity).
    assert (OB : 0 <= (if c mod 2 ^ 31 =? 2 ^ 31 - 1 then 0 else c mod 2 ^ 31) < 2 ^ 31 - 1).
    { destruct (Z.eqb_spec (c mod 2 ^ 31) (2 ^ 31 - 1)) as [E|E]; lia. }
    assert (OP : (if c mod 2 ^ 31 =? 2 ^ 31 - 1 then 0 else c mod 2 ^ 31) = 2 ^ 31 - 2 -> c mod 2 ^ 31 = 2 ^ 31 - 2).
    { destruct (Z.eqb_spec (c mod 2 ^ 31) (2 ^ 31 - 1)) as [E|E]; [discriminate|auto]. }
    rewrite OV in X. clear OV.
    set (old := if c mod 2 ^ 31 =? 2 ^ 31 - 1 then 0 else c mod 2 ^ 31) in *. clearbody old.
    rewrite (land_count (old + 1)), (Z.mod_small (old + 1)) in X by lia.
    destruct (Z.eqb_spec (old + 1) EXCLUSIVE) as [EP|EP].
    { inversion X; subst s'; cbn [rpcs]. rewrite setf_same. right. right. right. split; [reflexivity|].
      exists RTry, c. split; auto. apply OP. unfold EXCLUSIVE, COUNT_MASK in EP. lia. }
    rewrite (land_count old), (Z.mod_small old) in X by lia.
    pose proof (land_flag c PC) as FL. rewrite !lor_flag in X by (auto; lia).
    set (f := Z.land c WAITING_WR) in *. clearbody f.
    unfold cas in X. destruct (Z.eqb_spec (rword s) (old + f)) as [E|E]; destruct b; cbn [andb negb] in X.
    2:{ inversion X; subst s'; cbn [rpcs]. rewrite setf_same. right. left. split; [reflexivity|]. intros u U.
        pose proof (shape_writer _ _ u SH U) as Q. rewrite E in Q. unfold cnt in Q.
        rewrite mod_flag in Q by (auto; lia). unfold EXCLUSIVE, COUNT_MASK in Q. lia. }
    all: rewrite land_count in X; destruct (Z.eqb_spec (rword s mod 2 ^ 31) EXCLUSIVE) as [E2|E2]; inversion X; subst s';
      cbn [rpcs]; rewrite setf_same; [|left; exact Logic.I];
      right; right; left; (split; [reflexivity|]); destruct SH as [(_ & (v & V & _) & _)|(A & _)]; [eauto|destruct (A E2)].
Qed.

Lemma run_step2 s l ls s' s'' : rw_exec s l = Some s' -> run rw_exec s' ls = Some s'' ->
  run rw_exec s (l :: ls) = Some s''.
Proof. intros A B. cbn [run]. rewrite A. exact B. Qed.

Definition finished (p : rpc) : Prop :=
  match p with RRead | RWrite | RIdle _ | RPanic => True | _ => False end.

(* Left alone, a try call is over after at most three of its own steps. *)
Lemma rw_try_solo s t : reachable rw_exec rw_init s -> in_trywr (rpcs s t) \/ in_tryrd (rpcs s t) ->
  exists n s', (n <= 3)%nat /\ run rw_exec s (repeat (t, RStep false) n) = Some s' /\ finished (rpcs s' t).
Proof.
  intros R T. pose proof (rwinv_reach s R) as I. pose proof (rw_shape s I) as SH.
  assert (TC : forall s1, rwinv s1 -> (exists wr, rpcs s1 t = TCas wr) ->
    exists s', rw_exec s1 (t, RStep false) = Some s' /\
      (finished (rpcs s' t) \/ (cnt (rword s') = 0 /\ rpcs s' t = TCas (rword s')))).
  { intros s1 I1 (wr & P). unfold rw_exec. cbn [fst snd]. rewrite P. unfold cas.
    destruct (Z.eqb_spec (rword s1) wr); cbn [andb negb].
    - eexists. split; [reflexivity|]. cbn [rpcs]. rewrite setf_same. left. exact Logic.I.
    - rewrite land_count. destruct (Z.ltb_spec 0 (rword s1 mod 2 ^ 31)); (eexists; split; [reflexivity|]);
        cbn [rpcs rword]; rewrite setf_same; [left; exact Logic.I|right].
      pose proof (m_bound (rword s1)). split; [unfold cnt; lia|]. rewrite land_wr by apply (rw_rng s1 I1). f_equal. lia. }
  assert (TC2 : forall s1, rpcs s1 t = TCas (rword s1) ->
    exists s', rw_exec s1 (t, RStep false) = Some s' /\ finished (rpcs s' t)).
  { intros s1 P. eexists. unfold rw_exec. cbn [fst snd]. rewrite P. unfold cas. rewrite Z.eqb_refl. cbn [andb negb].
    split; [reflexivity|]. cbn [rpcs]. rewrite setf_same. exact Logic.I. }
  assert (RC : forall s1 c, rwinv s1 -> rpcs s1 t = RCas RTry c ->
    exists s', rw_exec s1 (t, RStep false) = Some s' /\
      (finished (rpcs s' t) \/ (rpcs s' t = RCas RTry (rword s') /\ rword s' = rword s1 /\ c <> rword s1))).
  { intros s1 c I1 P. pose proof (rw_pc s1 I1 t) as PC. rewrite P in PC. cbn [pc_ok] in PC.
    unfold rw_exec. cbn [fst snd]. rewrite P.
    destruct (Z.land ((if Z.land c COUNT_MASK =? EXCLUSIVE then 0 else Z.land c COUNT_MASK) + 1) COUNT_MASK =? EXCLUSIVE).
    { eexists. split; [reflexivity|]. cbn [rpcs]. rewrite setf_same. left. exact Logic.I. }
    unfold cas. rewrite andb_true_r.
    match goal with |- context [rword s1 =? ?x] => destruct (Z.eqb_spec (rword s1) x) as [E|E] end.
    { eexists. split; [reflexivity|]. cbn [rpcs]. rewrite setf_same. left. exact Logic.I. }
    rewrite (land_count (rword s1)).
    destruct (Z.eqb_spec (rword s1 mod 2 ^ 31) EXCLUSIVE) as [E2|E2];
      (eexists; split; [reflexivity|]); cbn [rpcs rword]; rewrite setf_same; [left; exact Logic.I|right].
    split; [reflexivity|]. split; [reflexivity|]. intro K. subst c. apply E.
    rewrite (land_count (rword s1)). apply Z.eqb_neq in E2. rewrite E2. rewrite land_count, Z.mod_mod by lia.
    pose proof (land_flag _ PC). rewrite lor_flag by (auto; apply m_bound). rewrite land_wr by exact PC. lia. }
  assert (RC2 : forall s1, rwinv s1 -> rpcs s1 t = RCas RTry (rword s1) ->
    exists s', rw_exec s1 (t, RStep false) = Some s' /\ finished (rpcs s' t)).
  { intros s1 I1 P. destruct (RC s1 _ I1 P) as (s' & X & [F|(_ & _ & NE)]); [eauto|destruct (NE eq_refl)]. }
  assert (TW : forall s1, rwinv s1 -> (exists wr, rpcs s1 t = TCas wr) ->
    exists n s', (n <= 2)%nat /\ run rw_exec s1 (repeat (t, RStep false) n) = Some s' /\ finished (rpcs s' t)).
  { intros s1 I1 P. destruct (TC s1 I1 P) as (s2 & X & [F|(_ & P2)]).
    - exists 1%nat, s2. split; [lia|]. split; [|exact F]. eapply run_step2; [exact X|reflexivity].
    - destruct (TC2 s2 P2) as (s3 & X3 & F). exists 2%nat, s3. split; [lia|]. split; [|exact F].
      eapply run_step2; [exact X|]. eapply run_step2; [exact X3|reflexivity]. }
  assert (TR : forall s1, rwinv s1 -> (exists c, rpcs s1 t = RCas RTry c) ->
    exists n s', (n <= 2)%nat /\ run rw_exec s1 (repeat (t, RStep false) n) = Some s' /\ finished (rpcs s' t)).
  { intros s1 I1 (c & P). destruct (RC s1 c I1 P) as (s2 & X & [F|(P2 & _)]).
    - exists 1%nat, s2. split; [lia|]. split; [|exact F]. eapply run_step2; [exact X|reflexivity].
    - destruct (RC2 s2 (rwinv_step _ _ _ I1 X) P2) as (s3 & X3 & F). exists 2%nat, s3. split; [lia|]. split; [|exact F].
      eapply run_step2; [exact X|]. eapply run_step2; [exact X3|reflexivity]. }
  assert (ST : forall s1, rw_exec s (t, RStep false) = Some s1 ->
    (exists wr, rpcs s1 t = TCas wr) \/ (exists c, rpcs s1 t = RCas RTry c) ->
    exists n s', (n <= 3)%nat /\ run rw_exec s (repeat (t, RStep false) n) = Some s' /\ finished (rpcs s' t)).
  { intros s1 X D. pose proof (rwinv_step _ _ _ I X) as I1.
    assert (K : exists n s', (n <= 2)%nat /\ run rw_exec s1 (repeat (t, RStep false) n) = Some s' /\ finished (rpcs s' t))
      by (destruct D; auto).
    destruct K as (n & s' & L & E & F). exists (S n), s'. split; [lia|]. split; [|exact F].
    cbn [repeat]. eapply run_step2; eauto. }
  destruct T as [T|T]; destruct (rpcs s t) as [ | | | | | | | |k|k c| | | |wr| | | | | ] eqn:P; try destruct T.
  - eapply ST; [unfold rw_exec; cbn [fst snd]; rewrite P; reflexivity|]. left. cbn [rpcs]. rewrite setf_same. eauto.
  - destruct (TW s I (ex_intro _ wr P)) as (n & s' & L & E & F). exists n, s'. split; [lia|auto].
  - destruct k; [|destruct T]. eapply ST; [unfold rw_exec; cbn [fst snd]; rewrite P; reflexivity|]. right. cbn [rpcs]. rewrite setf_same. eauto.
  - destruct k; [|destruct T]. destruct (TR s I (ex_intro _ c P)) as (n & s' & L & E & F). exists n, s'. split; [lia|auto].
Qed.

Lemma rw_sleeper s t : reachable rw_exec rw_init s -> asleep (rpcs s t) -> free s ->
  exists u, rpcs s u = UWake /\ forall b s', rw_exec s (u, RStep b) = Some s' ->
    forall v, ~ asleep (rpcs s' v).
Proof.
  intros R P F. pose proof (rwinv_reach s R) as I.
  destruct (rw_sl s I t P) as [N|(u & U)].
  { destruct (N (shape_free _ _ (rw_shape s I) F)). }
  exists u. split; [exact U|]. intros b s' X v. unfold rw_exec in X. cbn [fst snd] in X. rewrite U in X.
  inversion X; subst. cbn [rpcs]. setf_cases; [intros []|]. unfold rwake_all.
  destruct (rpcs s v); intros [].
Qed.

(* Progress on a free lock. *)
Lemma gets_now s t p : rpcs s t = p -> gets s t p.
Proof. intro P. exists [], s. split; [reflexivity|]. split; [exact P|constructor]. Qed.

Lemma gets_step s t p u s1 : rw_exec s (u, RStep false) = Some s1 -> gets s1 t p -> gets s t p.
Proof.
  intros X (ls & s' & E & P & F). exists ((u, RStep false) :: ls), s'.
  split; [eapply run_step2; eauto|]. split; [exact P|]. constructor; [reflexivity|exact F].
Qed.

Ltac one P := eapply gets_step; [unfold rw_exec; cbn [fst snd]; rewrite P; reflexivity|].

Lemma cnt0_flag w : 0 <= w < 2 ^ 32 -> cnt w = 0 -> flag w.
Proof. intros H C. destruct (w_split w H) as [E|E]; unfold cnt in C; rewrite C in E; [left|right]; lia. Qed.

Lemma wcas_same s t d : rpcs s t = WCas d (rword s) -> gets s t RWrite.
Proof.
  intro P. eapply gets_step.
  - unfold rw_exec. cbn [fst snd]. rewrite P. unfold cas. rewrite Z.eqb_refl. reflexivity.
  - apply gets_now. cbn [rpcs]. apply setf_same.
Qed.

Lemma wfutex_gets s t d e : 0 <= rword s < 2 ^ 32 -> cnt (rword s) = 0 -> cnt e <> 0 ->
  (forall s1, rword s1 = rword s -> rpcs s1 t = WCas d (Z.land e WAITING_WR) -> gets s1 t RWrite) ->
  rpcs s t = WFutex d e -> gets s t RWrite.
Proof.
  intros R C N K P. eapply gets_step.
  - unfold rw_exec. cbn [fst snd]. rewrite P.
    assert (E : rword s =? e = false) by (apply Z.eqb_neq; intro; subst e; congruence). rewrite E. reflexivity.
  - apply K; [reflexivity|]. cbn [rpcs]. apply setf_same.
Qed.

Lemma wor_gets s t d a : 0 <= rword s < 2 ^ 32 -> 0 <= a < 2 ^ 32 -> cnt (rword s) = 0 ->
  rpcs s t = WOr d a -> gets s t RWrite.
Proof.
  intros R A C P. eapply gets_step.
  - unfold rw_exec. cbn [fst snd]. rewrite P. reflexivity.
  - set (w2 := Z.lor (rword s) WAITING_WR).
    assert (W2 : w2 = 2 ^ 31).
    { unfold w2. rewrite lor_wr by exact R. unfold cnt in C. rewrite C. reflexivity. }
    assert (LE : Z.land (Z.lor a WAITING_WR) WAITING_WR = 2 ^ 31).
    { assert (RA : 0 <= Z.lor a WAITING_WR < 2 ^ 32).
      { rewrite lor_wr by lia. pose proof (m_bound a). change (2 ^ 32) with (2 ^ 31 + 2 ^ 31). lia. }
      rewrite land_wr by exact RA. rewrite lor_wr by lia.
      rewrite (mod_flag (a mod 2 ^ 31) (2 ^ 31)); [lia|apply m_bound|right; reflexivity]. }
    rewrite land_count. destruct (Z.ltb_spec 0 (a mod 2 ^ 31)) as [G|G].
    + eapply wfutex_gets; cbn [rword rpcs]; [| | | |apply setf_same].
      * rewrite W2. lia.
      * rewrite W2. reflexivity.
      * rewrite lor_wr by lia. unfold cnt. rewrite (mod_flag (a mod 2 ^ 31) (2 ^ 31)); [lia|apply m_bound|right; reflexivity].
      * intros s1 W1 P1. eapply wcas_same. rewrite P1, LE, W1, W2. reflexivity.
    + eapply wcas_same. cbn [rpcs rword]. rewrite setf_same, LE, W2. reflexivity.
Qed.

Lemma wcas_gets s t d wr : 0 <= rword s < 2 ^ 32 -> cnt (rword s) = 0 -> rpcs s t = WCas d wr -> gets s t RWrite.
Proof.
  intros R C P. destruct (Z.eq_dec (rword s) wr) as [E|E]; [subst wr; eapply wcas_same; eauto|].
  eapply gets_step.
  - unfold rw_exec. cbn [fst snd]. rewrite P. unfold cas. apply Z.eqb_neq in E. rewrite E. cbn [andb].
    rewrite land_count. unfold cnt in C. rewrite C. reflexivity.
  - eapply (wor_gets _ _ d (rword s)); cbn [rword rpcs]; auto. apply setf_same.
Qed.

Lemma rload_gets s t k : 0 <= rword s < 2 ^ 32 -> cnt (rword s) = 0 -> rpcs s t = RCas k (rword s) -> gets s t RRead.
Proof.
  intros R C P. assert (LW : Z.land (rword s) WAITING_WR = rword s)
    by (rewrite land_wr by exact R; unfold cnt in C; lia).
  eapply gets_step.
  - unfold rw_exec. cbn [fst snd]. rewrite P. rewrite (land_count (rword s)). unfold cnt in C. rewrite C, LW.
    change (0 =? EXCLUSIVE) with false. cbv iota. change (Z.land (0 + 1) COUNT_MASK =? EXCLUSIVE) with false. cbv iota.
    change (Z.land 0 COUNT_MASK) with 0. rewrite Z.lor_0_l.
    unfold cas. rewrite Z.eqb_refl. reflexivity.
  - apply gets_now. cbn [rpcs]. apply setf_same.
Qed.

Lemma rcas_gets s t k c : 0 <= rword s < 2 ^ 32 -> 0 <= c < 2 ^ 32 -> cnt (rword s) = 0 ->
  c mod 2 ^ 31 <> 2 ^ 31 - 2 -> rpcs s t = RCas k c -> gets s t RRead.
Proof.
  intros R B C N P. 
  destruct (rw_exec s (t, RStep false)) as [s1|] eqn:X.
  2:{ exfalso. revert X. unfold rw_exec. cbn [fst snd]. rewrite P.
      destruct (Z.land ((if Z.land c COUNT_MASK =? EXCLUSIVE then 0 else Z.land c COUNT_MASK) + 1) COUNT_MASK =? EXCLUSIVE); [discriminate|].
      match goal with |- context [cas ?a ?b ?c ?d] => destruct (cas a b c d) as ((? & []) & ?) end; [discriminate|].
      match goal with |- context [if ?b then _ else _] => destruct b end; discriminate. }
  eapply gets_step; [exact X|]. revert X. unfold rw_exec. cbn [fst snd]. rewrite P.
  pose proof (m_bound c) as MB.
  destruct (Z.eqb_spec (Z.land ((if Z.land c COUNT_MASK =? EXCLUSIVE then 0 else Z.land c COUNT_MASK) + 1) COUNT_MASK) EXCLUSIVE) as [EP|EP].
  { exfalso. rewrite (land_count c) in EP. destruct (Z.eqb_spec (c mod 2 ^ 31) EXCLUSIVE) as [E|E].
    - discriminate EP.
    - unfold EXCLUSIVE, COUNT_MASK in E. rewrite land_count, Z.mod_small in EP by lia.
      unfold EXCLUSIVE, COUNT_MASK in EP. lia. }
  unfold cas. rewrite andb_true_r.
  match goal with |- context [rword s =? ?x] => destruct (Z.eqb_spec (rword s) x) as [E|E] end; intro X.
  - inversion X; subst s1. apply gets_now. cbn [rpcs]. apply setf_same.
  - rewrite land_count in X. unfold cnt in C. rewrite C in X. change (0 =? EXCLUSIVE) with false in X.
    inversion X; subst s1. eapply rload_gets; cbn [rword rpcs]; auto. apply setf_same.
Qed.

Lemma rw_wr_progress s t : reachable rw_exec rw_init s -> free s -> in_wrlock (rpcs s t) -> gets s t RWrite.
Proof.
  intros R F T. pose proof (rwinv_reach s R) as I. pose proof (rw_rng s I) as RNG.
  pose proof (shape_free _ _ (rw_shape s I) F) as C. pose proof (rw_pc s I t) as PC.
  destruct (rpcs s t) eqn:P; try destruct T; cbn [pc_ok] in PC.
  - one P. eapply (wcas_gets _ _ d); cbn [rword rpcs]; auto. apply setf_same.
  - eapply wcas_gets; eauto.
  - eapply wor_gets; eauto.
  - eapply wfutex_gets; eauto; [tauto|]. intros s1 W P1. eapply wcas_gets; [| |exact P1]; rewrite W; auto.
  - destruct (rw_sl s I t) as [N|(u & U)]; [rewrite P; exact Logic.I|destruct (N C)|].
    one U. eapply (wcas_gets _ _ d); cbn [rword rpcs]; auto.
    rewrite setf_other by congruence. unfold rwake_all. rewrite P. reflexivity.
Qed.

Lemma rw_rd_progress s t : reachable rw_exec rw_init s -> free s -> in_rdlock (rpcs s t) ->
  (forall k c, rpcs s t = RCas k c -> c mod 2 ^ 31 <> 2 ^ 31 - 2) -> gets s t RRead.
Proof.
  intros R F T NP. pose proof (rwinv_reach s R) as I. pose proof (rw_rng s I) as RNG.
  pose proof (shape_free _ _ (rw_shape s I) F) as C. pose proof (rw_pc s I t) as PC.
  assert (LD : forall s1 k, rword s1 = rword s -> rpcs s1 t = RLoad k -> gets s1 t RRead).
  { intros s1 k W P1. one P1. eapply (rload_gets _ _ k); cbn [rword rpcs]; rewrite ?W; auto. rewrite setf_same. reflexivity. }
  destruct (rpcs s t) eqn:P; try destruct T; cbn [pc_ok] in PC.
  - eapply LD; eauto.
  - eapply rcas_gets; eauto.
  - eapply gets_step.
    + unfold rw_exec. cbn [fst snd]. rewrite P.
      assert (E : rword s =? old = false).
      { apply Z.eqb_neq. intro. subst old. destruct PC as (_ & K). rewrite C in K. discriminate K. }
      rewrite E. reflexivity.
    + eapply LD; [reflexivity|]. cbn [rpcs]. apply setf_same.
  - destruct (rw_sl s I t) as [N|(u & U)]; [rewrite P; exact Logic.I|destruct (N C)|].
    one U. eapply LD; [reflexivity|]. cbn [rpcs].
    rewrite setf_other by congruence. unfold rwake_all. rewrite P. reflexivity.
Qed.
