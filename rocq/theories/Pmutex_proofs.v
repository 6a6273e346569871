From Coq Require Import ZArith List Bool Lia.
From Verif Require Import Conc Waituntil_model Pmutex_model.
Import ListNotations.
Open Scope Z_scope.

Definition inop (p : lpc) : bool :=
  match p with LInc | LIncStore _ | URec | URecStore _ | UStore => true | _ => false end.
Definition inrec (p : lpc) : bool :=
  match p with LInc | LIncStore _ | URec | URecStore _ => true | _ => false end.
Definition extra (p : lpc) : Z := match p with URec | URecStore _ => 1 | _ => 0 end.
Definition occ (s : lstate) (t : tid) : Prop := 0 < held s t \/ inop (lp s t) = true.

Record linv (k : ty) (s : lstate) : Prop := LInv {
  l_rng : 0 <= inner s < 2 ^ 31;
  l_occ : forall t, occ s t -> inner s = t /\ t <> 0;
  l_own : inner s <> 0 -> occ s (inner s);
  l_h0 : forall t, 0 <= held s t;
  l_rec0 : inner s = 0 -> rcount s = 0;
  l_recc : k = Recursive -> forall t, occ s t -> rcount s = held s t + extra (lp s t);
  l_inrec : forall t, inrec (lp s t) = true -> k = Recursive;
  l_us : forall t n, lp s t = URecStore n -> n = held s t;
  l_ls : forall t n, lp s t = LIncStore n -> n = rcount s /\ n < 2 ^ 32 - 1;
  l_ust : forall t, lp s t = UStore -> held s t = 0;
  l_rr : 0 <= rcount s <= 2 ^ 32 - 1;
  l_nr : k <> Recursive -> forall t, held s t <= 1;
  l_nr0 : k <> Recursive -> rcount s = 0;
  l_fv : forall t d v, lp s t = LFutex d v -> v <> 0;
  l_sl : forall t d, lp s t = LAsleep d -> inner s <> 0 \/ exists u, lp s u = UWake }.

Lemma linv_init k : linv k pm_init.
Proof.
  constructor; cbn; unfold occ; cbn; try lia; try discriminate.
  - unfold STATE_UNLOCKED; lia.
  - intro K; exfalso; apply K; reflexivity.
Qed.

Lemma mask_small w : 0 <= w < 2 ^ 31 -> Z.land w INDEX_MASK = w.
Proof.
  intro H. unfold INDEX_MASK. change (2 ^ 31 - 1) with (Z.ones 31). rewrite Z.land_ones by lia.
  apply Z.mod_small. lia.
Qed.

(* t moves between places that are neither inside the count nor inside unlock *)
Definition lquiet (p : lpc) : Prop := inop p = false /\ p <> UWake.

Lemma l_move k s t p : linv k s -> lquiet (lp s t) -> lquiet p ->
  (forall d v, p = LFutex d v -> v <> 0) -> (forall d, p = LAsleep d -> inner s <> 0) ->
  linv k (LState (inner s) (rcount s) (held s) (setf (lp s) t p)).
Proof.
  intros I (Q1 & Q2) (Q3 & Q4) FV SL. destruct I.
  assert (OC : forall u, occ (LState (inner s) (rcount s) (held s) (setf (lp s) t p)) u <-> occ s u).
  { intro u. unfold occ; cbn [held lp]. setf_cases; [rewrite Q1, Q3|]; tauto. }
  assert (EX : extra p = 0 /\ extra (lp s t) = 0).
  { destruct p; try discriminate; destruct (lp s t); try discriminate; auto. }
  assert (IR : inrec p = false) by (destruct p; try discriminate; auto).
  constructor; cbn [inner rcount held lp]; auto.
  - intros u K. apply OC in K. auto.
  - intro K. apply OC. auto.
  - intros KR u K. apply OC in K. specialize (l_recc0 KR u K). setf_cases; lia.
  - intros u K. setf_cases; [congruence|eauto].
  - intros u n K. setf_cases; [subst; discriminate|eauto].
  - intros u n K. setf_cases; [subst; discriminate|eauto].
  - intros u K. setf_cases; [subst; discriminate|eauto].
  - intros u d v K. setf_cases; [eauto|eauto].
  - intros u d K. setf_cases; [left; eauto|]. destruct (l_sl0 u d K) as [|(w & W)]; auto.
    right. exists w. setf_cases; auto. congruence.
Qed.

(* the free word is taken by t, which goes to p *)
Lemma l_take k s t h p : linv k s -> inner s = 0 -> 0 < t < 2 ^ 31 -> lquiet (lp s t) ->
  (k = Recursive /\ p = LInc /\ h = held s) \/
  (k <> Recursive /\ p = LRet 0 /\ h = setf (held s) t (held s t + 1)) ->
  linv k (LState t (rcount s) h (setf (lp s) t p)).
Proof.
  intros I W T (Q1 & Q2) C. destruct I.
  assert (NO : forall u, ~ occ s u) by (intros u K; destruct (l_occ0 u K); lia).
  assert (H0 : forall u, held s u = 0).
  { intro u. pose proof (l_h1 u). destruct (Z.eq_dec (held s u) 0); auto. exfalso. apply (NO u). left. lia. }
  assert (NI : forall u, inop (lp s u) = false).
  { intro u. destruct (inop (lp s u)) eqn:E; auto. exfalso. apply (NO u). right. auto. }
  assert (R0 : rcount s = 0) by auto.
  destruct C as [(KR & -> & ->)|(KR & -> & ->)]; constructor; unfold occ; cbn [inner rcount held lp]; auto; try lia.
  - intros u K. rewrite H0 in K. setf_cases; [lia|]. rewrite NI in K. destruct K; [lia|discriminate].
  - intros _. rewrite setf_same. auto.
  - intros _ u K. setf_cases; [cbn; rewrite H0; lia|]. rewrite H0, NI in K. destruct K; [lia|discriminate].
  - intros u n K. setf_cases; [discriminate|]. specialize (NI u). rewrite K in NI. discriminate.
  - intros u n K. setf_cases; [discriminate|]. specialize (NI u). rewrite K in NI. discriminate.
  - intros u d v K. setf_cases; [discriminate|eauto].
  - intros u K. setf_cases; [|rewrite H0, NI in K; destruct K; [lia|discriminate]]. lia.
  - intros _. rewrite !setf_same. rewrite H0. left; lia.
  - intros u. setf_cases; [rewrite H0; lia|auto].
  - intros K. contradiction.
  - intros u K. setf_cases; [discriminate|eauto].
  - intros u n K. setf_cases; [discriminate|]. specialize (NI u). rewrite K in NI. discriminate.
  - intros u n K. setf_cases; [discriminate|]. specialize (NI u). rewrite K in NI. discriminate.
  - intros u K. setf_cases; [discriminate|]. specialize (NI u). rewrite K in NI. discriminate.
  - intros _ u. setf_cases; [rewrite H0; lia|rewrite H0; lia].
  - intros u d v K. setf_cases; [discriminate|eauto].
Qed.

(* the owner t relocks: enters the count *)
Lemma l_enter s t : linv Recursive s -> inner s = t -> t <> 0 -> lquiet (lp s t) ->
  linv Recursive (LState (inner s) (rcount s) (held s) (setf (lp s) t LInc)).
Proof.
  intros I W T (Q1 & Q2). destruct I.
  assert (EX : extra (lp s t) = 0) by (destruct (lp s t); try discriminate; auto).
  assert (OT : occ s t) by (rewrite <- W; apply l_own0; congruence).
  assert (OC : forall u, occ (LState (inner s) (rcount s) (held s) (setf (lp s) t LInc)) u -> occ s u).
  { intro u. unfold occ at 1; cbn [held lp]. setf_cases; auto. }
  constructor; cbn [inner rcount held lp]; auto.
  - intros _. rewrite W. right. cbn [lp]. rewrite setf_same. reflexivity.
  - intros KR u K. apply OC in K. specialize (l_recc0 KR u K). setf_cases; [cbn|]; lia.
  - intros u n K. setf_cases; [discriminate|eauto].
  - intros u n K. setf_cases; [discriminate|eauto].
  - intros u K. setf_cases; [discriminate|eauto].
  - intros u d v K. setf_cases; [discriminate|eauto].
  - intros u d K. left. congruence.
Qed.

(* LInc: the load of the count *)
Lemma l_incload s t : linv Recursive s -> lp s t = LInc ->
  linv Recursive (LState (inner s) (rcount s) (held s)
    (setf (lp s) t (if rcount s =? RECURSIVE_COUNT_MAX_INCLUSIVE then LRet EAGAIN else LIncStore (rcount s)))).
Proof.
  intros I P. destruct I.
  assert (OT : occ s t) by (right; rewrite P; reflexivity).
  destruct (l_occ0 t OT) as (W & T). pose proof (l_recc0 eq_refl t OT) as RC. rewrite P in RC. cbn in RC.
  destruct (Z.eqb_spec (rcount s) RECURSIVE_COUNT_MAX_INCLUSIVE) as [M|M]; unfold RECURSIVE_COUNT_MAX_INCLUSIVE in M.
  - assert (OC : forall u, occ (LState (inner s) (rcount s) (held s) (setf (lp s) t (LRet EAGAIN))) u -> occ s u).
    { intro u. unfold occ at 1; cbn [held lp]. setf_cases; auto. }
    constructor; cbn [inner rcount held lp]; auto.
    + intros _. rewrite W. left. cbn [held]. lia.
    + intros KR u K. apply OC in K. specialize (l_recc0 KR u K). setf_cases; [cbn|]; lia.
    + intros u n K. setf_cases; [discriminate|eauto].
    + intros u n K. setf_cases; [discriminate|eauto].
    + intros u K. setf_cases; [discriminate|eauto].
    + intros u d v K. setf_cases; [discriminate|eauto].
    + intros u d K. left. congruence.
  - assert (OC : forall u, occ (LState (inner s) (rcount s) (held s) (setf (lp s) t (LIncStore (rcount s)))) u -> occ s u).
    { intro u. unfold occ at 1; cbn [held lp]. setf_cases; auto. }
    constructor; cbn [inner rcount held lp]; auto.
    + intros _. rewrite W. right. cbn [lp]. rewrite setf_same. reflexivity.
    + intros KR u K. apply OC in K. specialize (l_recc0 KR u K). setf_cases; [cbn|]; lia.
    + intros u n K. setf_cases; [discriminate|eauto].
    + intros u n K. setf_cases; [inversion K; subst; split; [reflexivity|lia]|eauto].
    + intros u K. setf_cases; [discriminate|eauto].
    + intros u d v K. setf_cases; [discriminate|eauto].
    + intros u d K. left. congruence.
Qed.

Lemma l_incstore s t n : linv Recursive s -> lp s t = LIncStore n ->
  linv Recursive (LState (inner s) (n + 1) (setf (held s) t (held s t + 1)) (setf (lp s) t (LRet 0))).
Proof.
  intros I P. destruct I.
  assert (OT : occ s t) by (right; rewrite P; reflexivity).
  destruct (l_occ0 t OT) as (W & T). pose proof (l_recc0 eq_refl t OT) as RC. rewrite P in RC. cbn in RC.
  destruct (l_ls0 t n P) as (-> & B).
  assert (ONE : forall u, occ s u -> u = t) by (intros u K; destruct (l_occ0 u K); congruence).
  constructor; cbn [inner rcount held lp]; auto; try lia; try (let K := fresh in intros K; exfalso; apply K; reflexivity).
  - unfold occ; cbn [held lp]. intros u K. setf_cases; [auto|]. apply l_occ0. exact K.
  - intros _. left. cbn [held]. rewrite W, setf_same. pose proof (l_h1 t). lia.
  - intros u. setf_cases; auto. pose proof (l_h1 t). lia.
  - unfold occ; cbn [held lp]. intros KR u K. setf_cases; [cbn; lia|]. exfalso. apply E. apply ONE. exact K.
  - intros u m K. setf_cases; [discriminate|]. eauto.
  - intros u m K. setf_cases; [discriminate|]. exfalso. apply E. apply ONE. right. rewrite K. reflexivity.
  - intros u K. setf_cases; [discriminate|eauto].
  - intros u d v K. setf_cases; [discriminate|eauto].
Qed.

(* unlock by the owner begins *)
Lemma l_unlock k s t r : linv k s -> lp s t = LRet r -> 0 < held s t ->
  linv k (LState (inner s) (rcount s) (setf (held s) t (held s t - 1))
            (setf (lp s) t (if is_rec k then URec else UStore))).
Proof.
  intros I P H. destruct I.
  assert (OT : occ s t) by (left; auto). destruct (l_occ0 t OT) as (W & T).
  assert (ONE : forall u, occ s u -> u = t) by (intros u K; destruct (l_occ0 u K); congruence).
  assert (OC : forall u, occ (LState (inner s) (rcount s) (setf (held s) t (held s t - 1))
            (setf (lp s) t (if is_rec k then URec else UStore))) u -> u = t).
  { intro u. unfold occ; cbn [held lp]. setf_cases; auto. }
  constructor; cbn [inner rcount held lp]; auto.
  - intros u K. apply OC in K. subst. auto.
  - intros _. right. cbn [lp]. rewrite W, setf_same. destruct (is_rec k); reflexivity.
  - intros u. setf_cases; auto. lia.
  - intros KR u K. apply OC in K. subst u. rewrite !setf_same. specialize (l_recc0 KR t OT). subst k.
    rewrite P in l_recc0. cbn in *. lia.
  - intros u K. setf_cases; [|eauto]. destruct k; try discriminate. reflexivity.
  - intros u n K. setf_cases; [destruct k; discriminate|]. eauto.
  - intros u n K. setf_cases; [destruct k; discriminate|]. eauto.
  - intros u K. setf_cases; [|eauto]. assert (k <> Recursive) by (destruct k; discriminate).
    pose proof (l_nr1 H0 t). lia.
  - intros KR u. setf_cases; auto. pose proof (l_nr1 KR t). lia.
  - intros u d v K. setf_cases; [destruct k; discriminate|eauto].
  - intros u d K. left. congruence.
Qed.

Lemma l_urec s t : linv Recursive s -> lp s t = URec ->
  linv Recursive (LState (inner s) (rcount s) (held s) (setf (lp s) t (URecStore ((rcount s - 1) mod 2 ^ 32)))).
Proof.
  intros I P. destruct I.
  assert (OT : occ s t) by (right; rewrite P; reflexivity).
  destruct (l_occ0 t OT) as (W & T). pose proof (l_recc0 eq_refl t OT) as RC. rewrite P in RC. cbn in RC.
  pose proof (l_h1 t).
  assert (OC : forall u n, occ (LState (inner s) (rcount s) (held s) (setf (lp s) t (URecStore n))) u -> occ s u).
  { intros u n. unfold occ at 1; cbn [held lp]. setf_cases; auto. }
  constructor; cbn [inner rcount held lp]; auto.
  - intros u K. apply OC in K. auto.
  - intros _. rewrite W. right. cbn [lp]. rewrite setf_same. reflexivity.
  - intros KR u K. apply OC in K. specialize (l_recc0 KR u K). setf_cases; [cbn|]; lia.
  - intros u n K. setf_cases; [inversion K; subst; rewrite Z.mod_small by lia; lia|eauto].
  - intros u n K. setf_cases; [discriminate|eauto].
  - intros u K. setf_cases; [discriminate|eauto].
  - intros u d v K. setf_cases; [discriminate|eauto].
  - intros u d K. left. congruence.
Qed.

Lemma l_urecstore s t n : linv Recursive s -> lp s t = URecStore n ->
  linv Recursive (LState (inner s) n (held s) (setf (lp s) t (if 0 <? n then LRet 0 else UStore))).
Proof.
  intros I P. destruct I.
  assert (OT : occ s t) by (right; rewrite P; reflexivity).
  destruct (l_occ0 t OT) as (W & T). pose proof (l_recc0 eq_refl t OT) as RC. rewrite P in RC. cbn in RC.
  pose proof (l_h1 t). pose proof (l_us0 t n P) as N.
  assert (ONE : forall u, occ s u -> u = t) by (intros u K; destruct (l_occ0 u K); congruence).
  assert (OC : forall u, occ (LState (inner s) n (held s) (setf (lp s) t (if 0 <? n then LRet 0 else UStore))) u -> u = t).
  { intro u. unfold occ; cbn [held lp]. setf_cases; auto. }
  constructor; cbn [inner rcount held lp]; auto; try lia; try (let K := fresh in intros K; exfalso; apply K; reflexivity).
  - intros u K. apply OC in K. subst. auto.
  - intros _. rewrite W. unfold occ; cbn [held lp]. rewrite setf_same.
    destruct (Z.ltb_spec 0 n); [left; lia|right; reflexivity].
  - intros KR u K. apply OC in K. subst u. rewrite setf_same. destruct (Z.ltb_spec 0 n); cbn; lia.
  - intros u m K. setf_cases; [destruct (0 <? n); discriminate|eauto].
  - intros u m K. setf_cases; [destruct (0 <? n); discriminate|].
    exfalso. apply E. apply ONE. right. rewrite K. reflexivity.
  - intros u K. setf_cases; [|eauto]. destruct (Z.ltb_spec 0 n); [discriminate|lia].
  - intros u d v K. setf_cases; [destruct (0 <? n); discriminate|eauto].
Qed.

Lemma l_release k s t : linv k s -> lp s t = UStore ->
  linv k (LState 0 (rcount s) (held s) (setf (lp s) t UWake)).
Proof.
  intros I P. destruct I.
  assert (OT : occ s t) by (right; rewrite P; reflexivity).
  destruct (l_occ0 t OT) as (W & T). pose proof (l_ust0 t P) as H0.
  assert (ONE : forall u, occ s u -> u = t) by (intros u K; destruct (l_occ0 u K); congruence).
  assert (R0 : rcount s = 0).
  { destruct k; try (apply l_nr2; discriminate). rewrite (l_recc0 eq_refl t OT), P, H0. reflexivity. }
  assert (NO : forall u, ~ occ (LState 0 (rcount s) (held s) (setf (lp s) t UWake)) u).
  { intros u. unfold occ; cbn [held lp]. intro K. setf_cases.
    - destruct K; [lia|discriminate].
    - apply E. apply ONE. exact K. }
  constructor; cbn [inner rcount held lp]; auto; try lia; try (let K := fresh in intros K; exfalso; apply K; reflexivity).
  - intros u K. exfalso; eapply NO; eauto.
  - intros K u KO. exfalso; eapply NO; eauto.
  - intros u K. setf_cases; [discriminate|eauto].
  - intros u n K. setf_cases; [discriminate|eauto].
  - intros u n K. setf_cases; [discriminate|eauto].
  - intros u K. setf_cases; [discriminate|eauto].
  - intros u d v K. setf_cases; [discriminate|eauto].
  - intros u d K. right. exists t. apply setf_same.
Qed.

Lemma lwake_inv f u p : lwake_all f u = p -> (forall d, p <> LCas d) -> f u = p.
Proof. unfold lwake_all. destruct (f u); intros; subst; try congruence; exfalso; eapply H0; eauto. Qed.

Lemma lwake_inop f u : inop (lwake_all f u) = inop (f u) /\ extra (lwake_all f u) = extra (f u) /\
  inrec (lwake_all f u) = inrec (f u).
Proof. unfold lwake_all. destruct (f u); auto. Qed.

Lemma l_wake k s t : linv k s -> lp s t = UWake ->
  linv k (LState (inner s) (rcount s) (held s) (setf (lwake_all (lp s)) t (LRet 0))).
Proof.
  intros I P. destruct I.
  assert (OC : forall u, occ (LState (inner s) (rcount s) (held s) (setf (lwake_all (lp s)) t (LRet 0))) u <-> occ s u).
  { intro u. unfold occ; cbn [held lp]. setf_cases; [rewrite P; cbn; tauto|].
    rewrite (proj1 (lwake_inop (lp s) u)). tauto. }
  constructor; cbn [inner rcount held lp]; auto.
  - intros u K. apply OC in K. auto.
  - intro K. apply OC. auto.
  - intros KR u K. apply OC in K. specialize (l_recc0 KR u K). setf_cases; [rewrite P in l_recc0; exact l_recc0|].
    rewrite (proj1 (proj2 (lwake_inop (lp s) u))). exact l_recc0.
  - intros u K. setf_cases; [discriminate|]. rewrite (proj2 (proj2 (lwake_inop (lp s) u))) in K. eauto.
  - intros u n K. setf_cases; [discriminate|]. apply lwake_inv in K; [eauto|discriminate].
  - intros u n K. setf_cases; [discriminate|]. apply lwake_inv in K; [eauto|discriminate].
  - intros u K. setf_cases; [discriminate|]. apply lwake_inv in K; [eauto|discriminate].
  - intros u d v K. setf_cases; [discriminate|]. apply lwake_inv in K; [eauto|discriminate].
  - intros u d K. setf_cases; [discriminate|]. unfold lwake_all in K. destruct (lp s u); discriminate.
Qed.

Lemma valid_rng t : valid_tid t = true <-> 0 < t < 2 ^ 31.
Proof. unfold valid_tid. rewrite andb_true_iff, !Z.ltb_lt. tauto. Qed.

Lemma rec_true k : is_rec k = true -> k = Recursive.
Proof. destruct k; try discriminate; auto. Qed.
Lemma rec_false k : is_rec k = false -> k <> Recursive.
Proof. destruct k; try discriminate; intros; discriminate. Qed.

Ltac lq := split; [reflexivity|discriminate].

Lemma linv_step k robust s l s' : linv k s -> pm_exec k robust s l = Some s' -> linv k s'.
Proof.
  intros I X. destruct l as (t & a). unfold pm_exec in X. cbn [fst snd] in X.
  destruct (valid_tid t) eqn:V; cbn [negb] in X; [|discriminate].
  apply valid_rng in V. pose proof (l_rng k s I) as RG.
  destruct (lp s t) as [r|d|d v|d| |n| |n| |] eqn:P; destruct a; try discriminate; try (destruct d; discriminate).
  - inversion X; subst. apply l_move; auto; try discriminate; rewrite ?P; lq.
  - (* trylock *)
    unfold cas, STATE_UNLOCKED in X. destruct (Z.eqb_spec (inner s) 0) as [W|W]; cbn [andb negb] in X.
    + destruct (is_rec k) eqn:KR; inversion X; subst; (apply l_take; auto; [rewrite P; lq|]).
      * left. apply rec_true in KR. auto.
      * right. apply rec_false in KR. auto.
    + rewrite mask_small in X by exact RG.
      destruct (is_rec k) eqn:KR.
      * destruct (Z.eqb_spec (inner s) t) as [E|E]; cbn [negb] in X; inversion X; subst.
        -- apply rec_true in KR. subst k. apply l_enter; auto. rewrite P; lq.
        -- apply l_move; auto; try discriminate; rewrite ?P; lq.
      * destruct ((inner s =? t) && is_errck k); inversion X; subst;
          apply l_move; auto; try discriminate; rewrite ?P; lq.
  - (* unlock *)
    destruct (robust || is_rec k || is_errck k) eqn:CH.
    + rewrite mask_small in X by exact RG.
      destruct (Z.eqb_spec (inner s) t) as [E|E]; cbn [negb] in X; inversion X; subst.
      * eapply l_unlock; eauto. destruct (l_own k s I) as [K|K]; [lia|exact K|]. rewrite P in K. discriminate.
      * apply l_move; auto; try discriminate; rewrite ?P; lq.
    + destruct (Z.ltb_spec 0 (held s t)); [|discriminate]. inversion X; subst. eapply l_unlock; eauto.
  - (* lock: compare-exchange *)
    unfold cas, STATE_UNLOCKED in X.
    assert (FAIL : (if (Z.land (inner s) INDEX_MASK =? t) && is_rec k then
                      Some (LState (inner s) (rcount s) (held s) (setf (lp s) t LInc))
                    else if (Z.land (inner s) INDEX_MASK =? t) && is_errck k then
                      Some (LState (inner s) (rcount s) (held s) (setf (lp s) t (LRet EAGAIN)))
                    else if Z.land (inner s) INDEX_MASK =? 0 then
                      Some (LState (inner s) (rcount s) (held s) (setf (lp s) t (LCas d)))
                    else Some (LState (inner s) (rcount s) (held s) (setf (lp s) t (LFutex d (inner s))))) = Some s' ->
                   linv k s').
    { clear X. rewrite mask_small by exact RG. intro X.
      destruct (Z.eqb_spec (inner s) t) as [E|E]; cbn [andb] in X.
      - destruct (is_rec k) eqn:KR.
        + inversion X; subst. apply rec_true in KR. subst k. apply l_enter; auto; [lia|]. rewrite P; lq.
        + destruct (is_errck k).
          * inversion X; subst. apply l_move; auto; try discriminate; rewrite ?P; lq.
          * destruct (Z.eqb_spec (inner s) 0); [lia|]. inversion X; subst.
            apply l_move; auto; try discriminate; rewrite ?P; try lq. intros ? ? K. inversion K; subst. auto.
      - destruct (Z.eqb_spec (inner s) 0); inversion X; subst; apply l_move; auto; try discriminate; rewrite ?P; try lq.
        intros ? ? K. inversion K; subst. auto. }
    destruct (Z.eqb_spec (inner s) 0) as [W|W]; [destruct spur|]; cbn [andb negb] in X; try (apply FAIL; exact X).
    destruct (is_rec k) eqn:KR; inversion X; subst; (apply l_take; auto; [rewrite P; lq|]).
    + left. apply rec_true in KR. auto.
    + right. apply rec_false in KR. auto.
  - inversion X; subst. destruct (Z.eqb_spec (inner s) v) as [E|E].
    + apply l_move; auto; try discriminate; rewrite ?P; try lq. intros ? _. rewrite E. exact (l_fv k s I t d v P).
    + apply l_move; auto; try discriminate; rewrite ?P; try lq.
  - inversion X; subst. apply l_move; auto; try discriminate; rewrite ?P; try lq.
  - destruct d; [|discriminate]. inversion X; subst. apply l_move; auto; try discriminate; rewrite ?P; try lq.
  - inversion X; subst. assert (KR : k = Recursive) by (apply (l_inrec k s I t); rewrite P; reflexivity).
    subst k. apply l_incload; auto.
  - inversion X; subst. assert (KR : k = Recursive) by (apply (l_inrec k s I t); rewrite P; reflexivity).
    subst k. apply l_incstore; auto.
  - inversion X; subst. assert (KR : k = Recursive) by (apply (l_inrec k s I t); rewrite P; reflexivity).
    subst k. apply l_urec; auto.
  - inversion X; subst. assert (KR : k = Recursive) by (apply (l_inrec k s I t); rewrite P; reflexivity).
    subst k. apply l_urecstore; auto.
  - inversion X; subst. eapply l_release; eauto.
  - inversion X; subst. apply l_wake; auto.
Qed.

Lemma linv_reach k robust s : reachable (pm_exec k robust) pm_init s -> linv k s.
Proof. apply reachable_inv; [apply linv_init|apply linv_step]. Qed.
