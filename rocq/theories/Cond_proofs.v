From Coq Require Import ZArith List Bool Lia.
From Verif Require Import Conc Cond_model.
Import ListNotations.
Open Scope Z_scope.

Definition sphase (p : cpc) : bool :=
  match p with SLoad _ | SStore _ _ | SWake _ => true | _ => false end.
Definition inlock (p : cpc) : bool :=
  match p with CLoad _ | CPrev _ _ | CUnlock _ _ => true | _ => false end.
(* released the mutex and not yet woken *)
Definition outside (p : cpc) : bool :=
  match p with CFutex _ _ | CSleep _ _ => true | _ => false end.
Definition waiting (p : cpc) : bool :=
  match p with CUnlock _ _ | CFutex _ _ | CSleep _ _ => true | _ => false end.
Definition word (p : cpc) : Z :=
  match p with CPrev _ c | CUnlock _ c | CFutex _ c | CSleep _ c => c | _ => 0 end.
Definition index (p : cpc) : Z :=
  match p with SLoad i | SStore i _ | SWake i => i | _ => 0 end.
Definition M := 2 ^ 32.

Record cinv (s : cstate) : Prop := CInv {
  c_cur : cur s = gen s mod M;
  c_prev : prev s = pgen s mod M;
  c_bd : pgen s <= gen s <= pgen s + 1;
  c_own : forall t, inlock (cpcs s t) = true -> owner s = Some t;
  c_pv : forall t d c, cpcs s t = CPrev d c ->
           c = wgen s t mod M /\ pgen s <= wgen s t <= gen s /\ gen s <= wgen s t + 1;
  c_ss : forall t i p, cpcs s t = SStore i p ->
           p = sgen s t mod M /\ gen s - 1 <= sgen s t <= pgen s;
  c_ser : (sigs s = 0 /\ forall t, sphase (cpcs s t) = false) \/
          (sigs s = 1 /\ exists t, sphase (cpcs s t) = true /\ forall u, sphase (cpcs s u) = true -> u = t);
  c_idx : forall t, sphase (cpcs s t) = true -> index (cpcs s t) <= calls s;
  c_max : 0 <= maxdone s <= calls s;
  c_w : forall t, waiting (cpcs s t) = true ->
           word (cpcs s t) = wgen s t mod M /\ wgen s t <= pgen s <= wgen s t + (waits s - uw s t);
  c_done : forall t, outside (cpcs s t) = true -> uc s t < maxdone s -> wgen s t < gen s;
  c_st : forall t u i p, outside (cpcs s t) = true -> cpcs s u = SStore i p -> uc s t < i -> wgen s t <= sgen s u;
  c_wk : forall t u i, outside (cpcs s t) = true -> cpcs s u = SWake i -> uc s t < i -> wgen s t < gen s;
  c_sl : forall t d c, cpcs s t = CSleep d c -> waits s - uw s t < M - 1 -> wgen s t < gen s ->
           exists u i, cpcs s u = SWake i }.

Lemma cinv_init : cinv cond_init.
Proof.
  constructor; cbn; intros; try discriminate; try lia; auto.
Qed.

(* A step that changes one thread's place (and perhaps the owner) among the places
   that carry no information. *)
Lemma c_move s t o p : cinv s -> sphase (cpcs s t) = false -> sphase p = false ->
  (forall u, u <> t -> inlock (cpcs s u) = true -> o = Some u) ->
  (inlock p = true -> o = Some t) ->
  (match p with CPrev _ _ | CUnlock _ _ | CFutex _ _ => False
              | CSleep d c => cpcs s t = CFutex d c /\ (waits s - uw s t < M - 1 -> gen s <= wgen s t)
              | _ => True end) ->
  cinv (CState (cur s) (prev s) o (setf (cpcs s) t p) (calls s) (maxdone s) (sigs s) (waits s)
                 (uc s) (uw s) (gen s) (pgen s) (wgen s) (sgen s)).
Proof.
  intros I N1 N2 O1 O2 Q.
  assert (W : waiting p = true -> waiting (cpcs s t) = true /\ word (cpcs s t) = word p).
  { destruct p; try discriminate; try destruct Q. intros _. rewrite H. split; reflexivity. }
  assert (OU : outside p = true -> outside (cpcs s t) = true).
  { destruct p; try discriminate; try destruct Q. intros _. rewrite H. reflexivity. }
  constructor; cbn [cur prev owner cpcs calls maxdone sigs waits uc uw gen pgen wgen sgen]; try apply I.
  - intros u U. setf_cases; auto.
  - intros u d c U. setf_cases; [subst p; destruct Q|eapply (c_pv s I); eauto].
  - intros u i q U. setf_cases; [subst p; discriminate|eapply (c_ss s I); eauto].
  - destruct (c_ser s I) as [(A & B)|(A & v & B & C)]; [left|right]; (split; [exact A|]).
    + intro u. setf_cases; auto.
    + exists v. assert (v <> t) by (intro; subst v; congruence). split; [setf_cases; auto|].
      intros u U. setf_cases; [congruence|]. auto.
  - intros u U. setf_cases; [congruence|apply (c_idx s I); exact U].
  - intros u U. setf_cases; [destruct (W U) as (W1 & W2); rewrite <- W2; apply (c_w s I); exact W1|apply (c_w s I); exact U].
  - intros u U. setf_cases; apply (c_done s I); auto.
  - intros u v i q U V. setf_cases; subst; try discriminate; eapply (c_st s I); eauto.
  - intros u v i U V. setf_cases; subst; try discriminate; eapply (c_wk s I); eauto.
  - intros u d c U L G.
    assert (E : exists v i, cpcs s v = SWake i).
    { setf_cases; [subst p; destruct Q as (_ & Q); specialize (Q L); lia|]. eapply (c_sl s I); eauto. }
    destruct E as (v & i & V). exists v, i. clear U. setf_cases; [rewrite V in N1; discriminate|exact V].
Qed.

Lemma owns_true s t : owns s t = true -> owner s = Some t.
Proof. unfold owns. destruct (owner s); [|discriminate]. intro H. apply Z.eqb_eq in H. congruence. Qed.

Lemma wrap_same g w k : g mod M = w mod M -> w <= g <= w + k -> k < M -> g = w.
Proof.
  intros E B K. unfold M in *.
  pose proof (Z.div_mod g (2 ^ 32) ltac:(lia)). pose proof (Z.div_mod w (2 ^ 32) ltac:(lia)).
  change (2 ^ 32) with 4294967296 in *. nia.
Qed.

Ltac flds := cbn [cur prev owner cpcs calls maxdone sigs waits uc uw gen pgen wgen sgen].

Lemma cinv_step s l s' : cinv s -> serial_exec s l = Some s' -> cinv s'.
Proof.
  intros I X. destruct l as (t & a). unfold serial_exec in X. cbn [fst snd] in X.
  assert (G : a = CallSignal -> sigs s = 0).
  { intros ->. destruct (Z.eqb_spec (sigs s) 0); [auto|discriminate]. }
  assert (X' : cond_exec s (t, a) = Some s').
  { destruct a; auto. destruct (sigs s =? 0); [auto|discriminate]. }
  clear X. rename X' into X. unfold cond_exec in X. cbn [fst snd] in X.
  assert (OW : forall u, inlock (cpcs s u) = true -> owner s = Some u) by apply (c_own s I).
  assert (MV : forall p, sphase (cpcs s t) = false -> sphase p = false -> (inlock p = true -> owner s = Some t) ->
    (match p with CPrev _ _ | CUnlock _ _ | CFutex _ _ => False
              | CSleep d c => cpcs s t = CFutex d c /\ (waits s - uw s t < M - 1 -> gen s <= wgen s t)
              | _ => True end) ->
    cinv (CState (cur s) (prev s) (owner s) (setf (cpcs s) t p) (calls s) (maxdone s) (sigs s) (waits s)
                 (uc s) (uw s) (gen s) (pgen s) (wgen s) (sgen s))).
  { intros p H1 H2 H3 H4. apply c_move; auto. }
  destruct (cpcs s t) as [r|d|d c|d c|d c|d c|r|i|i p|i] eqn:P; destruct a; try discriminate.
  - (* lock *) destruct (owner s) eqn:O; [discriminate|]. inversion X; subst s'; clear X.
    apply c_move; auto; rewrite ?P; auto; try discriminate. intros u _ U. pose proof (OW u U). congruence.
  - (* unlock *) destruct (owns s t) eqn:O; [|discriminate]. inversion X; subst s'; clear X. apply owns_true in O.
    apply c_move; auto; rewrite ?P; auto; try discriminate. intros u N U. rewrite (OW u U) in O. congruence.
  - (* wait *) destruct (owns s t) eqn:O; [|discriminate]. inversion X; subst s'; clear X. apply owns_true in O.
    apply MV; auto.
  - (* signal *) inversion X; subst s'; clear X. specialize (G eq_refl).
    destruct (c_ser s I) as [(A & B)|(A & _)]; [|lia].
    pose proof (c_max s I) as MX.
    constructor; flds; try apply I.
    + intros u U. setf_cases; [discriminate|auto].
    + intros u d c U. setf_cases; [discriminate|eapply (c_pv s I); eauto].
    + intros u i q U. setf_cases; [discriminate|eapply (c_ss s I); eauto].
    + right. split; [lia|]. exists t. rewrite setf_same. split; [reflexivity|]. intros u U. setf_cases; auto. rewrite B in U. discriminate.
    + intros u U. setf_cases; [cbn; lia|rewrite B in U; discriminate].
    + lia.
    + intros u U. setf_cases; [discriminate|apply (c_w s I); exact U].
    + intros u U. setf_cases; [discriminate|apply (c_done s I); exact U].
    + intros u v i q U V. setf_cases; try discriminate. specialize (B v). rewrite V in B. discriminate.
    + intros u v i U V. setf_cases; try discriminate. specialize (B v). rewrite V in B. discriminate.
    + intros u d c U L GG. setf_cases; try discriminate. destruct (c_sl s I u d c U L GG) as (v & i & V).
      specialize (B v). rewrite V in B. discriminate.
  - (* load cur *) inversion X; subst s'; clear X.
    assert (O : owner s = Some t) by (apply OW; rewrite P; reflexivity).
    constructor; flds; try apply I.
    + intros u U. setf_cases; auto.
    + intros u d0 c U. setf_cases.
      * inversion U; subst. split; [apply (c_cur s I)|]. pose proof (c_bd s I). lia.
      * eapply (c_pv s I); eauto.
    + intros u i q U. setf_cases; [discriminate|eapply (c_ss s I); eauto].
    + destruct (c_ser s I) as [(A & B)|(A & v & B & C)]; [left|right]; (split; [exact A|]).
      * intro u. setf_cases; auto.
      * exists v. assert (v <> t) by (intro; subst v; rewrite P in B; discriminate). split; [setf_cases; auto|].
        intros u U. setf_cases; [discriminate|auto].
    + intros u U. setf_cases; [discriminate|apply (c_idx s I); exact U].
    + intros u U. setf_cases; [discriminate|apply (c_w s I); exact U].
    + intros u U. setf_cases; [discriminate|apply (c_done s I); exact U].
    + intros u v i q U V. setf_cases; try discriminate. eapply (c_st s I); eauto.
    + intros u v i U V. setf_cases; try discriminate. eapply (c_wk s I); eauto.
    + intros u d0 c U L GG. setf_cases; try discriminate. destruct (c_sl s I u d0 c U L GG) as (v & i & V).
      exists v, i. setf_cases; [congruence|exact V].
  - (* store prev *) inversion X; subst s'; clear X.
    assert (O : owner s = Some t) by (apply OW; rewrite P; reflexivity).
    destruct (c_pv s I t d c P) as (C1 & C2 & C3). pose proof (c_bd s I) as BD.
    assert (NP : forall u d c, u <> t -> cpcs s u <> CPrev d c).
    { intros u d0 c0 N U. assert (owner s = Some u) by (apply OW; rewrite U; reflexivity). congruence. }
    constructor; flds; try apply I.
    + exact C1.
    + lia.
    + intros u U. setf_cases; auto.
    + intros u d0 c0 U. setf_cases; [discriminate|destruct (NP u d0 c0 E U)].
    + intros u i q U. setf_cases; [discriminate|]. destruct (c_ss s I u i q U). split; [assumption|lia].
    + destruct (c_ser s I) as [(A & B)|(A & v & B & C)]; [left|right]; (split; [exact A|]).
      * intro u. setf_cases; auto.
      * exists v. assert (v <> t) by (intro; subst v; rewrite P in B; discriminate). split; [setf_cases; auto|].
        intros u U. setf_cases; [discriminate|auto].
    + intros u U. setf_cases; [discriminate|apply (c_idx s I); exact U].
    + intros u U. setf_cases.
      * cbn [word]. split; [exact C1|lia].
      * destruct (c_w s I u U). split; [assumption|lia].
    + intros u U. setf_cases; [discriminate|apply (c_done s I); exact U].
    + intros u v i q U V. setf_cases; try discriminate. eapply (c_st s I); eauto.
    + intros u v i U V. setf_cases; try discriminate. eapply (c_wk s I); eauto.
    + intros u d0 c0 U L GG. setf_cases; try discriminate.
      destruct (c_sl s I u d0 c0 U ltac:(lia) GG) as (v & i & V).
      exists v, i. setf_cases; [congruence|exact V].
  - (* unlock in wait *) inversion X; subst s'; clear X.
    assert (O : owner s = Some t) by (apply OW; rewrite P; reflexivity).
    assert (WT : waiting (cpcs s t) = true) by (rewrite P; reflexivity).
    pose proof (c_w s I t WT) as CW. rewrite P in CW. cbn [word] in CW. pose proof (c_max s I) as MX.
    constructor; flds; try apply I.
    + intros u U. setf_cases; [discriminate|]. rewrite (OW u U) in O. congruence.
    + intros u d0 c0 U. setf_cases; [discriminate|eapply (c_pv s I); eauto].
    + intros u i q U. setf_cases; [discriminate|eapply (c_ss s I); eauto].
    + destruct (c_ser s I) as [(A & B)|(A & v & B & C)]; [left|right]; (split; [exact A|]).
      * intro u. setf_cases; auto.
      * exists v. assert (v <> t) by (intro; subst v; rewrite P in B; discriminate). split; [setf_cases; auto|].
        intros u U. setf_cases; [discriminate|auto].
    + intros u U. setf_cases; [discriminate|apply (c_idx s I); exact U].
    + intros u U. setf_cases; [exact CW|apply (c_w s I); exact U].
    + intros u U. setf_cases; [lia|apply (c_done s I); exact U].
    + intros u v i q U V. destruct (Z.eq_dec v t) as [K|K]; [subst v; rewrite setf_same in V; discriminate|].
      rewrite (setf_other _ _ _ _ K) in V. setf_cases; [|eapply (c_st s I); eauto].
      pose proof (c_idx s I v) as IX. rewrite V in IX. specialize (IX eq_refl). cbn [index] in IX. lia.
    + intros u v i U V. destruct (Z.eq_dec v t) as [K|K]; [subst v; rewrite setf_same in V; discriminate|].
      rewrite (setf_other _ _ _ _ K) in V. setf_cases; [|eapply (c_wk s I); eauto].
      pose proof (c_idx s I v) as IX. rewrite V in IX. specialize (IX eq_refl). cbn [index] in IX. lia.
    + intros u d0 c0 U L GG. setf_cases; try discriminate. destruct (c_sl s I u d0 c0 U L GG) as (v & i & V).
      exists v, i. setf_cases; [congruence|exact V].
  - (* futex_wait *) inversion X; subst s'; clear X. apply MV; destruct (Z.eqb_spec (cur s) c) as [E|E]; auto; try discriminate.
    split; [reflexivity|]. intro L.
    assert (WT : waiting (cpcs s t) = true) by (rewrite P; reflexivity).
    destruct (c_w s I t WT) as (CW & CB). rewrite P in CW. cbn [word] in CW. pose proof (c_bd s I) as BD.
    rewrite (c_cur s I), CW in E. rewrite (wrap_same _ _ (1 + (waits s - uw s t)) E); lia.
  - (* spurious *) inversion X; subst s'; clear X. apply MV; auto; discriminate.
  - (* timeout *) destruct d; inversion X; subst s'; clear X. apply MV; auto; discriminate.
  - (* relock *) destruct (owner s) eqn:O; [discriminate|]. inversion X; subst s'; clear X.
    apply c_move; auto; rewrite ?P; auto; try discriminate. intros u _ U. pose proof (OW u U). congruence.
  - (* load prev *) inversion X; subst s'; clear X.
    pose proof (c_bd s I) as BD.
    assert (IX : i <= calls s) by (pose proof (c_idx s I t) as IX; rewrite P in IX; apply IX; reflexivity).
    destruct (c_ser s I) as [(A & B)|(A & v & B & C)]; [specialize (B t); rewrite P in B; discriminate|].
    assert (ST : sphase (cpcs s t) = true) by (rewrite P; reflexivity).
    pose proof (C t ST); subst v.
    constructor; flds; try apply I.
    + intros u U. setf_cases; [discriminate|auto].
    + intros u d c U. setf_cases; [discriminate|eapply (c_pv s I); eauto].
    + intros u i0 q U. setf_cases; [inversion U; subst; split; [apply (c_prev s I)|lia]|eapply (c_ss s I); eauto].
    + right. split; [exact A|]. exists t. rewrite setf_same. split; [reflexivity|]. intros u U. setf_cases; auto.
    + intros u U. setf_cases; [cbn; lia|apply (c_idx s I); exact U].
    + intros u U. setf_cases; [discriminate|apply (c_w s I); exact U].
    + intros u U. setf_cases; [discriminate|apply (c_done s I); exact U].
    + intros u v i0 q U V L. destruct (Z.eq_dec u t) as [K|K]; [subst u; rewrite setf_same in U; discriminate|].
      rewrite (setf_other _ _ _ _ K) in U. setf_cases; [|eapply (c_st s I); eauto].
      apply (c_w s I). destruct (cpcs s u); try discriminate; reflexivity.
    + intros u v i0 U V. setf_cases; try discriminate. eapply (c_wk s I); eauto.
    + intros u d c U L GG. setf_cases; try discriminate. destruct (c_sl s I u d c U L GG) as (v & i0 & V).
      exists v, i0. setf_cases; [congruence|exact V].
  - (* store cur *) inversion X; subst s'; clear X.
    destruct (c_ss s I t i p P) as (S1 & S2). pose proof (c_bd s I) as BD.
    assert (IX : i <= calls s) by (pose proof (c_idx s I t) as IX; rewrite P in IX; apply IX; reflexivity).
    destruct (c_ser s I) as [(A & B)|(A & v & B & C)]; [specialize (B t); rewrite P in B; discriminate|].
    assert (ST : sphase (cpcs s t) = true) by (rewrite P; reflexivity).
    pose proof (C t ST); subst v.
    assert (NS : forall u, u <> t -> sphase (cpcs s u) = false).
    { intros u N. destruct (sphase (cpcs s u)) eqn:K; auto. destruct (N (C u K)). }
    constructor; flds; try apply I.
    + rewrite S1. unfold M. rewrite Z.add_mod_idemp_l by lia. reflexivity.
    + lia.
    + intros u U. setf_cases; [discriminate|auto].
    + intros u d c U. setf_cases; [discriminate|]. destruct (c_pv s I u d c U) as (Q1 & Q2 & Q3). split; [assumption|]. lia.
    + intros u i0 q U. setf_cases; [discriminate|]. specialize (NS u E). rewrite U in NS. discriminate.
    + right. split; [exact A|]. exists t. rewrite setf_same. split; [reflexivity|]. intros u U. setf_cases; auto.
    + intros u U. setf_cases; [cbn; lia|apply (c_idx s I); exact U].
    + intros u U. setf_cases; [discriminate|apply (c_w s I); exact U].
    + intros u U L. setf_cases; [discriminate|]. pose proof (c_done s I u U L). lia.
    + intros u v i0 q U V L. setf_cases; try discriminate. specialize (NS v E). rewrite V in NS. discriminate.
    + intros u v i0 U V L. destruct (Z.eq_dec u t) as [K|K]; [subst u; rewrite setf_same in U; discriminate|].
      rewrite (setf_other _ _ _ _ K) in U. setf_cases.
      * inversion V; subst i0. pose proof (c_st s I u t i p U P L). lia.
      * specialize (NS v E). rewrite V in NS. discriminate.
    + intros u d c U L GG. exists t, i. apply setf_same.
  - (* futex_wake *) inversion X; subst s'; clear X.
    assert (IX : i <= calls s) by (pose proof (c_idx s I t) as IX; rewrite P in IX; apply IX; reflexivity).
    destruct (c_ser s I) as [(A & B)|(A & v & B & C)]; [specialize (B t); rewrite P in B; discriminate|].
    assert (ST : sphase (cpcs s t) = true) by (rewrite P; reflexivity).
    pose proof (C t ST); subst v.
    assert (NS : forall u, u <> t -> sphase (cpcs s u) = false).
    { intros u N. destruct (sphase (cpcs s u)) eqn:K; auto. destruct (N (C u K)). }
    pose proof (c_max s I) as MX.
    assert (WA : forall u p, cwake_all (cpcs s) u = p -> (forall r, p <> CRelock r) -> cpcs s u = p).
    { intros u p K NR. unfold cwake_all in K. destruct (cpcs s u); try exact K. destruct (NR 0). congruence. }
    assert (WB : forall (f : cpc -> bool) u, (forall r, f (CRelock r) = false) -> f (cwake_all (cpcs s) u) = true -> f (cpcs s u) = true /\ cwake_all (cpcs s) u = cpcs s u).
    { intros f u H K. unfold cwake_all in *. destruct (cpcs s u); try (split; [exact K|reflexivity]). rewrite H in K. discriminate. }
    constructor; flds; try apply I.
    + intros u U. setf_cases; [discriminate|]. apply (WB inlock) in U; [|reflexivity]. apply OW. tauto.
    + intros u d c U. setf_cases; [discriminate|]. apply WA in U; [|discriminate]. eapply (c_pv s I); eauto.
    + intros u i0 q U. setf_cases; [discriminate|]. apply WA in U; [|discriminate]. eapply (c_ss s I); eauto.
    + left. split; [lia|]. intro u. setf_cases; auto. destruct (sphase (cwake_all (cpcs s) u)) eqn:K; auto.
      apply (WB sphase) in K; [|reflexivity]. destruct K as (K & _). rewrite (NS u E) in K. discriminate.
    + intros u U. setf_cases; [discriminate|]. apply (WB sphase) in U; [|reflexivity]. destruct U as (U & ->). apply (c_idx s I). exact U.
    + lia.
    + intros u U. setf_cases; [discriminate|]. apply (WB waiting) in U; [|reflexivity]. destruct U as (U & ->). apply (c_w s I). exact U.
    + intros u U L. setf_cases; [discriminate|]. apply (WB outside) in U; [|reflexivity]. destruct U as (U & _).
      destruct (Z.max_spec (maxdone s) i) as [(_ & K)|(_ & K)]; rewrite K in L.
      * eapply (c_wk s I); eauto.
      * apply (c_done s I); auto.
    + intros u v i0 q U V L. setf_cases; try discriminate.
      apply WA in V; [|discriminate]. match goal with K : v <> t |- _ => specialize (NS v K) end. rewrite V in NS. discriminate.
    + intros u v i0 U V L. setf_cases; try discriminate.
      apply WA in V; [|discriminate]. match goal with K : v <> t |- _ => specialize (NS v K) end. rewrite V in NS. discriminate.
    + intros u d c U. setf_cases; [discriminate|]. unfold cwake_all in U. destruct (cpcs s u); discriminate.
Qed.

Lemma cinv_reach s : reachable serial_exec cond_init s -> cinv s.
Proof. apply reachable_inv; [exact cinv_init|exact cinv_step]. Qed.

(* Signals called by owners of the mutex never overlap. *)
Record hinv (s : cstate) : Prop := HInv {
  h_own : forall t, inlock (cpcs s t) = true \/ sphase (cpcs s t) = true -> owner s = Some t;
  h_ser : (sigs s = 0 /\ forall t, sphase (cpcs s t) = false) \/
          (sigs s = 1 /\ exists t, sphase (cpcs s t) = true) }.

Lemma hinv_init : hinv cond_init.
Proof. constructor; cbn; [intros t [|]; discriminate|left; auto]. Qed.

Lemma hinv_step s l s' : hinv s -> held_exec s l = Some s' -> serial_exec s l = Some s' /\ hinv s'.
Proof.
  intros I X. destruct l as (t & a). unfold held_exec, serial_exec in *. cbn [fst snd] in *.
  pose proof (h_own s I) as OW. pose proof (h_ser s I) as SR.
  assert (MV : forall o p ca md, (forall u, u <> t -> inlock (cpcs s u) = true \/ sphase (cpcs s u) = true -> o = Some u) ->
    (inlock p = true \/ sphase p = true -> o = Some t) -> sphase p = sphase (cpcs s t) ->
    forall cu pr w u1 u2 g1 g2 g3 g4,
    hinv (CState cu pr o (setf (cpcs s) t p) ca md (sigs s) w u1 u2 g1 g2 g3 g4)).
  { intros o p ca md H1 H2 H3 cu pr w u1 u2 g1 g2 g3 g4. constructor; cbn [sigs cpcs owner].
    - intros u U. setf_cases; auto.
    - destruct SR as [(A & B)|(A & v & B)]; [left|right]; (split; [exact A|]).
      + intro u. setf_cases; auto. rewrite H3. apply B.
      + exists v. setf_cases; auto. congruence. }
  assert (OWN : owns s t = true -> forall u, u <> t -> inlock (cpcs s u) = true \/ sphase (cpcs s u) = true -> False).
  { intros O u N U. apply owns_true in O. rewrite (OW u U) in O. congruence. }
  assert (OWN2 : inlock (cpcs s t) = true \/ sphase (cpcs s t) = true ->
    forall u, u <> t -> inlock (cpcs s u) = true \/ sphase (cpcs s u) = true -> False).
  { intros O u N U. apply OW in O. rewrite (OW u U) in O. congruence. }
  assert (NON : owner s = None -> forall u, inlock (cpcs s u) = true \/ sphase (cpcs s u) = true -> False).
  { intros O u U. rewrite (OW u U) in O. discriminate. }
  destruct a.
  4:{ destruct (owns s t) eqn:O; [|discriminate]. pose proof (owns_true s t O) as OT.
      assert (PI : exists r, cpcs s t = CIdle r).
      { unfold cond_exec in X. cbn [fst snd] in X. destruct (cpcs s t); try discriminate. eauto. }
      destruct PI as (r & P).
      assert (Z0 : sigs s = 0 /\ forall u, sphase (cpcs s u) = false).
      { destruct SR as [?|(A & v & B)]; [assumption|]. pose proof (OW v (or_intror B)) as E. rewrite OT in E. inversion E; subst v.
        rewrite P in B. discriminate. }
      destruct Z0 as (Z0 & Z1). rewrite Z0. change (0 =? 0) with true. cbv iota. split; [exact X|].
      unfold cond_exec in X. cbn [fst snd] in X. rewrite P in X. inversion X; subst s'.
      constructor; cbn [sigs cpcs owner].
      - intros u U. setf_cases; auto.
      - right. split; [lia|]. exists t. rewrite setf_same. reflexivity. }
  all: split; [exact X|]; unfold cond_exec in X; cbn [fst snd] in X;
    destruct (cpcs s t) as [r|d|d c|d c|d c|d c|r|i|i p|i] eqn:P; try discriminate;
    try (destruct (owns s t) eqn:O; [|discriminate]);
    try (destruct (owner s) eqn:O; [discriminate|]);
    try (destruct d; [|discriminate]);
    inversion X; subst s'; clear X;
    try (apply MV; auto; try (rewrite P; reflexivity);
         try (intros u N U; exfalso; eauto; fail);
         try (intros [|]; discriminate);
         try (intros _; apply owns_true; assumption);
         try (intros _; apply OW; rewrite P; auto; fail); fail).
  - apply MV; destruct (cur s =? c); auto; try (rewrite P; reflexivity); intros [|]; discriminate.
  - assert (WB : forall u, u <> t -> sphase (cwake_all (cpcs s) u) = false).
    { intros u N. destruct (sphase (cwake_all (cpcs s) u)) eqn:K; auto. exfalso. apply (OWN2 (or_intror eq_refl) u N).
      unfold cwake_all in K. destruct (cpcs s u); try discriminate; auto. }
    constructor; cbn [sigs cpcs owner].
    + intros u U. setf_cases; [destruct U; discriminate|]. apply OW. unfold cwake_all in U. destruct (cpcs s u); auto.
    + destruct SR as [(A & B)|(A & v & B)]; [specialize (B t); rewrite P in B; discriminate|].
      left. split; [lia|]. intro u. setf_cases; auto.
Qed.

Lemma held_serial s : reachable held_exec cond_init s -> reachable serial_exec cond_init s.
Proof.
  intros (ls & E). exists ls.
  assert (K : forall ls s0 s, hinv s0 -> run held_exec s0 ls = Some s -> run serial_exec s0 ls = Some s).
  { clear. induction ls as [|l r IH]; intros s0 s I E; cbn [run] in *; [exact E|].
    destruct (held_exec s0 l) as [s1|] eqn:X; [|discriminate].
    destruct (hinv_step _ _ _ I X) as (Y & I1). rewrite Y. apply IH; auto. }
  apply K; [apply hinv_init|exact E].
Qed.


(* Nobody sleeps through a completed signal. *)
Definition sl2 (s : cstate) : Prop := forall t d c,
  cpcs s t = CSleep d c -> waits s - uw s t < M - 1 -> maxdone s <= uc s t.

Lemma sl2_step s l s' : cinv s -> sl2 s -> serial_exec s l = Some s' -> sl2 s'.
Proof.
  intros I S X. destruct l as (t & a).
  assert (X' : cond_exec s (t, a) = Some s').
  { unfold serial_exec in X. cbn [snd] in X. destruct a; auto. destruct (sigs s =? 0); [auto|discriminate]. }
  clear X. rename X' into X. unfold cond_exec in X. cbn [fst snd] in X.
  destruct (cpcs s t) as [r|d|d c|d c|d c|d c|r|i|i p|i] eqn:P; destruct a; try discriminate;
    try (destruct (owns s t); [|discriminate]); try (destruct (owner s); [discriminate|]);
    try (destruct d; [|discriminate]);
    inversion X; subst s'; clear X; intros u d0 c0 U L; cbn [cpcs waits uw uc maxdone] in *;
    try (setf_cases; try discriminate; eapply S; eauto; lia; fail).
  - (* futex *) setf_cases; [|eapply S; eauto].
    destruct (Z.eqb_spec (cur s) c) as [E|E]; [|discriminate]. inversion U; subst d0 c0.
    assert (WT : waiting (cpcs s t) = true) by (rewrite P; reflexivity).
    destruct (c_w s I t WT) as (CW & CB). rewrite P in CW. cbn [word] in CW. pose proof (c_bd s I) as BD.
    rewrite (c_cur s I), CW in E. pose proof (wrap_same _ _ (1 + (waits s - uw s t)) E) as Q.
    destruct (Z.le_gt_cases (maxdone s) (uc s t)) as [|K]; auto.
    assert (OT : outside (cpcs s t) = true) by (rewrite P; reflexivity).
    pose proof (c_done s I t OT ltac:(lia)). lia.
  - (* wake *) setf_cases; [discriminate|]. unfold cwake_all in U. destruct (cpcs s u); discriminate.
Qed.

Lemma sl2_reach s : reachable serial_exec cond_init s -> sl2 s.
Proof.
  intro R. apply (reachable_inv serial_exec (fun s => cinv s /\ sl2 s) cond_init s); [| |exact R].
  - split; [apply cinv_init|]. intros t d c U. discriminate.
  - intros s0 l s1 (A & B) X. split; [eapply cinv_step; eauto|eapply sl2_step; eauto].
Qed.

Lemma cond_no_lost s t : reachable serial_exec cond_init s ->
  outside (cpcs s t) = true -> uc s t < maxdone s -> waits s - uw s t < 2 ^ 32 - 1 ->
  exists d c, cpcs s t = CFutex d c /\ cur s <> c.
Proof.
  intros R O D L. pose proof (cinv_reach s R) as I. pose proof (c_done s I t O D) as G.
  assert (WT : waiting (cpcs s t) = true) by (destruct (cpcs s t); try discriminate; reflexivity).
  destruct (c_w s I t WT) as (CW & CB). pose proof (c_bd s I) as BD.
  destruct (cpcs s t) eqn:P; try discriminate.
  - exists timed, c. split; [reflexivity|]. intro E. cbn [word] in CW.
    rewrite (c_cur s I), CW in E. pose proof (wrap_same _ _ (1 + (waits s - uw s t)) E). unfold M in *. lia.
  - pose proof (sl2_reach s R t _ _ P L). lia.
Qed.

Lemma cond_not_asleep s t d c : reachable serial_exec cond_init s ->
  uc s t < maxdone s -> waits s - uw s t < 2 ^ 32 - 1 -> cpcs s t <> CSleep d c.
Proof. intros R D L P. pose proof (sl2_reach s R t _ _ P L). lia. Qed.

(* It returns as soon as the mutex is free. *)
Lemma cond_returns s t : reachable serial_exec cond_init s ->
  outside (cpcs s t) = true \/ (exists r, cpcs s t = CRelock r) ->
  uc s t < maxdone s -> waits s - uw s t < 2 ^ 32 - 1 -> owner s = None ->
  exists n s' r, (n <= 2)%nat /\ run cond_exec s (repeat (t, CStep) n) = Some s' /\
    cpcs s' t = CIdle r /\ owner s' = Some t.
Proof.
  intros R W D L O.
  assert (RL : forall s1 r, owner s1 = None -> cpcs s1 t = CRelock r ->
    exists s', cond_exec s1 (t, CStep) = Some s' /\ cpcs s' t = CIdle r /\ owner s' = Some t).
  { intros s1 r O1 P1. eexists. unfold cond_exec. cbn [fst snd]. rewrite P1, O1. split; [reflexivity|].
    cbn [cpcs owner]. rewrite setf_same. auto. }
  destruct W as [W|(r & P)].
  - destruct (cond_no_lost s t R W D L) as (d & c & P & N). apply Z.eqb_neq in N.
    assert (X : exists s1, cond_exec s (t, CStep) = Some s1 /\ owner s1 = None /\ cpcs s1 t = CRelock 0).
    { eexists. unfold cond_exec. cbn [fst snd]. rewrite P, N, O. split; [reflexivity|]. cbn [cpcs owner]. rewrite setf_same. auto. }
    destruct X as (s1 & X & O1 & P1). destruct (RL s1 0 O1 P1) as (s2 & X2 & Q).
    exists 2%nat, s2, 0. split; [lia|]. split; [|exact Q]. cbn [repeat run]. rewrite X, X2. reflexivity.
  - destruct (RL s r O P) as (s1 & X & Q). exists 1%nat, s1, r. split; [lia|]. split; [|exact Q].
    cbn [repeat run]. rewrite X. reflexivity.
Qed.

Definition inwait (p : cpc) : bool :=
  match p with CLoad _ | CPrev _ _ | CUnlock _ _ | CFutex _ _ | CSleep _ _ | CRelock _ => true | _ => false end.

Lemma cond_reowns s t l s' r : reachable cond_exec cond_init s -> inwait (cpcs s t) = true ->
  cond_exec s l = Some s' -> cpcs s' t = CIdle r ->
  owner s = None /\ owner s' = Some t /\ (r = 0 \/ r = ETIMEDOUT).
Proof.
  intros R W X Q.
  assert (RV : forall u r, cpcs s u = CRelock r -> r = 0 \/ r = ETIMEDOUT).
  { revert R. clear. revert s. intros s R.
    apply (reachable_inv cond_exec (fun s => forall u r, cpcs s u = CRelock r -> r = 0 \/ r = ETIMEDOUT) cond_init s);
      [| |exact R].
    - intros u r K. discriminate.
    - clear. intros s (t & a) s' I X u r K. unfold cond_exec in X. cbn [fst snd] in X.
      destruct (cpcs s t) as [?|d|d c|d c|d c|d c|?|i|i p|i] eqn:P; destruct a; try discriminate;
      try (destruct (owns s t); [|discriminate]); try (destruct (owner s); [discriminate|]);
      try (destruct d; [|discriminate]);
      inversion X; subst s'; clear X; cbn [cpcs] in K; setf_cases; try discriminate;
      try (eapply I; eauto; fail); try (inversion K; auto; fail).
      + destruct (cur s =? c); inversion K; auto.
      + unfold cwake_all in K. destruct (cpcs s u) eqn:PU; try discriminate; [inversion K; auto|].
        inversion K; subst. eapply I; eauto. }
  destruct l as (v & a). unfold cond_exec in X. cbn [fst snd] in X.
  destruct (Z.eq_dec t v) as [<-|N].
  - destruct (cpcs s t) as [?|d|d c|d c|d c|d c|?|i|i p|i] eqn:P; try discriminate W; destruct a; try discriminate;
      try (destruct (owner s) eqn:O; [discriminate|]); try (destruct d; [|discriminate]);
      inversion X; subst s'; clear X; cbn [cpcs owner] in *; rewrite setf_same in Q; try discriminate.
    + destruct (cur s =? c); discriminate.
    + inversion Q; subst. split; [reflexivity|]. split; [reflexivity|]. eapply RV; eauto.
  - exfalso.
    destruct (cpcs s v) as [?|d|d c|d c|d c|d c|?|i|i p|i] eqn:P; destruct a; try discriminate;
      try (destruct (owns s v); [|discriminate]); try (destruct (owner s); [discriminate|]);
      try (destruct d; [|discriminate]);
      inversion X; subst s'; clear X; cbn [cpcs] in Q; rewrite setf_other in Q by exact N;
      try (rewrite Q in W; discriminate).
    unfold cwake_all in Q. destruct (cpcs s t); discriminate.
Qed.
