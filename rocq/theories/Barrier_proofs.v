From Coq Require Import ZArith List Bool Lia.
From Verif Require Import Conc Barrier_model.
Import ListNotations.
Open Scope Z_scope.

Definition M := 2 ^ 32.

Definition inlock (p : bpc) : bool :=
  match p with
  | BBody | BCheck _ | BLoad _ | BPrev _ _ | BRelease _ _ | SLoad | SStore _ | SWake | BUnlock _ => true
  | _ => false
  end.
(* before the store of cur in broadcast *)
Definition pends (p : bpc) : Z := match p with SLoad | SStore _ => 1 | _ => 0 end.
Definition pend (s : bstate) : Z := match owner s with Some u => pends (bpcs s u) | None => 0 end.
(* the waiters and what they remember *)
Definition gid (p : bpc) : option Z :=
  match p with
  | BCheck g | BLoad g | BPrev g _ | BRelease g _ | BFutex g _ | BSleep g _ | BRelock g => Some g
  | _ => None
  end.
Definition wword (p : bpc) : option Z :=
  match p with BRelease _ c | BFutex _ c | BSleep _ c => Some c | _ => None end.
Definition myc (n : Z) (s : bstate) (t : tid) : Z := my s t / n.

Record binv (n : Z) (s : bstate) : Prop := BInv {
  b_gid : gen_id s = cyc s mod M;
  b_cur : cur s = gen s mod M;
  b_prev : prev s = pgen s mod M;
  b_arr : arrivals s = cyc s * n + count s;
  b_cnt : 0 <= count s < n;
  b_cyc : 0 <= cyc s;
  b_bd : pgen s <= gen s <= pgen s + 1;
  b_own : forall t, inlock (bpcs s t) = true -> owner s = Some t;
  b_in : forall t, owner s = Some t -> inlock (bpcs s t) = true;
  b_w : forall t g, gid (bpcs s t) = Some g ->
          g = myc n s t mod M /\ myc n s t <= cyc s /\ my s t mod n <> n - 1;
  b_s : forall t, match bpcs s t with SLoad | SStore _ | SWake => my s t mod n = n - 1 /\ myc n s t < cyc s | _ => True end;
  b_u : forall t r, bpcs s t = BUnlock r -> myc n s t < cyc s /\
          ((r = SERIAL_THREAD /\ my s t mod n = n - 1) \/ (r = 0 /\ my s t mod n <> n - 1));
  b_ld : forall t, match bpcs s t with BLoad _ | BPrev _ _ => myc n s t mod M = cyc s mod M | _ => True end;
  b_pv : forall t g c, bpcs s t = BPrev g c -> c = gen s mod M /\ wgen s t = gen s;
  b_ss : forall t p, bpcs s t = SStore p -> p = pgen s mod M;
  b_ww : forall t c, wword (bpcs s t) = Some c ->
          c = wgen s t mod M /\ wgen s t <= pgen s /\ gen s + pend s - wgen s t <= cyc s - myc n s t /\
          (cyc s - myc n s t < M -> myc n s t < cyc s -> wgen s t < gen s + pend s);
  b_sl : forall t g c, bpcs s t = BSleep g c -> cyc s - myc n s t < M -> myc n s t < cyc s ->
          exists u, owner s = Some u /\ match bpcs s u with SLoad | SStore _ | SWake => True | _ => False end }.

Lemma binv_init n : 1 <= n -> binv n bar_init.
Proof. intro H. constructor; cbn; intros; try discriminate; auto; lia. Qed.

Definition sclass (p : bpc) : bool := match p with SLoad | SStore _ | SWake => true | _ => false end.

Ltac flds := cbn [count gen_id owner cur prev bpcs arrivals my cyc gen pgen wgen].

Lemma pend_other s u : owner s = Some u -> pends (bpcs s u) = pend s.
Proof. intro O. unfold pend. rewrite O. reflexivity. Qed.

Lemma not_owner n s t : binv n s -> inlock (bpcs s t) = false -> owner s <> Some t.
Proof. intros I N O. rewrite (b_in n s I t O) in N. discriminate. Qed.

(* A step of t that moves t only and perhaps changes the owner. *)
Lemma b_move n s t o p : binv n s ->
  (inlock p = true -> o = Some t) -> (o = Some t -> inlock p = true) ->
  (forall u, u <> t -> (o = Some u <-> owner s = Some u)) ->
  pends p = pends (bpcs s t) ->
  (forall g, gid p = Some g -> gid (bpcs s t) = Some g) ->
  (forall c, wword p = Some c -> wword (bpcs s t) = Some c) ->
  (sclass p = sclass (bpcs s t)) ->
  (forall q, p = SStore q -> q = prev s) ->
  (forall r, p = BUnlock r -> myc n s t < cyc s /\
          ((r = SERIAL_THREAD /\ my s t mod n = n - 1) \/ (r = 0 /\ my s t mod n <> n - 1))) ->
  (match p with BLoad _ => myc n s t mod M = cyc s mod M | BPrev _ _ => False | _ => True end) ->
  (forall g c, p = BSleep g c -> cyc s - myc n s t < M -> myc n s t < cyc s ->
     exists u, owner s = Some u /\ sclass (bpcs s u) = true) ->
  binv n (BState (count s) (gen_id s) o (cur s) (prev s) (setf (bpcs s) t p)
                 (arrivals s) (my s) (cyc s) (gen s) (pgen s) (wgen s)).
Proof.
  intros I H1 H1' H2 H3 H4 H5 H6 H7 H8 H9 H10.
  set (s' := BState (count s) (gen_id s) o (cur s) (prev s) (setf (bpcs s) t p)
                 (arrivals s) (my s) (cyc s) (gen s) (pgen s) (wgen s)).
  assert (PE : pend s' = pend s).
  { unfold pend. cbn [s' owner bpcs]. destruct o as [u|] eqn:O.
    - destruct (Z.eq_dec u t) as [->|N].
      + rewrite setf_same, H3. destruct (owner s) as [v|] eqn:OV.
        * destruct (Z.eq_dec v t) as [->|N]; [reflexivity|]. assert (X : Some t = Some v) by (apply (H2 v N); reflexivity). inversion X; congruence.
        * destruct (bpcs s t) eqn:P; auto; pose proof (b_own n s I t) as K; rewrite P, OV in K; discriminate K; reflexivity.
      + rewrite setf_other by exact N. rewrite (proj1 (H2 u N) eq_refl). reflexivity.
    - destruct (owner s) as [v|] eqn:OV; [|reflexivity].
      destruct (Z.eq_dec v t) as [->|N]; [|discriminate (proj2 (H2 v N) eq_refl)].
      rewrite <- H3. destruct p; try reflexivity; discriminate H1; reflexivity. }
  assert (SC : forall u, sclass (bpcs s u) = true -> sclass (setf (bpcs s) t p u) = true).
  { intros u U. setf_cases; auto. congruence. }
  constructor; cbn [s' count gen_id owner cur prev bpcs arrivals my cyc gen pgen wgen]; fold s'; try (solve [apply I]).
  - intros u U. setf_cases; auto. apply H2; auto. apply (b_own n s I); exact U.
  - intros u U. setf_cases; auto. apply (b_in n s I). apply H2; auto.
  - intros u g U. change (myc n s' u) with (myc n s u). apply (b_w n s I). setf_cases; auto.
  - intro u. change (myc n s' u) with (myc n s u). pose proof (b_s n s I u) as B. setf_cases; auto.
    destruct p; auto; destruct (bpcs s t); try discriminate H6; auto.
  - intros u r U. change (myc n s' u) with (myc n s u). setf_cases; auto. apply (b_u n s I); exact U.
  - intro u. change (myc n s' u) with (myc n s u). pose proof (b_ld n s I u) as B. setf_cases; auto.
    destruct p; auto. destruct H9.
  - intros u g c U. setf_cases; [subst p; destruct H9|eapply (b_pv n s I); eauto].
  - intros u q U. setf_cases; [rewrite (H7 q U)|]; [apply (b_prev n s I)|eapply (b_ss n s I); eauto].
  - intros u c U. change (myc n s' u) with (myc n s u). rewrite PE. apply (b_ww n s I). setf_cases; auto.
  - intros u g c U L G. change (myc n s' u) with (myc n s u) in *.
    assert (E : exists v, owner s = Some v /\ sclass (bpcs s v) = true).
    { setf_cases; [eapply H10; eauto|]. destruct (b_sl n s I u g c U L G) as (v & V1 & V2).
      exists v. split; [exact V1|]. destruct (bpcs s v); try destruct V2; reflexivity. }
    destruct E as (v & V1 & V2). exists v. pose proof (SC v V2) as V3. split.
    + destruct (Z.eq_dec v t) as [->|N].
      * apply H1. rewrite setf_same in V3. destruct p; try discriminate V3; reflexivity.
      * apply H2; auto.
    + destruct (setf (bpcs s) t p v); try discriminate V3; exact Logic.I.
Qed.

Lemma div_split q r n : 0 <= r < n -> (q * n + r) / n = q /\ (q * n + r) mod n = r.
Proof.
  intro H. split.
  - rewrite Z.add_comm, Z.div_add by lia. rewrite Z.div_small by lia. lia.
  - rewrite Z.add_comm, Z.mod_add by lia. apply Z.mod_small; lia.
Qed.

Lemma wrap_same g w k : g mod M = w mod M -> w <= g <= w + k -> k < M -> g = w.
Proof.
  intros E B K. unfold M in *.
  pose proof (Z.div_mod g (2 ^ 32) ltac:(lia)). pose proof (Z.div_mod w (2 ^ 32) ltac:(lia)).
  change (2 ^ 32) with 4294967296 in *. nia.
Qed.

Opaque Z.pow.
Lemma binv_step n s l s' : 1 <= n < M -> binv n s -> bar_exec n s l = Some s' -> binv n s'.
Proof.
  intros HN I X. destruct l as (t & a). unfold bar_exec in X. cbn [fst snd] in X.
  pose proof (b_own n s I t) as OT. pose proof (b_in n s I t) as IT.
  assert (UNI : inlock (bpcs s t) = true -> forall u, u <> t -> inlock (bpcs s u) = false).
  { intros T u N. destruct (inlock (bpcs s u)) eqn:K; auto. apply OT in T. rewrite (b_own n s I u K) in T. congruence. }
  destruct (bpcs s t) as [r| | |g|g|g c|g c|g c|g c|g| |p| |r] eqn:P; destruct a; try discriminate; cbn [inlock] in *.
  - (* call *) inversion X; subst s'; clear X. apply b_move; auto; rewrite ?P; cbn; auto; try discriminate; try congruence; try tauto.
  - (* lock *) destruct (owner s) eqn:O; [discriminate|]. inversion X; subst s'; clear X.
    apply b_move; auto; rewrite ?P; cbn; auto; try discriminate; try congruence.
    intros u N. split; congruence.
  - (* body *)
    specialize (OT eq_refl). specialize (UNI eq_refl).
    pose proof (b_cnt n s I) as CN. pose proof (b_arr n s I) as AR.
    assert (PE : pend s = 0) by (unfold pend; rewrite OT, P; reflexivity).
    unfold M in HN. rewrite Z.mod_small in X by lia.
    destruct (Z.eqb_spec (count s + 1) n) as [E|E]; inversion X; subst s'; clear X;
    (destruct (div_split (cyc s) (count s) n CN) as (DV & MD)); rewrite <- AR in DV, MD.
    + set (s' := BState 0 ((gen_id s + 1) mod 2 ^ 32) (owner s) (cur s) (prev s) (setf (bpcs s) t SLoad)
                        (arrivals s + 1) (setf (my s) t (arrivals s)) (cyc s + 1) (gen s) (pgen s) (wgen s)).
      assert (PE' : pend s' = 1) by (unfold pend, s'; cbn [owner bpcs]; rewrite OT, setf_same; reflexivity).
      assert (MY : forall u, u <> t -> myc n s' u = myc n s u) by (intros u N; unfold myc, s'; cbn [my]; rewrite setf_other by exact N; reflexivity).
      assert (MYT : myc n s' t = cyc s) by (unfold myc, s'; cbn [my]; rewrite setf_same; exact DV).
      constructor; try rewrite PE'; cbn [s' count gen_id owner cur prev bpcs arrivals my cyc gen pgen wgen]; fold s'; try (solve [apply I]).
      * rewrite (b_gid n s I). unfold M. rewrite Z.add_mod_idemp_l by lia. reflexivity.
      * lia.
      * lia.
      * pose proof (b_cyc n s I). lia.
      * intros u U. setf_cases; auto. apply (b_own n s I); exact U.
      * intros u U. setf_cases; auto. apply (b_in n s I); exact U.
      * intros u g U. setf_cases; [discriminate|]. rewrite MY by auto.
        pose proof (b_w n s I u g U). intuition lia.
      * intro u. pose proof (b_s n s I u) as B. setf_cases; [rewrite MYT; lia|]. rewrite MY by auto.
        destruct (bpcs s u); auto; lia.
      * intros u r U. setf_cases; [discriminate|]. rewrite MY by auto. pose proof (b_u n s I u r U). intuition lia.
      * intro u. setf_cases; auto. pose proof (UNI u E0) as K. destruct (bpcs s u); auto; discriminate K.
      * intros u g c U. setf_cases; [discriminate|]. eapply (b_pv n s I); eauto.
      * intros u q U. setf_cases; [discriminate|]. eapply (b_ss n s I); eauto.
      * intros u c U. setf_cases; [discriminate|]. rewrite MY by auto. pose proof (b_ww n s I u c U) as W.
        pose proof (b_bd n s I). rewrite PE in W. intuition lia.
      * intros u g c U L G. exists t. split; [exact OT|]. rewrite setf_same. exact Logic.I.
    + set (s' := BState (count s + 1) (gen_id s) (owner s) (cur s) (prev s) (setf (bpcs s) t (BCheck (gen_id s)))
                        (arrivals s + 1) (setf (my s) t (arrivals s)) (cyc s) (gen s) (pgen s) (wgen s)).
      assert (PE' : pend s' = pend s) by (rewrite PE; unfold pend, s'; cbn [owner bpcs]; rewrite OT, setf_same; reflexivity).
      assert (MY : forall u, u <> t -> myc n s' u = myc n s u) by (intros u N; unfold myc, s'; cbn [my]; rewrite setf_other by exact N; reflexivity).
      assert (MYT : myc n s' t = cyc s) by (unfold myc, s'; cbn [my]; rewrite setf_same; exact DV).
      constructor; try rewrite PE'; cbn [s' count gen_id owner cur prev bpcs arrivals my cyc gen pgen wgen]; fold s'; try (solve [apply I]).
      * lia.
      * lia.
      * intros u U. setf_cases; auto. apply (b_own n s I); exact U.
      * intros u U. setf_cases; auto. apply (b_in n s I); exact U.
      * intros u g U. setf_cases.
        -- cbn [gid] in U. inversion U; subst g. rewrite MYT. split; [apply (b_gid n s I)|]. lia.
        -- rewrite MY by auto. apply (b_w n s I); exact U.
      * intro u. pose proof (b_s n s I u) as B. setf_cases; auto. rewrite MY by auto. exact B.
      * intros u r U. setf_cases; [discriminate|]. rewrite MY by auto. apply (b_u n s I); exact U.
      * intro u. setf_cases; auto. pose proof (UNI u E0) as K. destruct (bpcs s u); auto; discriminate K.
      * intros u g c U. setf_cases; [discriminate|]. eapply (b_pv n s I); eauto.
      * intros u q U. setf_cases; [discriminate|]. eapply (b_ss n s I); eauto.
      * intros u c U. setf_cases; [discriminate|]. rewrite MY by auto. apply (b_ww n s I); exact U.
      * intros u g c U L G. setf_cases; [discriminate|]. rewrite MY in * by auto.
        destruct (b_sl n s I u g c U L G) as (v & V1 & V2). exists v. split; [exact V1|].
        rewrite OT in V1. inversion V1; subst v. rewrite P in V2. destruct V2.
  - (* check *) specialize (OT eq_refl). inversion X; subst s'; clear X.
    assert (GT : gid (bpcs s t) = Some g) by (rewrite P; reflexivity).
    destruct (b_w n s I t g GT) as (W1 & W2 & W3).
    destruct (Z.eqb_spec (gen_id s) g) as [E|E]; apply b_move; auto; rewrite ?P; cbn; auto; try discriminate; try congruence; try tauto.
    + rewrite (b_gid n s I), W1 in E. auto.
    + intros r K. inversion K; subst r. split; [|right; auto]. destruct (Z.eq_dec (myc n s t) (cyc s)) as [Q|Q]; [|lia].
      exfalso. apply E. rewrite W1, Q. apply (b_gid n s I).
  - (* load cur *) specialize (OT eq_refl). specialize (UNI eq_refl). inversion X; subst s'; clear X.
    set (s' := BState (count s) (gen_id s) (owner s) (cur s) (prev s) (setf (bpcs s) t (BPrev g (cur s)))
                   (arrivals s) (my s) (cyc s) (gen s) (pgen s) (setf (wgen s) t (gen s))).
    assert (PE' : pend s' = pend s) by (unfold pend, s'; cbn [owner bpcs]; rewrite OT, setf_same, P; reflexivity).
    constructor; try rewrite PE'; cbn [s' count gen_id owner cur prev bpcs arrivals my cyc gen pgen wgen]; fold s'; try (solve [apply I]).
    + intros u U. setf_cases; auto. apply (b_own n s I); exact U.
    + intros u U. setf_cases; auto. apply (b_in n s I); exact U.
    + intros u g0 U. apply (b_w n s I). setf_cases; auto. rewrite P. exact U.
    + intro u. pose proof (b_s n s I u) as B. setf_cases; auto.
    + intros u r U. setf_cases; [discriminate|]. apply (b_u n s I); exact U.
    + intro u. pose proof (b_ld n s I u) as B. setf_cases; auto. rewrite P in B. exact B.
    + intros u g0 c U. setf_cases; [inversion U; subst; split; [apply (b_cur n s I)|reflexivity]|].
      pose proof (UNI u E) as K. rewrite U in K. discriminate K.
    + intros u q U. setf_cases; [discriminate|]. eapply (b_ss n s I); eauto.
    + intros u c U. setf_cases; [discriminate|]. apply (b_ww n s I); exact U.
    + intros u g0 c U L G. setf_cases; [discriminate|].
      destruct (b_sl n s I u g0 c U L G) as (v & V1 & V2).
      rewrite OT in V1. inversion V1; subst v. rewrite P in V2. destruct V2.
  - (* store prev *) specialize (OT eq_refl). specialize (UNI eq_refl). inversion X; subst s'; clear X.
    destruct (b_pv n s I t g c P) as (C1 & C2).
    pose proof (b_ld n s I t) as LD. rewrite P in LD.
    assert (GT : gid (bpcs s t) = Some g) by (rewrite P; reflexivity).
    destruct (b_w n s I t g GT) as (W1 & W2 & W3). pose proof (b_bd n s I) as BD.
    assert (PE : pend s = 0) by (unfold pend; rewrite OT, P; reflexivity).
    set (s' := BState (count s) (gen_id s) (owner s) (cur s) c (setf (bpcs s) t (BRelease g c))
                   (arrivals s) (my s) (cyc s) (gen s) (wgen s t) (wgen s)).
    assert (PE' : pend s' = 0) by (unfold pend, s'; cbn [owner bpcs]; rewrite OT, setf_same; reflexivity).
    constructor; try rewrite PE'; cbn [s' count gen_id owner cur prev bpcs arrivals my cyc gen pgen wgen]; fold s'; try (solve [apply I]).
    + rewrite C2; exact C1.
    + lia.
    + intros u U. setf_cases; auto. apply (b_own n s I); exact U.
    + intros u U. setf_cases; auto. apply (b_in n s I); exact U.
    + intros u g0 U. apply (b_w n s I). setf_cases; auto. rewrite P. exact U.
    + intro u. pose proof (b_s n s I u) as B. setf_cases; auto.
    + intros u r U. setf_cases; [discriminate|]. apply (b_u n s I); exact U.
    + intro u. pose proof (b_ld n s I u) as B. setf_cases; auto.
    + intros u g0 c0 U. setf_cases; [discriminate|]. eapply (b_pv n s I); eauto.
    + intros u q U. setf_cases; [discriminate|]. pose proof (UNI u E) as K. rewrite U in K. discriminate K.
    + intros u c0 U. setf_cases.
      * cbn [wword] in U. inversion U; subst c0. change (myc n s' t) with (myc n s t).
        split; [rewrite C2; exact C1|]. split; [lia|]. split; [lia|]. intros L G. exfalso.
        pose proof (wrap_same (cyc s) (myc n s t) (cyc s - myc n s t)) as Q.
        rewrite Q in G by (auto; lia). lia.
      * change (myc n s' u) with (myc n s u). pose proof (b_ww n s I u c0 U) as W. rewrite PE in W. intuition lia.
    + intros u g0 c0 U L G. setf_cases; [discriminate|].
      destruct (b_sl n s I u g0 c0 U L G) as (v & V1 & V2).
      rewrite OT in V1. inversion V1; subst v. rewrite P in V2. destruct V2.
  - (* release *) specialize (OT eq_refl). inversion X; subst s'; clear X.
    apply b_move; auto; rewrite ?P; cbn; auto; try discriminate; try congruence.
    intros u N. split; congruence.
  - (* futex *) inversion X; subst s'; clear X.
    assert (NO : owner s <> Some t) by (intro K; discriminate (IT K)).
    destruct (Z.eqb_spec (cur s) c) as [E|E]; apply b_move; auto; rewrite ?P; cbn; auto; try discriminate; try congruence; try tauto.
    intros g0 c0 K L G. inversion K; subst g0 c0.
    assert (WT : wword (bpcs s t) = Some c) by (rewrite P; reflexivity).
    destruct (b_ww n s I t c WT) as (W1 & W2 & W3 & W4). pose proof (b_bd n s I) as BD. specialize (W4 L G).
    assert (PB : 0 <= pend s <= 1).
    { unfold pend. destruct (owner s) as [u|]; [destruct (bpcs s u)|]; cbn; lia. }
    rewrite (b_cur n s I), W1 in E. pose proof (wrap_same _ _ (cyc s - myc n s t) E ltac:(lia) L).
    unfold pend in W4. destruct (owner s) as [u|]; [|lia]. exists u. split; [reflexivity|].
    destruct (bpcs s u); cbn [pends] in W4; try lia; reflexivity.
  - (* spurious *) inversion X; subst s'; clear X.
    assert (NO : owner s <> Some t) by (intro K; discriminate (IT K)).
    apply b_move; auto; rewrite ?P; cbn; auto; try discriminate; try congruence; try tauto.
  - (* relock *) destruct (owner s) eqn:O; [discriminate|]. inversion X; subst s'; clear X.
    apply b_move; auto; rewrite ?P; cbn; auto; try discriminate; try congruence.
    intros u N. split; congruence.
  - (* load prev *) specialize (OT eq_refl). inversion X; subst s'; clear X.
    apply b_move; auto; rewrite ?P; cbn; auto; try discriminate; try congruence; try tauto.
  - (* store cur *) specialize (OT eq_refl). specialize (UNI eq_refl). inversion X; subst s'; clear X.
    pose proof (b_ss n s I t p P) as SP. pose proof (b_bd n s I) as BD.
    assert (PE : pend s = 1) by (unfold pend; rewrite OT, P; reflexivity).
    set (s' := BState (count s) (gen_id s) (owner s) ((p + 1) mod 2 ^ 32) (prev s) (setf (bpcs s) t SWake)
                   (arrivals s) (my s) (cyc s) (pgen s + 1) (pgen s) (wgen s)).
    assert (PE' : pend s' = 0) by (unfold pend, s'; cbn [owner bpcs]; rewrite OT, setf_same; reflexivity).
    constructor; try rewrite PE'; cbn [s' count gen_id owner cur prev bpcs arrivals my cyc gen pgen wgen]; fold s'; try (solve [apply I]).
    + rewrite SP. unfold M. rewrite Z.add_mod_idemp_l by lia. reflexivity.
    + lia.
    + intros u U. setf_cases; auto. apply (b_own n s I); exact U.
    + intros u U. setf_cases; auto. apply (b_in n s I); exact U.
    + intros u g U. setf_cases; [discriminate|]. apply (b_w n s I); exact U.
    + intro u. pose proof (b_s n s I u) as B. setf_cases; auto. rewrite P in B. exact B.
    + intros u r U. setf_cases; [discriminate|]. apply (b_u n s I); exact U.
    + intro u. pose proof (b_ld n s I u) as B. setf_cases; auto.
    + intros u g c U. setf_cases; [discriminate|]. pose proof (UNI u E) as K. rewrite U in K. discriminate K.
    + intros u q U. setf_cases; [discriminate|]. eapply (b_ss n s I); eauto.
    + intros u c U. setf_cases; [discriminate|]. change (myc n s' u) with (myc n s u).
      pose proof (b_ww n s I u c U) as W. rewrite PE in W. intuition lia.
    + intros u g c U L G. exists t. split; [exact OT|]. rewrite setf_same. exact Logic.I.
  - (* wake *) specialize (OT eq_refl). specialize (UNI eq_refl). inversion X; subst s'; clear X.
    set (s' := BState (count s) (gen_id s) (owner s) (cur s) (prev s) (setf (bwake_all (bpcs s)) t (BUnlock SERIAL_THREAD))
                   (arrivals s) (my s) (cyc s) (gen s) (pgen s) (wgen s)).
    assert (PE' : pend s' = pend s) by (unfold pend, s'; cbn [owner bpcs]; rewrite OT, setf_same, P; reflexivity).
    assert (WA : forall u, bwake_all (bpcs s) u = bpcs s u \/ exists g c, bpcs s u = BSleep g c /\ bwake_all (bpcs s) u = BRelock g).
    { intro u. unfold bwake_all. destruct (bpcs s u); eauto. }
    constructor; try rewrite PE'; cbn [s' count gen_id owner cur prev bpcs arrivals my cyc gen pgen wgen]; fold s'; try (solve [apply I]).
    + intros u U. setf_cases; auto. destruct (WA u) as [K|(g & c & K1 & K2)]; [rewrite K in U|rewrite K2 in U; discriminate].
      apply (b_own n s I); exact U.
    + intros u U. setf_cases; auto. congruence.
    + intros u g U. setf_cases; [discriminate|]. apply (b_w n s I).
      destruct (WA u) as [K|(g0 & c & K1 & K2)]; [rewrite K in U; exact U|rewrite K2 in U; rewrite K1; exact U].
    + intro u. pose proof (b_s n s I u) as B. setf_cases; auto.
      destruct (WA u) as [K|(g0 & c & K1 & K2)]; [rewrite K; exact B|rewrite K2; auto].
    + intros u r U. setf_cases.
      * inversion U; subst r. pose proof (b_s n s I t) as B. rewrite P in B. change (myc n s' t) with (myc n s t). split; [lia|]. left. intuition.
      * destruct (WA u) as [K|(g0 & c & K1 & K2)]; [|congruence]. rewrite K in U. apply (b_u n s I u r U).
    + intro u. pose proof (b_ld n s I u) as B. setf_cases; auto.
      destruct (WA u) as [K|(g0 & c & K1 & K2)]; [rewrite K; exact B|rewrite K2; auto].
    + intros u g c U. setf_cases; [discriminate|]. destruct (WA u) as [K|(g0 & c0 & K1 & K2)]; [|congruence].
      rewrite K in U. eapply (b_pv n s I); eauto.
    + intros u q U. setf_cases; [discriminate|]. destruct (WA u) as [K|(g0 & c0 & K1 & K2)]; [|congruence].
      rewrite K in U. eapply (b_ss n s I); eauto.
    + intros u c U. setf_cases; [discriminate|]. destruct (WA u) as [K|(g0 & c0 & K1 & K2)]; [|rewrite K2 in U; discriminate].
      rewrite K in U. apply (b_ww n s I); exact U.
    + intros u g c U L G. setf_cases; [discriminate|]. destruct (WA u) as [K|(g0 & c0 & K1 & K2)]; [|congruence].
      rewrite K in U. unfold bwake_all in K. rewrite U in K. discriminate.
  - (* unlock *) specialize (OT eq_refl). inversion X; subst s'; clear X.
    apply b_move; auto; rewrite ?P; cbn; auto; try discriminate; try congruence.
    intros u N. split; congruence.
Qed.

Transparent Z.pow.
Lemma binv_reach n s : 1 <= n < 2 ^ 32 -> reachable (bar_exec n) bar_init s -> binv n s.
Proof.
  intro H. apply reachable_inv; [apply binv_init; lia|]. intros s0 l s1. apply binv_step. exact H.
Qed.

Lemma cyc_arr n s : binv n s -> arrivals s / n = cyc s.
Proof. intro I. rewrite (b_arr n s I). apply div_split. apply (b_cnt n s I). Qed.

Definition arrived (p : bpc) : bool := match p with BIdle _ | BLock | BBody => false | _ => true end.

(* The step that ends a call. *)
Lemma bar_safe n s t l s' r : 1 <= n < 2 ^ 32 -> reachable (bar_exec n) bar_init s ->
  (forall q, bpcs s t <> BIdle q) -> bar_exec n s l = Some s' -> bpcs s' t = BIdle r ->
  arrived (bpcs s t) = true /\ (my s t / n + 1) * n <= arrivals s /\
  ((r = SERIAL_THREAD /\ my s t mod n = n - 1) \/ (r = 0 /\ my s t mod n <> n - 1)).
Proof.
  intros HN R W X Q. pose proof (binv_reach n s HN R) as I. destruct l as (v & a).
  assert (K : bpcs s t = BUnlock r).
  { unfold bar_exec in X. cbn [fst snd] in X. destruct (Z.eq_dec t v) as [<-|N].
    - destruct (bpcs s t) as [q| | |g|g|g c|g c|g c|g c|g| |p| |q] eqn:P; destruct a; try discriminate;
        try (destruct (owner s); [discriminate|]); try (destruct (_ =? _) in X);
        inversion X; subst s'; cbn [bpcs] in Q; rewrite setf_same in Q; try discriminate.
      + inversion Q. reflexivity.
    - exfalso. destruct (bpcs s v) as [q| | |g|g|g c|g c|g c|g c|g| |p| |q] eqn:P; destruct a; try discriminate;
        try (destruct (owner s); [discriminate|]); try (destruct (_ =? _) in X);
        inversion X; subst s'; cbn [bpcs] in Q; rewrite setf_other in Q by exact N; try (eapply W; exact Q).
      unfold bwake_all in Q. destruct (bpcs s t) eqn:PT; try discriminate. eapply W; reflexivity. }
  destruct (b_u n s I t r K) as (U1 & U2). rewrite K. split; [reflexivity|]. split; [|exact U2].
  unfold myc in U1. rewrite (b_arr n s I). pose proof (b_cnt n s I).
  assert ((my s t / n + 1) * n <= cyc s * n) by (apply Z.mul_le_mono_nonneg_r; lia). lia.
Qed.

(* Arrival numbers are distinct. *)
Lemma bar_numbers n s : 1 <= n < 2 ^ 32 -> reachable (bar_exec n) bar_init s ->
  (forall t, arrived (bpcs s t) = true -> 0 <= my s t < arrivals s) /\
  (forall t u, arrived (bpcs s t) = true -> arrived (bpcs s u) = true -> my s t = my s u -> t = u).
Proof.
  intros HN R.
  apply (reachable_inv (bar_exec n) (fun s => 0 <= arrivals s /\
    (forall t, arrived (bpcs s t) = true -> 0 <= my s t < arrivals s) /\
    (forall t u, arrived (bpcs s t) = true -> arrived (bpcs s u) = true -> my s t = my s u -> t = u)) bar_init s) in R;
    [tauto| |].
  - split; [cbn; lia|]. split; intros; discriminate.
  - clear. intros s (t & a) s' (A0 & A & B) X.
    assert (MV : forall p f, (arrived p = true -> arrived (bpcs s t) = true) ->
      (forall u, arrived (f u) = arrived (bpcs s u)) ->
      (forall u, arrived (setf f t p u) = true -> 0 <= my s u < arrivals s) /\
      (forall u v, arrived (setf f t p u) = true -> arrived (setf f t p v) = true -> my s u = my s v -> u = v)).
    { intros p f H F.
      assert (K : forall u, arrived (setf f t p u) = true -> arrived (bpcs s u) = true).
      { intros u U. setf_cases; auto. rewrite <- F. exact U. }
      split; [intros u U; apply A, K, U|]. intros u v U V. apply B; auto. }
    assert (BD : forall p, arrived p = true -> arrived (bpcs s t) = false ->
      (forall u, arrived (setf (bpcs s) t p u) = true -> 0 <= setf (my s) t (arrivals s) u < arrivals s + 1) /\
      (forall u v, arrived (setf (bpcs s) t p u) = true -> arrived (setf (bpcs s) t p v) = true ->
        setf (my s) t (arrivals s) u = setf (my s) t (arrivals s) v -> u = v)).
    { intros p H F. split.
      - intros u U. setf_cases; [lia|]. pose proof (A u U). lia.
      - intros u v U V E0. setf_cases; auto.
        + pose proof (A v V). lia.
        + pose proof (A u U). lia. }
    unfold bar_exec in X. cbn [fst snd] in X.
    destruct (bpcs s t) as [q| | |g|g|g c|g c|g c|g c|g| |p| |q] eqn:P; destruct a; try discriminate;
        try (destruct (owner s); [discriminate|]); try (destruct (_ =? n) in X);
        inversion X; subst s'; clear X; cbn [bpcs my arrivals]; (split; [lia|]);
        try (apply BD; auto; fail); apply MV; auto; try discriminate.
    intro u. unfold bwake_all. destruct (bpcs s u); reflexivity.
Qed.

Lemma bar_sleeper n s t g c : 1 <= n < 2 ^ 32 -> reachable (bar_exec n) bar_init s ->
  bpcs s t = BSleep g c -> (my s t / n + 1) * n <= arrivals s -> arrivals s - my s t < (2 ^ 32 - 2) * n ->
  exists u, owner s = Some u /\ match bpcs s u with SLoad | SStore _ | SWake => True | _ => False end.
Proof.
  intros HN R P C L. pose proof (binv_reach n s HN R) as I.
  pose proof (b_arr n s I) as AR. pose proof (b_cnt n s I) as CN.
  pose proof (Z.div_mod (my s t) n ltac:(lia)). pose proof (Z.mod_pos_bound (my s t) n ltac:(lia)).
  apply (b_sl n s I t g c P); unfold myc, M; nia.
Qed.

Definition returns (n : Z) (s : bstate) (t : tid) : Prop :=
  exists ls s' r, run (bar_exec n) s ls = Some s' /\ bpcs s' t = BIdle r /\
    Forall (fun l => snd l = BStep) ls.

Lemma returns_step n s t u s1 : bar_exec n s (u, BStep) = Some s1 -> returns n s1 t -> returns n s t.
Proof.
  intros X (ls & s' & r & E & P & F). exists ((u, BStep) :: ls), s', r.
  split; [cbn [run]; rewrite X; exact E|]. split; [exact P|]. constructor; [reflexivity|exact F].
Qed.

Lemma returns_now n s t r : bpcs s t = BIdle r -> returns n s t.
Proof. intro P. exists [], s, r. split; [reflexivity|]. split; [exact P|constructor]. Qed.

Ltac bone P := eapply returns_step; [unfold bar_exec; cbn [fst snd]; rewrite P; reflexivity|].

Lemma unlock_returns n s t r : bpcs s t = BUnlock r -> returns n s t.
Proof. intro P. bone P. eapply returns_now. cbn [bpcs]. apply setf_same. Qed.

Lemma check_returns n s t g : gen_id s <> g -> bpcs s t = BCheck g -> returns n s t.
Proof.
  intros N P. bone P. apply Z.eqb_neq in N. rewrite N. eapply unlock_returns. cbn [bpcs]. apply setf_same.
Qed.

Lemma relock_returns n s t g : gen_id s <> g -> owner s = None -> bpcs s t = BRelock g -> returns n s t.
Proof.
  intros N O P. eapply returns_step; [unfold bar_exec; cbn [fst snd]; rewrite P, O; reflexivity|].
  eapply check_returns; [|cbn [bpcs]; apply setf_same]. exact N.
Qed.

Lemma gen_differs n s t g : binv n s -> myc n s t < cyc s -> cyc s - myc n s t < M ->
  gid (bpcs s t) = Some g -> gen_id s <> g.
Proof.
  intros I C L G E. destruct (b_w n s I t g G) as (W & _). rewrite (b_gid n s I), W in E.
  pose proof (wrap_same _ _ (cyc s - myc n s t) E ltac:(lia) L). lia.
Qed.

Lemma free_returns n s t : binv n s -> owner s = None -> arrived (bpcs s t) = true ->
  myc n s t < cyc s -> cyc s - myc n s t < M -> returns n s t.
Proof.
  intros I O A C L. pose proof (b_own n s I t) as OT. rewrite O in OT.
  destruct (bpcs s t) as [q| | |g|g|g c|g c|g c|g c|g| |p| |q] eqn:P;
    try discriminate A; try (discriminate OT; reflexivity).
  - assert (G : gid (bpcs s t) = Some g) by (rewrite P; reflexivity).
    pose proof (gen_differs n s t g I C L G) as N.
    assert (WT : wword (bpcs s t) = Some c) by (rewrite P; reflexivity).
    destruct (b_ww n s I t c WT) as (W1 & W2 & W3 & W4). specialize (W4 L C).
    assert (PE : pend s = 0) by (unfold pend; rewrite O; reflexivity). rewrite PE in *.
    assert (NC : cur s =? c = false).
    { apply Z.eqb_neq. intro E. rewrite (b_cur n s I), W1 in E. pose proof (b_bd n s I).
      pose proof (wrap_same _ _ (cyc s - myc n s t) E ltac:(lia) L). lia. }
    eapply returns_step; [unfold bar_exec; cbn [fst snd]; rewrite P, NC; reflexivity|].
    eapply relock_returns; [| |cbn [bpcs]; apply setf_same]; [exact N|exact O].
  - destruct (b_sl n s I t g c P L C) as (u & U & _). congruence.
  - eapply relock_returns; [|exact O|exact P].
    apply (gen_differs n s t g I C L). rewrite P. reflexivity.
Qed.

Definition rank (p : bpc) : nat :=
  match p with
  | BBody => 10 | BCheck _ => 9 | BLoad _ => 8 | BPrev _ _ => 7 | BRelease _ _ => 6
  | SLoad => 5 | SStore _ => 4 | SWake => 3 | BUnlock _ => 2 | _ => 1
  end%nat.

Lemma owner_step n s u t : binv n s -> owner s = Some u -> u <> t ->
  exists s', bar_exec n s (u, BStep) = Some s' /\
    (owner s' = None \/ (owner s' = Some u /\ (rank (bpcs s' u) < rank (bpcs s u))%nat)) /\
    my s' t = my s t /\ arrived (bpcs s' t) = arrived (bpcs s t) /\
    cyc s <= cyc s' <= cyc s + (if (10 <=? rank (bpcs s u))%nat then 1 else 0).
Proof.
  intros I O N. pose proof (b_in n s I u O) as IL.
  destruct (bpcs s u) as [q| | |g|g|g c|g c|g c|g c|g| |p| |q] eqn:P; try discriminate IL;
    unfold bar_exec; cbn [fst snd]; rewrite P.
  1: destruct ((count s + 1) mod 2 ^ 32 =? n).
  all: eexists; (split; [reflexivity|]); cbn [owner bpcs my cyc]; rewrite ?setf_same, ?(setf_other _ u _ t) by congruence; cbn [rank];
    rewrite ?O; (split; [first [left; reflexivity|right; split; [reflexivity|]; first [lia|destruct (gen_id s =? _); cbn; lia]]|]);
    (split; [reflexivity|]); (split; [try reflexivity|cbn; lia]).
  unfold bwake_all. destruct (bpcs s t); reflexivity.
Qed.

Lemma bar_progress_from n t : 1 <= n < 2 ^ 32 -> forall k s, binv n s -> arrived (bpcs s t) = true ->
  myc n s t < cyc s -> owner s <> Some t ->
  (match owner s with Some u => (rank (bpcs s u) < k)%nat /\ cyc s + (if (10 <=? rank (bpcs s u))%nat then 1 else 0) - myc n s t < M
                    | None => cyc s - myc n s t < M end) ->
  returns n s t.
Proof.
  intro HN. induction k as [|k IH]; intros s I A C NO H.
  - destruct (owner s) eqn:O; [lia|]. eapply free_returns; eauto.
  - destruct (owner s) as [u|] eqn:O; [|eapply free_returns; eauto].
    assert (N : u <> t) by congruence.
    destruct (owner_step n s u t I O N) as (s' & X & D & MY & AR & CY).
    assert (MC : myc n s' t = myc n s t) by (unfold myc; rewrite MY; reflexivity).
    eapply returns_step; [exact X|]. apply IH.
    + eapply binv_step; [|exact I|exact X]. exact HN.
    + congruence.
    + lia.
    + destruct D as [D|(D & _)]; rewrite D; congruence.
    + destruct D as [D|(D & RK)]; rewrite D.
      * rewrite MC. lia.
      * split; [lia|]. rewrite MC. destruct (Nat.leb_spec 10 (rank (bpcs s' u))) as [K|K];
          destruct (Nat.leb_spec 10 (rank (bpcs s u))) as [K'|K']; try lia.
        assert (rank (bpcs s u) <= 10)%nat by (destruct (bpcs s u); cbn; lia). lia.
Qed.

Lemma bar_returns n s t : 1 <= n < 2 ^ 32 -> reachable (bar_exec n) bar_init s ->
  arrived (bpcs s t) = true -> (my s t / n + 1) * n <= arrivals s ->
  arrivals s - my s t < (2 ^ 32 - 2) * n -> returns n s t.
Proof.
  intros HN R A C L. pose proof (binv_reach n s HN R) as I.
  pose proof (b_arr n s I) as AR. pose proof (b_cnt n s I) as CN.
  assert (C1 : myc n s t < cyc s).
  { unfold myc. pose proof (Z.div_mod (my s t) n ltac:(lia)). pose proof (Z.mod_pos_bound (my s t) n ltac:(lia)). nia. }
  assert (L1 : cyc s + 1 - myc n s t < M).
  { unfold myc, M. pose proof (Z.div_mod (my s t) n ltac:(lia)). pose proof (Z.mod_pos_bound (my s t) n ltac:(lia)). nia. }
  destruct (owner s) as [u|] eqn:O; [|eapply free_returns; eauto; lia].
  destruct (Z.eq_dec u t) as [->|N].
  - pose proof (b_in n s I t O) as IL. pose proof (b_ld n s I t) as LD.
    assert (GD : forall g, gid (bpcs s t) = Some g -> gen_id s <> g).
    { intros g G. apply (gen_differs n s t g I C1); [lia|exact G]. }
    destruct (bpcs s t) as [q| | |g|g|g c|g c|g c|g c|g| |p| |q] eqn:P; try discriminate IL; try discriminate A.
    + eapply check_returns; [apply GD; reflexivity|exact P].
    + pose proof (wrap_same (cyc s) (myc n s t) (cyc s - myc n s t)). lia.
    + pose proof (wrap_same (cyc s) (myc n s t) (cyc s - myc n s t)). lia.
    + assert (X : exists s1, bar_exec n s (t, BStep) = Some s1 /\ owner s1 = None /\ arrived (bpcs s1 t) = true /\ cyc s1 = cyc s /\ myc n s1 t = myc n s t).
      { eexists. unfold bar_exec. cbn [fst snd]. rewrite P. split; [reflexivity|]. cbn [owner bpcs cyc]. rewrite setf_same.
        split; [reflexivity|]. split; [reflexivity|]. split; reflexivity. }
      destruct X as (s1 & X & O1 & A1 & CY & MY). eapply returns_step; [exact X|].
      apply free_returns; auto; try (rewrite CY, MY; lia). eapply binv_step; [exact HN|exact I|exact X].
    + bone P. eapply returns_step; [unfold bar_exec; cbn [fst snd bpcs]; rewrite setf_same; reflexivity|].
      eapply returns_step; [unfold bar_exec; cbn [fst snd bpcs]; rewrite setf_same; reflexivity|].
      eapply unlock_returns. cbn [bpcs]. apply setf_same.
    + bone P. eapply returns_step; [unfold bar_exec; cbn [fst snd bpcs]; rewrite setf_same; reflexivity|].
      eapply unlock_returns. cbn [bpcs]. apply setf_same.
    + bone P. eapply unlock_returns. cbn [bpcs]. apply setf_same.
    + eapply unlock_returns; exact P.
  - eapply (bar_progress_from n t HN (S (rank (bpcs s u))) s I A C1); [congruence|]. rewrite O. split; [lia|].
    destruct (10 <=? rank (bpcs s u))%nat; lia.
Qed.
