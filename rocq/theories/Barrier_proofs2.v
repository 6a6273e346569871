(* With at most n participating threads nobody lags behind by more than a cycle. *)
From Coq Require Import ZArith List Bool Lia.
From Verif Require Import Conc Barrier_model Barrier_proofs.
Import ListNotations.
Open Scope Z_scope.

Definition among (L : list tid) (n : Z) (s : bstate) (l : tid * bact) : option bstate :=
  if in_dec Z.eq_dec (fst l) L then bar_exec n s l else None.

Lemma among_reach L n s : reachable (among L n) bar_init s -> reachable (bar_exec n) bar_init s.
Proof.
  intros (ls & E). exists ls. revert E. generalize bar_init.
  induction ls as [|l r IH]; intros s0 E; cbn [run] in *; [exact E|].
  unfold among in E. destruct (in_dec Z.eq_dec (fst l) L); [|discriminate].
  destruct (bar_exec n s0 l); [|discriminate]. apply IH. exact E.
Qed.

Record pinv (L : list tid) (n : Z) (s : bstate) : Prop := PInv {
  p_in : forall t q, bpcs s t = q -> match q with BIdle _ => True | _ => In t L end;
  p_all : forall k, cyc s * n <= k < arrivals s -> exists t, arrived (bpcs s t) = true /\ my s t = k;
  p_lag : forall t, arrived (bpcs s t) = true -> cyc s - myc n s t <= 1 }.

Lemma pinv_init L n : pinv L n bar_init.
Proof. constructor; cbn; intros; subst; auto; try discriminate. lia. Qed.

(* k distinct threads with given numbers *)
Lemma enough (s : bstate) (a : Z) : forall m : nat,
  (forall k, a <= k < a + Z.of_nat m -> exists t, arrived (bpcs s t) = true /\ my s t = k) ->
  exists l : list tid, length l = m /\ NoDup l /\
    forall t, In t l -> arrived (bpcs s t) = true /\ a <= my s t < a + Z.of_nat m.
Proof.
  induction m as [|m IH]; intro H.
  - exists []. split; [reflexivity|]. split; [constructor|intros t []].
  - destruct IH as (l & A & B & C); [intros k K; apply H; lia|].
    destruct (H (a + Z.of_nat m) ltac:(lia)) as (t & T1 & T2).
    exists (t :: l). split; [cbn; lia|]. split.
    + constructor; auto. intro K. destruct (C t K). lia.
    + intros u [<-|U]; [split; [exact T1|lia]|]. destruct (C u U). split; [assumption|lia].
Qed.

Lemma pinv_step L n s l s' : 1 <= n < 2 ^ 32 -> NoDup L -> Z.of_nat (length L) <= n ->
  binv n s -> pinv L n s -> among L n s l = Some s' -> pinv L n s'.
Proof.
  intros HN ND LL I PI X0. destruct l as (t & a). unfold among in X0. cbn [fst] in X0.
  destruct (in_dec Z.eq_dec t L) as [IT|]; [|discriminate]. rename X0 into X.
  pose proof (p_in L n s PI) as PIN. pose proof (p_all L n s PI) as PALL. pose proof (p_lag L n s PI) as PLAG.
  pose proof (b_arr n s I) as AR. pose proof (b_cnt n s I) as CN.
  assert (MV : forall p f c g o cu pr ge pg wg, (arrived p = arrived (bpcs s t) \/
       (arrived p = false /\ arrived (bpcs s t) = true /\ my s t < cyc s * n)) ->
      (forall u q, f u = q -> match q with BIdle _ => True | _ => In u L end) ->
      (forall u, arrived (f u) = arrived (bpcs s u)) ->
      pinv L n (BState c g o cu pr (setf f t p) (arrivals s) (my s) (cyc s) ge pg wg)).
  { intros p f c g o cu pr ge pg wg HP HF HA.
    constructor; cbn [bpcs my arrivals cyc].
    - intros u q E. destruct (Z.eq_dec u t) as [K|K].
      + subst u. destruct q; auto.
      + rewrite setf_other in E by exact K. apply HF. exact E.
    - intros k K. destruct (PALL k K) as (u & U1 & U2). exists u. split; [|exact U2]. setf_cases; [|rewrite HA; exact U1].
      destruct HP as [HP|(_ & _ & HP)]; [congruence|lia].
    - intros u U. change (cyc s - myc n s u <= 1). apply PLAG. setf_cases; [destruct HP as [HP|(HP & _)]; congruence|rewrite <- HA; exact U]. }
  unfold bar_exec in X. cbn [fst snd] in X.
  destruct (bpcs s t) as [q| | |g|g|g c|g c|g c|g c|g| |p| |q] eqn:P; destruct a; try discriminate;
    try (destruct (owner s); [discriminate|]);
    try (inversion X; subst s'; clear X; apply MV; auto; fail).
  - (* body *)
    rewrite Z.mod_small in X by lia.
    assert (DM := div_split (cyc s) (count s) n CN). rewrite <- AR in DM. destruct DM as (DV & MD).
    destruct (Z.eqb_spec (count s + 1) n) as [E|E]; inversion X; subst s'; clear X.
    + assert (ALL : forall u, arrived (bpcs s u) = true -> myc n s u = cyc s).
      { intros u U. destruct (Z.eq_dec (myc n s u) (cyc s)) as [|NE]; auto. exfalso.
        destruct (enough s (cyc s * n) (Z.to_nat (count s))) as (l & A & B & C).
        { intros k K. apply PALL. rewrite Z2Nat.id in K by lia. lia. }
        rewrite Z2Nat.id in C by lia.
        assert (UL : ~ In u l).
        { intro K. destruct (C u K) as (_ & K2). apply NE. unfold myc. destruct (div_split (cyc s) (my s u - cyc s * n) n) as (Q & _); [lia|].
          rewrite <- Q. f_equal. lia. }
        assert (TL : ~ In t (u :: l)).
        { intros [K|K]; [subst u; rewrite P in U; discriminate|]. destruct (C t K) as (K1 & _). rewrite P in K1. discriminate. }
        assert (LE : (length (t :: u :: l) <= length L)%nat).
        { apply NoDup_incl_length.
          - constructor; [exact TL|]. constructor; auto.
          - intros v [<-|[<-|V]]; [exact IT| |].
            + pose proof (PIN u _ eq_refl) as K. destruct (bpcs s u); auto; discriminate U.
            + destruct (C v V) as (V1 & _). pose proof (PIN v _ eq_refl) as K. destruct (bpcs s v); auto; discriminate V1. }
        cbn [length] in LE. lia. }
      constructor; cbn [bpcs my arrivals cyc].
      * intros u q K. destruct (Z.eq_dec u t) as [->|N]; [destruct q; auto|]. rewrite setf_other in K by exact N. apply PIN; exact K.
      * intros k K. lia.
      * intros u U. unfold myc in *. cbn [my cyc]. setf_cases; [rewrite DV; lia|]. rewrite (ALL u U). lia.
    + constructor; cbn [bpcs my arrivals cyc].
      * intros u q K. destruct (Z.eq_dec u t) as [->|N]; [destruct q; auto|]. rewrite setf_other in K by exact N. apply PIN; exact K.
      * intros k K. destruct (Z.eq_dec k (arrivals s)) as [->|NE].
        -- exists t. rewrite !setf_same. split; reflexivity.
        -- destruct (PALL k ltac:(lia)) as (u & U1 & U2). exists u.
           assert (u <> t) by (intro; subst u; rewrite P in U1; discriminate). rewrite !setf_other by assumption. auto.
      * intros u U. unfold myc in *. cbn [my cyc]. setf_cases; [rewrite DV; lia|]. apply PLAG; exact U.
  - destruct (gen_id s =? g); inversion X; subst s'; clear X; apply MV; auto.
  - inversion X; subst s'; clear X. destruct (cur s =? c); apply MV; auto.
  - (* wake *) inversion X; subst s'; clear X. apply MV; auto.
    + intros u q K. pose proof (PIN u _ eq_refl) as Q. unfold bwake_all in K. destruct (bpcs s u); subst q; auto.
    + intro u. unfold bwake_all. destruct (bpcs s u); reflexivity.
  - (* unlock *) inversion X; subst s'; clear X. apply MV; auto. right. split; [reflexivity|]. split; [reflexivity|].
    destruct (b_u n s I t q P) as (U & _). unfold myc in U.
    pose proof (Z.div_mod (my s t) n ltac:(lia)). pose proof (Z.mod_pos_bound (my s t) n ltac:(lia)). nia.
Qed.

Lemma pinv_reach L n s : 1 <= n < 2 ^ 32 -> NoDup L -> Z.of_nat (length L) <= n ->
  reachable (among L n) bar_init s -> pinv L n s.
Proof.
  intros HN ND LL R.
  apply (reachable_inv (among L n) (fun s => binv n s /\ pinv L n s) bar_init s); [| |exact R].
  - split; [apply binv_init; lia|apply pinv_init].
  - intros s0 l s1 (A & B) X. split; [|eapply pinv_step; eauto].
    unfold among in X. destruct (in_dec Z.eq_dec (fst l) L); [|discriminate]. eapply binv_step; eauto.
Qed.

Lemma bar_returns_among L n s t : 1 <= n < 2 ^ 32 -> NoDup L -> Z.of_nat (length L) <= n ->
  reachable (among L n) bar_init s ->
  arrived (bpcs s t) = true -> (my s t / n + 1) * n <= arrivals s -> returns n s t.
Proof.
  intros HN ND LL R A C. pose proof (pinv_reach L n s HN ND LL R) as PI.
  pose proof (p_lag L n s PI t A) as LG. pose proof (binv_reach n s HN (among_reach L n s R)) as I.
  pose proof (b_arr n s I) as AR. pose proof (b_cnt n s I) as CN.
  apply bar_returns; auto; [eapply among_reach; eauto|].
  unfold myc in LG. pose proof (Z.div_mod (my s t) n ltac:(lia)). pose proof (Z.mod_pos_bound (my s t) n ltac:(lia)). nia.
Qed.
