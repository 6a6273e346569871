(* Proofs for C40 and C41. *)
From Coq Require Import ZArith List Bool Lia.
From Verif Require Import Base Istream_model Istream_spec.
Import ListNotations.
Open Scope Z_scope.

Definition pend (s : istream) : list Z := firstn (rsize s - rpos s) (skipn (rpos s) (arr s)).
Definition inv (s : istream) : Prop :=
  (rpos s <= rsize s)%nat /\ (rsize s <= length (arr s))%nat /\ rb s <> Some [].

Lemma pend_len s : inv s -> length (pend s) = (rsize s - rpos s)%nat.
Proof. intros (A & B & _). unfold pend. rewrite firstn_length, skipn_length. lia. Qed.

Lemma unread_eq s : unread s = unget s ++ pend s ++ inp s.
Proof. reflexivity. Qed.

Lemma lor_bit f b : 0 <= b -> Z.land (Z.lor f (2 ^ b)) (2 ^ b) <> 0.
Proof.
  intros Hb E. assert (X : Z.testbit (Z.land (Z.lor f (2 ^ b)) (2 ^ b)) b = true).
  { rewrite Z.land_spec, Z.lor_spec, Z.pow2_bits_true by lia. rewrite orb_true_r. reflexivity. }
  rewrite E, Z.bits_0 in X. discriminate.
Qed.
Lemma lor_eof f : Z.land (Z.lor f F_EOF) F_EOF <> 0.
Proof. apply (lor_bit f 4). lia. Qed.
Lemma lor_err f : Z.land (Z.lor f F_ERR) F_ERR <> 0.
Proof. apply (lor_bit f 5). lia. Qed.

Lemma init_inv s : (rpos s <= rsize s)%nat -> inv s ->
  inv (init_buf s) /\ unread (init_buf s) = unread s /\ pend (init_buf s) = pend s /\
  unget (init_buf s) = unget s /\ reads (init_buf s) = reads s /\ inp (init_buf s) = inp s /\
  flags (init_buf s) = flags s /\ arr (init_buf s) <> [] /\ rsize (init_buf s) = rsize s.
Proof.
  intros _ I. pose proof I as (A & B & C). destruct s as [i r [a|] p z u f].
  - cbn [init_buf rb]. repeat split; auto. cbn [arr rb] in *. intros ->. auto.
  - unfold init_buf. cbn [rb]. unfold inv, unread, pend, arr in *.
    cbn [rb rpos rsize inp unget reads flags length] in *. assert (z = 0%nat) by lia. assert (p = 0%nat) by lia. subst.
    repeat split; auto; try lia; try discriminate.
Qed.

Definition hit_end0 (orc : nat -> rres) (s s' : istream) : Prop :=
  Z.land (flags s') F_EOF <> 0 /\ pend s' = [] /\
  (inp s' = [] \/ exists j, (reads s <= j < reads s')%nat /\ orc j = RN 0).
Lemma hit_end_of orc s s' : hit_end0 orc s s' -> unget s' = [] -> hit_end orc s s'.
Proof. intros (F & P & X) U. split; [exact F|]. split; [rewrite unread_eq, U, P; reflexivity|exact X]. Qed.

Lemma fill_buf_spec orc s : inv s -> exists s' r, fill_buf orc s = Ok (s', r) /\ inv s' /\
  unget s' = unget s /\ (reads s <= reads s')%nat /\ pend s' ++ inp s' = pend s ++ inp s /\
  match r with
  | None => hit_error orc s s' /\ pend s = []
  | Some b => b = pend s' /\ (b = [] -> hit_end0 orc s s' /\ inp s' = inp s /\ pend s = []) /\ (b <> [] -> flags s' = flags s)
  end.
Proof.
  intro I. pose proof I as (A & B & C). destruct (init_inv s A I) as (I1 & U1 & P1 & G1 & R1 & N1 & F1 & AR & _).
  unfold fill_buf. set (s1 := init_buf s) in *. pose proof I1 as (A1 & B1 & C1).
  destruct (Nat.eqb_spec (rpos s1) (rsize s1)) as [E|E].
  - assert (PE : pend s = []). { rewrite <- P1. unfold pend. rewrite E, Nat.sub_diag. reflexivity. }
    unfold refill. destruct (orc (reads s1)) as [|n] eqn:O.
    + eexists _, None. split; [reflexivity|]. split; [exact I1|]. cbn [unget reads]. repeat split; auto.
      * lia.
      * change (pend s1 ++ inp s1 = pend s ++ inp s). rewrite P1, N1. reflexivity.
      * cbn [flags]. apply lor_err.
      * exists (reads s1). cbn [reads]. split; [lia|exact O].
    + set (k := Nat.min n (Nat.min (length (arr s1)) (length (inp s1)))).
      destruct (Nat.eqb_spec k 0) as [K|K].
      * cbn [rpos rsize]. change (0 <=? 0)%nat with true. cbn [Nat.leb andb]. eexists _, (Some _). split; [reflexivity|].
        split; [|cbn [unget reads inp]; repeat split; auto; try lia].
        -- unfold inv. cbn [rpos rsize rb]. repeat split; try lia. exact C1.
        -- unfold pend at 1. cbn [rsize rpos firstn Nat.sub]. rewrite PE, N1. reflexivity.
        -- cbn [flags]. apply lor_eof.
        -- cbn [inp reads]. destruct (Nat.eq_dec n 0) as [->|NZ].
           ++ right. exists (reads s1). split; [lia|exact O].
           ++ left. destruct (inp s1) eqn:EI; [reflexivity|]. exfalso. destruct (arr s1) eqn:EA; [apply AR; reflexivity|].
              unfold k in K. cbn [length] in K. lia.
        -- intro H. exfalso. apply H. reflexivity.
      * cbn [rpos rsize arr rb]. change (0 <=? k)%nat with true.
        assert (KL : (k <= length (inp s1))%nat) by (unfold k; lia).
        assert (KA : (k <= length (arr s1))%nat) by (unfold k; lia).
        assert (KK : length (firstn k (inp s1)) = k) by (rewrite firstn_length; lia).
        assert (LA : length (firstn k (inp s1) ++ skipn k (arr s1)) = length (arr s1)).
        { rewrite app_length, KK, skipn_length. lia. }
        destruct (Nat.leb_spec k (length (firstn k (inp s1) ++ skipn k (arr s1)))) as [_|X]; [|rewrite LA in X; lia].
        cbn [Nat.leb andb skipn]. eexists _, (Some _). split; [reflexivity|].
        assert (PP : firstn (k - 0) (firstn k (inp s1) ++ skipn k (arr s1)) = firstn k (inp s1)).
        { rewrite Nat.sub_0_r, firstn_app, KK, Nat.sub_diag. cbn [firstn]. rewrite app_nil_r. apply firstn_all2. lia. }
        split; [|cbn [unget reads inp]; repeat split; auto; try lia].
        -- unfold inv. cbn [rpos rsize arr rb]. repeat split; try lia.
           intro X. injection X as X. apply (f_equal (@length Z)) in X. rewrite LA in X. cbn [length] in X. lia.
        -- unfold pend at 1. cbn [rsize rpos arr rb skipn]. rewrite PP, PE, firstn_skipn, N1. reflexivity.
        -- cbn [flags]. exfalso. rewrite PP in H. apply (f_equal (@length Z)) in H. rewrite KK in H. cbn in H. lia.
        -- exfalso. rewrite PP in H. apply (f_equal (@length Z)) in H. rewrite KK in H. cbn in H. lia.
        -- exfalso. rewrite PP in H. apply (f_equal (@length Z)) in H. rewrite KK in H. cbn in H. lia.
  - destruct (Nat.leb_spec (rpos s1) (rsize s1)); [|lia]. destruct (Nat.leb_spec (rsize s1) (length (arr s1))); [|lia].
    cbn [andb]. eexists _, (Some _). split; [reflexivity|]. split; [exact I1|]. repeat split; auto; try lia.
    + rewrite P1, N1. reflexivity.
    + exfalso. fold (pend s1) in *. pose proof (pend_len s1 I1) as L. change (pend s1 = []) in H1. rewrite H1 in L. cbn in L. lia.
    + exfalso. change (pend s1 = []) in H1. pose proof (pend_len s1 I1) as L. rewrite H1 in L. cbn in L. lia.
    + change (pend s1 = []) in H1. rewrite <- P1. exact H1.
Qed.

Lemma skipn_plus {A} a b (l : list A) : skipn a (skipn b l) = skipn (b + a) l.
Proof. revert l; induction b as [|b IH]; intro l; [reflexivity|]. destruct l; [rewrite !skipn_nil; reflexivity|]. cbn. apply IH. Qed.

Lemma consume_spec s k : inv s -> (k <= length (pend s))%nat ->
  inv (consume s k) /\ pend s = firstn k (pend s) ++ pend (consume s k) /\
  inp (consume s k) = inp s /\ unget (consume s k) = unget s /\ reads (consume s k) = reads s /\ flags (consume s k) = flags s.
Proof.
  intros I L. pose proof I as (A & B & C). rewrite pend_len in L by assumption.
  unfold consume. rewrite Nat.min_l by lia. repeat split; auto; try (unfold inv, pend in *; cbn [rpos rsize arr rb] in *; lia).
  unfold pend at 3. cbn [rpos rsize arr rb]. fold (arr s).
  rewrite <- (firstn_skipn k (pend s)) at 1. f_equal. unfold pend.
  rewrite skipn_firstn_comm, skipn_plus. f_equal. lia.
Qed.

Lemma hit_error_l orc s s1 s' : (reads s <= reads s1)%nat -> hit_error orc s1 s' -> hit_error orc s s'.
Proof. intros L (F & j & J & E). split; [exact F|]. exists j. split; [lia|exact E]. Qed.
Lemma hit_end_l orc s s1 s' : (reads s <= reads s1)%nat -> hit_end orc s1 s' -> hit_end orc s s'.
Proof. intros L (F & P & [N|(j & J & E)]); split; auto. split; auto. right. exists j. split; [lia|exact E]. Qed.

Lemma hit_end0_l orc s s1 s' : (reads s <= reads s1)%nat -> hit_end0 orc s1 s' -> hit_end0 orc s s'.
Proof. intros L (F & P & [N|(j & J & E)]); split; auto. split; auto. right. exists j. split; [lia|exact E]. Qed.

Lemma f_read_spec orc s n : inv s -> (0 < n)%nat -> exists s' r, f_read orc s n = Ok (s', r) /\ inv s' /\ (reads s <= reads s')%nat /\
  match r with
  | None => unread s' = unread s /\ hit_error orc s s'
  | Some d => unread s = d ++ unread s' /\ (length d <= n)%nat /\ (d = [] -> hit_end orc s s')
  end.
Proof.
  intros I N. unfold f_read. destruct (Nat.eqb_spec (Nat.min n (length (unget s))) 0) as [E|E].
  - assert (UG : unget s = []) by (destruct (unget s); [reflexivity|cbn in E; lia]).
    destruct (fill_buf_spec orc s I) as (s1 & r & EF & I1 & U1 & R1 & C1 & M). rewrite EF. cbn [bind].
    destruct r as [b|].
    + destruct M as (-> & M & _). set (k := Nat.min (length (pend s1)) n).
      destruct (consume_spec s1 k I1) as (I2 & P2 & N2 & G2 & R2 & F2); [unfold k; lia|].
      eexists _, (Some _). split; [reflexivity|]. split; [exact I2|]. split; [lia|].
      rewrite !unread_eq, G2, N2, U1, UG. cbn [app]. split; [|split].
      * rewrite <- C1, P2 at 1. rewrite app_assoc. reflexivity.
      * rewrite firstn_length. unfold k. lia.
      * intro H. assert (pend s1 = []).
        { destruct (pend s1) eqn:EP; [reflexivity|]. unfold k in H. cbn [length] in H. destruct n; [lia|]. cbn in H. discriminate. }
        destruct (M H0) as ((F & PX & X) & _). apply hit_end_of; [|congruence]. split; [rewrite F2; exact F|]. rewrite N2, R2.
        rewrite H0 in P2. symmetry in P2. apply app_eq_nil in P2. split; [apply P2|exact X].
    + destruct M as (M & PE). eexists _, None. split; [reflexivity|]. split; [exact I1|]. split; [lia|]. split; [|exact M].
      rewrite !unread_eq, U1. f_equal. exact C1.
  - set (u := Nat.min n (length (unget s))) in *. eexists _, (Some _). split; [reflexivity|]. split; [exact I|]. split; [reflexivity|].
    split; [|split].
    + rewrite !unread_eq. cbn [unget]. change (pend (set_unget s (skipn u (unget s)))) with (pend s).
      change (inp (set_unget s (skipn u (unget s)))) with (inp s). cbn [set_unget unget].
      rewrite (app_assoc (firstn u _)), firstn_skipn. reflexivity.
    + rewrite firstn_length. unfold u. lia.
    + intro H. apply (f_equal (@length Z)) in H. rewrite firstn_length in H. cbn in H. unfold u in *. lia.
Qed.

Lemma fread_loop_spec orc total : forall fuel s got, inv s -> (total - length got < fuel)%nat -> (length got <= total)%nat ->
  exists s' d, fread_loop fuel orc s total got = Ok (s', got ++ d) /\ inv s' /\ (reads s <= reads s')%nat /\
    unread s = d ++ unread s' /\ (length (got ++ d) <= total)%nat /\
    ((length (got ++ d) < total)%nat -> hit_error orc s s' \/ hit_end orc s s').
Proof.
  induction fuel as [|f IH]; intros s got I L G; [lia|]. cbn [fread_loop].
  destruct (Nat.ltb_spec (length got) total) as [H|H].
  - destruct (f_read_spec orc s (total - length got) I) as (s1 & r & E & I1 & R1 & M); [lia|]. rewrite E. cbn [bind].
    destruct r as [[|x d]|].
    + destruct M as (U & _ & HE). exists s1, []. rewrite app_nil_r. split; [reflexivity|]. split; [exact I1|]. split; [exact R1|].
      split; [exact U|]. split; [exact G|]. intros _. right. apply HE. reflexivity.
    + destruct M as (U & LD & _). destruct (IH s1 (got ++ x :: d) I1) as (s2 & d2 & E2 & I2 & R2 & U2 & L2 & S2).
      { rewrite app_length. cbn [length]. lia. } { rewrite app_length. lia. }
      exists s2, ((x :: d) ++ d2). rewrite <- app_assoc in *. split; [exact E2|]. split; [exact I2|]. split; [lia|].
      split; [rewrite U, U2, app_assoc; reflexivity|]. split; [exact L2|]. intro H2.
      destruct (S2 H2) as [X|X]; [left; eapply hit_error_l|right; eapply hit_end_l]; eassumption.
    + destruct M as (U & HE). exists s1, []. rewrite app_nil_r. split; [reflexivity|]. split; [exact I1|]. split; [exact R1|].
      split; [symmetry; exact U|]. split; [exact G|]. intros _. left. exact HE.
  - exists s, []. rewrite app_nil_r. split; [reflexivity|]. split; [exact I|]. split; [lia|]. split; [reflexivity|]. split; [lia|]. intro; lia.
Qed.

Lemma find_some c l i : find c l = Some i -> (i < length l)%nat /\ nth i l 0 = c /\ ~ In c (firstn i l).
Proof.
  revert i; induction l as [|x l IH]; intros i H; [discriminate|]. cbn [find] in H.
  destruct (Z.eqb_spec x c) as [->|N].
  - inversion H; subst. cbn. repeat split; auto; lia.
  - destruct (find c l) as [j|]; [|discriminate]. inversion H; subst. destruct (IH j eq_refl) as (A & B & D).
    cbn [length nth firstn]. repeat split; auto; [lia|]. intros [X|X]; auto.
Qed.
Lemma find_none c l : find c l = None -> ~ In c l.
Proof.
  induction l as [|x l IH]; intros H []; cbn [find] in H.
  - subst. rewrite Z.eqb_refl in H. discriminate.
  - destruct (Z.eqb_spec x c); [discriminate|]. destruct (find c l); [discriminate|]. apply IH; auto.
Qed.
Lemma firstn_S_nth l i : (i < length l)%nat -> firstn (S i) l = firstn i l ++ [nth i l 0].
Proof.
  revert i; induction l as [|x l IH]; intros i H; [cbn in H; lia|]. destruct i; [reflexivity|].
  cbn [length] in H. rewrite !(firstn_cons _ x). cbn [nth app]. rewrite IH by lia. reflexivity.
Qed.

Lemma cut_app c a b : ~ In c a -> cut_at c b -> cut_at c (a ++ b).
Proof.
  intros A B. destruct b as [|x b].
  - rewrite app_nil_r. unfold cut_at. intro H. apply A. clear -H. induction a as [|y a IH]; [exact H|].
    cbn [removelast] in H. destruct a; [destruct H|]. destruct H as [H|H]; [left; exact H|right; auto].
  - unfold cut_at. rewrite removelast_app by discriminate. intro H. apply in_app_or in H. destruct H; auto.
Qed.
Lemma cut_no c a : ~ In c a -> cut_at c a.
Proof. intro H. rewrite <- (app_nil_r a). apply cut_app; auto. unfold cut_at. cbn. auto. Qed.
Lemma cut_snoc c a x : ~ In c a -> cut_at c (a ++ [x]).
Proof. intro H. apply cut_app; auto. unfold cut_at. cbn. auto. Qed.

Lemma read_until_spec orc delim : forall fuel s buf, inv s -> (length (pend s ++ inp s) < fuel)%nat ->
  exists s' r, read_until fuel orc s delim buf = Ok (s', r) /\ inv s' /\ unget s' = unget s /\ (reads s <= reads s')%nat /\
    match r with
    | None => hit_error orc s s'
    | Some b => exists d, b = buf ++ d /\ pend s ++ inp s = d ++ pend s' ++ inp s' /\ cut_at delim d /\
                  (ends_with delim d \/ (hit_end0 orc s s' /\ ~ In delim d)) /\ (d = [] -> hit_end0 orc s s')
    end.
Proof.
  induction fuel as [|f IH]; intros s buf I L; [lia|]. cbn [read_until].
  destruct (fill_buf_spec orc s I) as (s1 & r & EF & I1 & U1 & R1 & C1 & M). rewrite EF. cbn [bind].
  destruct r as [av|].
  - destruct M as (-> & M & _). destruct (find delim (pend s1)) as [i|] eqn:FI.
    + destruct (find_some _ _ _ FI) as (LT & NTH & NI).
      destruct (consume_spec s1 (S i) I1) as (I2 & P2 & N2 & G2 & R2 & F2); [lia|].
      eexists _, (Some _). split; [reflexivity|]. split; [exact I2|]. split; [congruence|]. split; [lia|].
      exists (firstn (S i) (pend s1)). split; [reflexivity|]. split; [|split; [|split]].
      * rewrite <- C1, N2. rewrite P2 at 1. rewrite app_assoc. reflexivity.
      * rewrite firstn_S_nth by assumption. apply cut_snoc. exact NI.
      * left. exists (firstn i (pend s1)). rewrite firstn_S_nth by assumption. rewrite NTH. reflexivity.
      * rewrite firstn_S_nth by assumption. intro X. apply app_eq_nil in X. destruct X; discriminate.
    + pose proof (find_none _ _ FI) as NI.
      destruct (consume_spec s1 (length (pend s1)) I1) as (I2 & P2 & N2 & G2 & R2 & F2); [lia|].
      rewrite firstn_all in P2. assert (PE : pend (consume s1 (length (pend s1))) = []).
      { apply (f_equal (@length Z)) in P2. rewrite app_length in P2. destruct (pend (consume _ _)); [reflexivity|cbn in P2; lia]. }
      destruct (Nat.eqb_spec (length (pend s1)) 0) as [Z0|Z0].
      * assert (P1 : pend s1 = []) by (destruct (pend s1); [reflexivity|cbn in Z0; lia]).
        destruct (M P1) as (HE & _ & PS). eexists _, (Some _). split; [reflexivity|]. split; [exact I2|]. split; [congruence|]. split; [lia|].
        assert (HE2 : hit_end0 orc s (consume s1 (length (pend s1)))).
        { destruct HE as (F & _ & X). split; [rewrite F2; exact F|]. rewrite N2, R2. split; [exact PE|exact X]. }
        exists []. rewrite P1. split; [reflexivity|]. rewrite P1 in *. cbn [length] in *. rewrite PE, N2.
        split; [rewrite <- C1; reflexivity|]. split; [unfold cut_at; cbn; auto|]. split; [right; split; [exact HE2|cbn; auto]|].
        intros _. exact HE2.
      * destruct (IH (consume s1 (length (pend s1))) (buf ++ pend s1) I2) as (s3 & r3 & E3 & I3 & U3 & R3 & M3).
        { rewrite PE, N2. cbn [app]. rewrite <- C1, app_length in L. lia. }
        exists s3, r3. split; [exact E3|]. split; [exact I3|]. split; [congruence|]. split; [lia|].
        destruct r3 as [b|].
        -- destruct M3 as (d & -> & C3 & K3 & H3 & D3). exists (pend s1 ++ d). rewrite <- !app_assoc. split; [reflexivity|].
           split; [|split; [|split]].
           ++ rewrite <- C1, <- C3, PE, N2. reflexivity.
           ++ apply cut_app; assumption.
           ++ destruct H3 as [(d0 & ->)|(HE & ND)].
              ** left. exists (pend s1 ++ d0). rewrite app_assoc. reflexivity.
              ** right. split; [eapply hit_end0_l; [|exact HE]; lia|]. intro X. apply in_app_or in X. destruct X; auto.
           ++ intro X. apply app_eq_nil in X. destruct X as (X & _). rewrite X in Z0. cbn in Z0. lia.
        -- eapply hit_error_l; [|exact M3]. lia.
  - destruct M as (M & PE). exists s1, None. auto.
Qed.

Lemma fgets_loop_spec orc : forall fuel s left got w, inv s -> unget s = [] \/ left = 0 -> 0 <= left -> (length (pend s ++ inp s) < fuel)%nat ->
  exists s' d r, fgets_loop fuel orc s left got w = Ok (s', got ++ d, r) /\ inv s' /\ (reads s <= reads s')%nat /\
    unread s = d ++ unread s' /\ Z.of_nat (length d) <= left /\ cut_at 10 d /\
    match r with
    | None => hit_error orc s s'
    | Some w' => w' = w || negb (length d =? 0)%nat /\ (Z.of_nat (length d) = left \/ ends_with 10 d \/ hit_end orc s s')
    end.
Proof.
  induction fuel as [|f IH]; intros s left got w I UG LF L; [lia|]. cbn [fgets_loop].
  assert (CN : cut_at 10 []) by (unfold cut_at; cbn; auto).
  destruct (Z.eqb_spec left 0) as [->|NZ].
  { exists s, [], (Some w). rewrite app_nil_r. split; [reflexivity|]. split; [exact I|]. split; [lia|]. split; [reflexivity|].
    split; [cbn; lia|]. split; [exact CN|]. split; [|cbn; auto]. cbn. rewrite orb_false_r. reflexivity. }
  destruct UG as [UG|]; [|lia].
  destruct (fill_buf_spec orc s I) as (s1 & r & EF & I1 & U1 & R1 & C1 & M). rewrite EF. cbn [bind].
  assert (UR : unread s1 = unread s) by (rewrite !unread_eq, U1; f_equal; exact C1).
  destruct r as [av|].
  2:{ destruct M as (M & PE). exists s1, [], None. rewrite app_nil_r. split; [reflexivity|]. split; [exact I1|]. split; [exact R1|].
      split; [symmetry; exact UR|]. split; [cbn; lia|]. split; [exact CN|exact M]. }
  destruct M as (-> & M & _). destruct (pend s1) as [|x t] eqn:P1.
  { destruct (M eq_refl) as (HE0 & _). assert (HE : hit_end orc s s1) by (apply hit_end_of; [exact HE0|congruence]). exists s1, [], (Some w). rewrite app_nil_r. split; [reflexivity|]. split; [exact I1|]. split; [exact R1|].
    split; [symmetry; exact UR|]. split; [cbn; lia|]. split; [exact CN|]. split; [|auto]. cbn. rewrite orb_false_r. reflexivity. }
  rewrite <- P1 in *. assert (PL : (0 < length (pend s1))%nat) by (rewrite P1; cbn; lia).
  set (k := Z.to_nat (Z.min (Z.of_nat (length (pend s1))) left)).
  assert (KB : (0 < k <= length (pend s1))%nat) by (unfold k; lia).
  destruct (find 10 (firstn k (pend s1))) as [i|] eqn:FI.
  - destruct (find_some _ _ _ FI) as (LT & NTH & NI). rewrite firstn_length in LT.
    assert (FF : firstn (S i) (firstn k (pend s1)) = firstn (S i) (pend s1)) by (rewrite firstn_firstn; f_equal; lia).
    destruct (consume_spec s1 (S i) I1) as (I2 & P2 & N2 & G2 & R2 & F2); [lia|].
    eexists _, (firstn (S i) (pend s1)), (Some true). split; [reflexivity|]. split; [exact I2|]. split; [lia|].
    assert (SN : firstn (S i) (pend s1) = firstn i (firstn k (pend s1)) ++ [10]).
    { rewrite <- FF, firstn_S_nth by (rewrite firstn_length; lia). rewrite NTH. reflexivity. }
    split; [|split; [|split]].
    + rewrite !unread_eq, G2, N2, U1, UG, <- C1. cbn [app]. rewrite P2 at 1. rewrite app_assoc. reflexivity.
    + rewrite firstn_length. unfold k in *. lia.
    + rewrite SN. apply cut_snoc. exact NI.
    + split.
      * rewrite firstn_length, Nat.min_l by lia. cbn. rewrite orb_true_r. reflexivity.
      * right. left. eexists. exact SN.
  - pose proof (find_none _ _ FI) as NI.
    destruct (consume_spec s1 k I1) as (I2 & P2 & N2 & G2 & R2 & F2); [lia|].
    destruct (IH (consume s1 k) (left - Z.of_nat k) (got ++ firstn k (pend s1)) true I2) as (s3 & d & r3 & E3 & I3 & R3 & C3 & L3 & K3 & M3).
    { left. congruence. } { unfold k; lia. }
    { rewrite <- C1, P2, !app_length, firstn_length in L. rewrite app_length, N2. lia. }
    exists s3, (firstn k (pend s1) ++ d), r3. rewrite app_assoc. split; [exact E3|]. split; [exact I3|]. split; [lia|].
    split; [|split; [|split]].
    + rewrite <- app_assoc, <- C3, !unread_eq, G2, N2, U1, UG, <- C1. cbn [app]. rewrite P2 at 1. rewrite app_assoc. reflexivity.
    + rewrite app_length, firstn_length. lia.
    + apply cut_app; assumption.
    + destruct r3 as [w'|].
      * destruct M3 as (W & H3). split.
        -- rewrite W, app_length, firstn_length, Nat.min_l by lia. destruct k; [lia|]. cbn. rewrite orb_true_r. reflexivity.
        -- destruct H3 as [H3|[(d0 & ->)|H3]].
           ++ left. rewrite app_length, firstn_length. lia.
           ++ right. left. exists (firstn k (pend s1) ++ d0). rewrite app_assoc. reflexivity.
           ++ right. right. eapply hit_end_l; [|exact H3]. lia.
      * eapply hit_error_l; [|exact M3]. lia.
Qed.

Lemma fgets_spec orc s n : inv s -> -(2 ^ 31) <= n < 2 ^ 31 -> exists s' got ok, fgets orc s n = Ok (s', got, ok) /\ inv s' /\ (reads s <= reads s')%nat /\
  exists d, (got = d \/ got = d ++ [0]) /\ (0 <= n -> Z.of_nat (length got) <= n) /\ unread s = d ++ unread s' /\
    (ok = true -> got = d ++ [0]) /\
    (unget s = [] -> 0 < n ->
       cut_at 10 d /\
       (ok = true /\ d <> [] /\ (Z.of_nat (length d) = n - 1 \/ ends_with 10 d \/ hit_end orc s s') \/
        ok = false /\ d = [] /\ got = [0] /\ (n = 1 \/ hit_end orc s s') \/
        ok = false /\ hit_error orc s s')).
Proof.
  intros I HN. unfold fgets. set (max := n mod 2 ^ 64). set (left := Z.max 0 (max - 1)).
  set (u := Z.to_nat (Z.min left (Z.of_nat (length (unget s))))).
  set (s0 := set_unget s (skipn u (unget s))).
  assert (MX : 0 <= n -> max = n) by (intro; unfold max; apply Z.mod_small; lia).
  assert (MP : 0 <= max) by (unfold max; apply Z.mod_pos_bound; lia).
  destruct (fgets_loop_spec orc (S (S (rsize s0 + length (inp s0)))) s0 (left - Z.of_nat u) (firstn u (unget s)) false)
    as (s' & d & r & E & I' & R' & U & L & K & M).
  { exact I. }
  { unfold s0. cbn [set_unget unget]. destruct (Z_le_gt_dec (Z.of_nat (length (unget s))) left).
    - constructor 1. apply skipn_all2. unfold u. lia.
    - right. unfold u. lia. }
  { unfold u. lia. }
  { rewrite app_length, pend_len by exact I. lia. }
  rewrite E. cbn [bind].
  assert (UL : length (firstn u (unget s)) = u) by (rewrite firstn_length; unfold u; lia).
  assert (UN : unread s = (firstn u (unget s) ++ d) ++ unread s').
  { rewrite <- app_assoc, <- U, !unread_eq. change (pend s0) with (pend s). change (inp s0) with (inp s).
    cbn [s0 set_unget unget]. rewrite (app_assoc (firstn u _)), firstn_skipn. reflexivity. }
  assert (LL : Z.of_nat (length (firstn u (unget s) ++ d)) <= left) by (rewrite app_length, UL; lia).
  destruct r as [w|].
  - destruct M as (W & M). eexists _, _, _. split; [reflexivity|]. split; [exact I'|]. split; [exact R'|].
    exists (firstn u (unget s) ++ d). destruct (Z.leb_spec 1 max) as [M1|M1].
    + split; [right; reflexivity|]. split; [intro; rewrite (app_length _ [0]); cbn [length]; rewrite MX in * by assumption; lia|]. split; [exact UN|].
      split; [reflexivity|]. intros UG N0. rewrite MX in * by lia. rewrite UG, firstn_nil in *. cbn [app length] in *.
      split; [exact K|]. assert (u0 : u = 0%nat) by lia. assert (HE : hit_end orc s0 s' -> hit_end orc s s') by (intros (F & X); split; assumption).
      destruct d as [|x d].
      * right. constructor 1. rewrite W. repeat split; auto. destruct M as [M|[(d0 & M)|M]].
        -- constructor 1. cbn [length] in M. lia.
        -- destruct d0; discriminate.
        -- right. auto.
      * constructor 1. rewrite W. split; [reflexivity|]. split; [discriminate|]. destruct M as [M|[M|M]]; [constructor 1; lia|right; constructor 1; exact M|right; right; auto].
    + split; [constructor 1; reflexivity|]. split; [intro; rewrite MX in * by assumption; lia|]. split; [exact UN|].
      assert (D0 : firstn u (unget s) ++ d = []) by (destruct (firstn u (unget s) ++ d); [reflexivity|cbn [length] in LL; lia]).
      split; [|intros UG N0; rewrite MX in * by lia; lia].
      apply app_eq_nil in D0. destruct D0 as (_ & D0). rewrite D0 in W. cbn in W. intro; congruence.
  - eexists _, _, _. split; [reflexivity|]. split; [exact I'|]. split; [exact R'|].
    exists (firstn u (unget s) ++ d). split; [constructor 1; reflexivity|]. split; [intro; rewrite MX in * by assumption; lia|]. split; [exact UN|].
    split; [discriminate|]. intros UG N0. rewrite UG, firstn_nil in *. cbn [app] in *. split; [exact K|].
    assert (HE : hit_error orc s s') by (destruct M as (F & j & J & X); split; [exact F|exists j; auto]).
    right. right. auto.
Qed.

Lemma land_keep f b : Z.land (Z.land f b) b = Z.land f b.
Proof. rewrite <- Z.land_assoc, Z.land_diag. reflexivity. Qed.

Lemma rev_last_eq (l : list Z) c : (match rev l with [] => true | x :: _ => x =? c end) = true <-> l = [] \/ ends_with c l.
Proof.
  destruct (rev l) as [|x r] eqn:E.
  - apply (f_equal (@rev Z)) in E. rewrite rev_involutive in E. cbn in E. subst. split; auto.
  - apply (f_equal (@rev Z)) in E. rewrite rev_involutive in E. cbn in E. subst. split.
    + intro H. apply Z.eqb_eq in H. subst. right. exists (rev r). reflexivity.
    + intros [H|(d & H)].
      * apply app_eq_nil in H. destruct H; discriminate.
      * apply app_inj_tail in H. destruct H as (_ & ->). apply Z.eqb_refl.
Qed.

Lemma getdelim_spec orc s delim : inv s ->
  exists s' r, getdelim orc s delim = Ok (s', r) /\ inv s' /\ (reads s <= reads s')%nat /\
  (unget s = [] -> Z.land (flags s) F_EOF = 0 -> Z.land (flags s) F_ERR = 0 -> 0 <= delim < 256 ->
   match r with
   | None => hit_error orc s s' \/ (unread s' = unread s /\ hit_end orc s s')
   | Some l => unread s = l ++ unread s' /\ l <> [] /\ cut_at delim l /\ (ends_with delim l \/ hit_end orc s s')
   end).
Proof.
  intro I. unfold getdelim.
  destruct (negb (Z.land (flags s) F_EOF =? 0) || negb (Z.land (flags s) F_ERR =? 0)) eqn:EF.
  { exists s, None. split; [reflexivity|]. split; [exact I|]. split; [lia|]. intros _ E1 E2 _. rewrite E1, E2 in EF. discriminate. }
  destruct ((delim <? 0) || (255 <? delim)) eqn:ED.
  { exists s, None. split; [reflexivity|]. split; [exact I|]. split; [lia|]. intros _ _ _ D. lia. }
  destruct (read_until_spec orc delim (S (S (rsize s + length (inp s)))) s [] I) as (s1 & r & E & I1 & U1 & R1 & M).
  { rewrite app_length, pend_len by exact I. lia. }
  rewrite E. cbn [bind]. destruct r as [b|].
  - destruct M as (d & -> & C & K & H & D0). cbn [app].
    destruct (match rev d with [] => true | x :: _ => x =? delim end) eqn:RL.
    + pose proof (proj1 (rev_last_eq _ _) RL) as [->|EW].
      * cbn [andb length Nat.eqb]. eexists _, None. split; [reflexivity|]. split; [exact I1|]. split; [exact R1|].
        intros UG _ _ _. right. split.
        -- rewrite !unread_eq. cbn [set_flags unget inp]. change (pend (set_flags s1 _)) with (pend s1). rewrite U1. f_equal. symmetry. exact C.
        -- destruct (D0 eq_refl) as (F & X). apply hit_end_of; [|cbn [set_flags unget]; congruence]. split; [cbn [set_flags flags]; rewrite land_keep; exact F|exact X].
      * assert (NE : d <> []) by (destruct EW as (d0 & ->); intro X; apply app_eq_nil in X; destruct X; discriminate).
        destruct (Nat.eqb_spec (length d) 0) as [L0|_]; [destruct d; [congruence|cbn in L0; lia]|]. cbn [andb].
        eexists _, (Some d). split; [reflexivity|]. split; [exact I1|]. split; [exact R1|]. intros UG _ _ _.
        rewrite !unread_eq. cbn [set_flags unget inp]. change (pend (set_flags s1 _)) with (pend s1). rewrite U1, UG. cbn [app]. auto.
    + cbn [andb]. assert (NN : ~ (d = [] \/ ends_with delim d)) by (intro X; apply rev_last_eq in X; congruence).
      eexists _, (Some d). split; [reflexivity|]. split; [exact I1|]. split; [exact R1|]. intros UG _ _ _.
      rewrite !unread_eq, U1, UG. cbn [app]. split; [exact C|]. split; [auto|]. split; [exact K|].
      destruct H as [H|(H & _)]; [exfalso; auto|right; apply hit_end_of; [exact H|congruence]].
  - eexists _, None. split; [reflexivity|]. split; [exact I1|]. split; [exact R1|]. intros. left.
    destruct M as (F & X). split; [cbn [set_flags flags]; rewrite land_keep; exact F|exact X].
Qed.

Lemma i_exec_inv orc s o : inv s -> match o with IFgets n => -(2 ^ 31) <= n < 2 ^ 31 | ISetvbuf _ => False | _ => True end ->
  exists s' v, i_exec orc s o = Ok (s', v) /\ inv s'.
Proof.
  intros I V. destruct o as [|size n|c|a| |n|d]; cbn [i_exec].
  - destruct (f_read_spec orc s 1 I) as (s1 & r & E & I1 & _); [lia|]. rewrite E. cbn [bind].
    destruct r as [[|x d]|]; eexists _, _; (split; [reflexivity|exact I1]).
  - destruct ((size =? 0)%nat || (n =? 0)%nat); [eexists _, _; split; [reflexivity|exact I]|].
    destruct (fread_loop_spec orc (size * n) (S (size * n)) s [] I) as (s1 & d & E & I1 & _); [cbn; lia|cbn; lia|].
    rewrite E. cbn [bind]. eexists _, _. split; [reflexivity|exact I1].
  - eexists _, _. split; [reflexivity|exact I].
  - destruct V.
  - eexists _, _. split; [reflexivity|exact I].
  - destruct (fgets_spec orc s n I V) as (s1 & g & ok & E & I1 & _). rewrite E. cbn [bind]. eexists _, _. split; [reflexivity|exact I1].
  - destruct (getdelim_spec orc s d I) as (s1 & r & E & I1 & _). rewrite E. cbn [bind]. destruct r; eexists _, _; (split; [reflexivity|exact I1]).
Qed.

(* The effect of a single call of C40's on the unread bytes. *)
Lemma i_exec_spec orc s o : inv s -> byte_ops [o] -> exists s' v d, i_exec orc s o = Ok (s', (v, d)) /\ inv s' /\
  delivers o v d (unread s) (unread s') /\
  (o = IGetc -> v = -1 -> (forall b, In b (unread s) -> 0 <= b) -> hit_error orc s s' \/ hit_end orc s s') /\
  (forall size n, o = IFread size n -> (length d < size * n)%nat -> hit_error orc s s' \/ hit_end orc s s').
Proof.
  intros I B. specialize (B o (or_introl eq_refl)). destruct o as [|size n|c|a| |n|d]; try contradiction; cbn [i_exec].
  - destruct (f_read_spec orc s 1 I) as (s1 & r & E & I1 & R1 & M); [lia|]. rewrite E. cbn [bind].
    destruct r as [[|x d]|].
    + destruct M as (U & _ & HE). eexists _, _, _. split; [reflexivity|]. split; [exact I1|]. split; [left; auto|]. split; [auto|discriminate].
    + destruct M as (U & LD & _). assert (d = []) by (destruct d; [reflexivity|cbn in LD; lia]). subst d.
      eexists _, _, _. split; [reflexivity|]. split; [exact I1|]. split; [right; exact U|]. split; [|discriminate].
      intros _ -> P. exfalso. assert (0 <= -1); [|lia]. apply P. rewrite U. left. reflexivity.
    + destruct M as (U & HE). eexists _, _, _. split; [reflexivity|]. split; [exact I1|]. split; [left; auto|]. split; [auto|discriminate].
  - destruct ((size =? 0)%nat || (n =? 0)%nat) eqn:Z0.
    + eexists _, _, _. split; [reflexivity|]. split; [exact I|]. split.
      * cbn [delivers]. split; [reflexivity|]. split; [cbn; lia|]. destruct size; [reflexivity|]. cbn [length]. rewrite Nat.div_0_l by lia. reflexivity.
      * split; [discriminate|]. intros size' n' E. inversion E; subst. intro L. exfalso. cbn [length] in L. apply orb_prop in Z0.
        destruct Z0 as [Z0|Z0]; apply Nat.eqb_eq in Z0; subst; lia.
    + destruct (fread_loop_spec orc (size * n) (S (size * n)) s [] I) as (s1 & d & E & I1 & R1 & U & L & H); [cbn; lia|cbn; lia|].
      rewrite E. cbn [bind app] in *. eexists _, _, _. split; [reflexivity|]. split; [exact I1|]. split; [cbn [delivers]; auto|].
      split; [discriminate|]. intros size' n' X. inversion X; subst. exact H.
  - eexists _, _, _. split; [reflexivity|]. split; [exact I|]. split; [cbn [delivers]; split; reflexivity|]. split; [discriminate|discriminate].
  - eexists _, _, _. split; [reflexivity|]. split; [exact I|]. split; [cbn [delivers]; reflexivity|]. split; [discriminate|discriminate].
Qed.

Lemma i_run_app orc l1 : forall s l2, i_run orc s (l1 ++ l2) =
  ' p <- i_run orc s l1 ;; let (s1, v1) := p in ' q <- i_run orc s1 l2 ;; let (s2, v2) := q in Ok (s2, v1 ++ v2).
Proof.
  induction l1 as [|o l1 IH]; intros s l2; cbn [i_run app bind].
  - destruct (i_run orc s l2) as [[? ?]| | |]; reflexivity.
  - destruct (i_exec orc s o) as [[s1 v]| | |]; cbn [bind]; [|reflexivity..]. rewrite IH.
    destruct (i_run orc s1 l1) as [[s2 v2]| | |]; cbn [bind]; [|reflexivity..].
    destruct (i_run orc s2 l2) as [[s3 v3]| | |]; reflexivity.
Qed.

Lemma open_inv F f : inv (i_open F f).
Proof. unfold inv, i_open. cbn. repeat split; auto. discriminate. Qed.

Lemma pre_run orc F : forall pre s, (inp s = F /\ rpos s = 0%nat /\ rsize s = 0%nat /\ unget s = [] /\ rb s <> Some []) -> buffering pre ->
  exists s' vs, i_run orc s pre = Ok (s', vs) /\ inv s' /\ unread s' = F.
Proof.
  induction pre as [|o pre IH]; intros s (A & B & C & D & E) BF; cbn [i_run].
  - exists s, []. split; [reflexivity|]. split; [unfold inv; rewrite B, C; repeat split; [lia|lia|exact E]|].
    rewrite unread_eq. unfold pend. rewrite B, C, D, A. reflexivity.
  - destruct (BF o (or_introl eq_refl)) as (a & -> & NE). cbn [i_exec bind].
    destruct (IH (IS (inp s) (reads s) (Some a) (rpos s) (rsize s) (unget s) (flags s))) as (s' & vs & R & I & U).
    + cbn. repeat split; auto. intro X. injection X as X. auto.
    + intros x X. apply BF. right. exact X.
    + rewrite R. cbn [bind]. eexists _, _. split; [reflexivity|]. auto.
Qed.

Lemma run_inv orc : forall l s, inv s -> ok_ops l -> exists s' vs, i_run orc s l = Ok (s', vs) /\ inv s'.
Proof.
  induction l as [|o l IH]; intros s I B; cbn [i_run]; [eauto|].
  destruct (i_exec_inv orc s o I) as (s1 & v & E & I1); [apply B; left; reflexivity|]. rewrite E. cbn [bind].
  destruct (IH s1 I1) as (s2 & vs & E2 & I2); [intros x X; apply B; right; exact X|]. rewrite E2. cbn [bind]. eauto.
Qed.

Lemma run_reach orc F f pre l s vs : buffering pre -> ok_ops l -> i_run orc (i_open F f) (pre ++ l) = Ok (s, vs) -> inv s.
Proof.
  intros P B R. rewrite i_run_app in R. destruct (pre_run orc F pre (i_open F f)) as (s1 & v1 & E & I & _); auto.
  { cbn. repeat split; auto. discriminate. }
  rewrite E in R. cbn [bind] in R. destruct (run_inv orc l s1 I B) as (s2 & v2 & E2 & I2). rewrite E2 in R. cbn [bind] in R. congruence.
Qed.

Lemma byte_ok l : byte_ops l -> ok_ops l.
Proof. intros B o H. specialize (B o H). destruct o; auto; contradiction. Qed.

Lemma run_delivered orc : forall l s, inv s -> byte_ops l -> exists s' vs, i_run orc s l = Ok (s', vs) /\ delivered (unread s) l vs (unread s').
Proof.
  induction l as [|o l IH]; intros s I B; cbn [i_run].
  - eexists _, _. split; [reflexivity|constructor].
  - destruct (i_exec_spec orc s o I) as (s1 & v & d & E & I1 & D & _).
    { intros x [<-|[]]. apply B. left. reflexivity. }
    rewrite E. cbn [bind]. destruct (IH s1 I1) as (s2 & vs & E2 & D2); [intros x X; apply B; right; exact X|].
    rewrite E2. cbn [bind]. eexists _, _. split; [reflexivity|]. econstructor; eassumption.
Qed.

Lemma in_once orc F f pre l : buffering pre -> byte_ops l ->
  exists s vs ps, i_run orc (i_open F f) (pre ++ l) = Ok (s, ps ++ vs) /\ delivered F l vs (unread s).
Proof.
  intros P B. rewrite i_run_app. destruct (pre_run orc F pre (i_open F f)) as (s1 & v1 & E & I & U); auto.
  { cbn. repeat split; auto. discriminate. }
  rewrite E. cbn [bind]. destruct (run_delivered orc l s1 I B) as (s2 & v2 & E2 & D). rewrite E2. cbn [bind].
  exists s2, v2, v1. rewrite U in D. auto.
Qed.

Lemma in_eof orc F f pre l s vs s' : buffering pre -> ok_ops l -> i_run orc (i_open F f) (pre ++ l) = Ok (s, vs) ->
  (forall b, In b (unread s) -> 0 <= b) ->
  (forall d, i_exec orc s IGetc = Ok (s', (-1, d)) -> hit_error orc s s' \/ hit_end orc s s') /\
  (forall size n v d, i_exec orc s (IFread size n) = Ok (s', (v, d)) -> (length d < size * n)%nat -> hit_error orc s s' \/ hit_end orc s s').
Proof.
  intros P B R PB. pose proof (run_reach orc F f pre l s vs P B R) as I. split.
  - intros d E. destruct (i_exec_spec orc s IGetc I) as (s1 & v & d1 & E1 & _ & _ & H & _); [intros x [<-|[]]; exact Logic.I|].
    rewrite E in E1. inversion E1; subst. auto.
  - intros size n v d E L. destruct (i_exec_spec orc s (IFread size n) I) as (s1 & v1 & d1 & E1 & _ & _ & _ & H); [intros x [<-|[]]; exact Logic.I|].
    rewrite E in E1. inversion E1; subst. eapply H; eauto.
Qed.

Lemma in_fgets orc F f pre l s vs n : buffering pre -> ok_ops l -> i_run orc (i_open F f) (pre ++ l) = Ok (s, vs) -> unget s = [] ->
  0 < n < 2 ^ 31 -> exists s' v got d, i_exec orc s (IFgets n) = Ok (s', (v, got)) /\
    unread s = d ++ unread s' /\ Z.of_nat (length got) <= n /\ cut_at 10 d /\
    (v = 1 /\ got = d ++ [0] /\ d <> [] /\ (Z.of_nat (length d) = n - 1 \/ ends_with 10 d \/ hit_end orc s s') \/
     v = 0 /\ got = [0] /\ d = [] /\ (n = 1 \/ hit_end orc s s') \/
     v = 0 /\ (got = d \/ got = d ++ [0]) /\ hit_error orc s s').
Proof.
  intros P B R UG N. pose proof (run_reach orc F f pre l s vs P B R) as I.
  destruct (fgets_spec orc s n I) as (s' & got & ok & E & I' & R' & d & G & L & U & T & X); [lia|].
  destruct (X UG) as (K & H); [lia|]. cbn [i_exec]. rewrite E. cbn [bind]. eexists _, _, got, d.
  split; [reflexivity|]. split; [exact U|]. split; [apply L; lia|]. split; [exact K|].
  destruct H as [(-> & H)|[(-> & H1 & H2 & H3)|(-> & H)]]; [left|right; left|right; right]; auto.
Qed.

Lemma in_fgets_any orc F f pre l s vs n : buffering pre -> ok_ops l -> i_run orc (i_open F f) (pre ++ l) = Ok (s, vs) ->
  0 <= n < 2 ^ 31 -> exists s' v got d, i_exec orc s (IFgets n) = Ok (s', (v, got)) /\
    unread s = d ++ unread s' /\ Z.of_nat (length got) <= n /\ (got = d \/ got = d ++ [0]) /\ (v = 1 -> got = d ++ [0]).
Proof.
  intros P B R N. pose proof (run_reach orc F f pre l s vs P B R) as I.
  destruct (fgets_spec orc s n I) as (s' & got & ok & E & I' & R' & d & G & L & U & T & _); [lia|].
  cbn [i_exec]. rewrite E. cbn [bind]. eexists _, _, got, d. split; [reflexivity|]. split; [exact U|]. split; [apply L; lia|].
  split; [exact G|]. intro V. apply T. destruct ok; [reflexivity|discriminate].
Qed.

Lemma in_getdelim orc F f pre l s vs delim : buffering pre -> ok_ops l -> i_run orc (i_open F f) (pre ++ l) = Ok (s, vs) -> unget s = [] ->
  Z.land (flags s) F_EOF = 0 -> Z.land (flags s) F_ERR = 0 -> 0 <= delim < 256 ->
  exists s' v got, i_exec orc s (IGetdelim delim) = Ok (s', (v, got)) /\
    ((exists d, unread s = d ++ unread s' /\ got = d ++ [0] /\ v = Z.of_nat (length d) /\ d <> [] /\ cut_at delim d /\
        (ends_with delim d \/ hit_end orc s s')) \/
     v = -1 /\ unread s' = unread s /\ hit_end orc s s' \/
     v = -1 /\ hit_error orc s s').
Proof.
  intros P B R UG F1 F2 D. pose proof (run_reach orc F f pre l s vs P B R) as I.
  destruct (getdelim_spec orc s delim I) as (s' & r & E & I' & R' & M). specialize (M UG F1 F2 D).
  cbn [i_exec]. rewrite E. cbn [bind]. destruct r as [d|].
  - destruct M as (U & NE & K & H). eexists _, _, _. split; [reflexivity|]. left. exists d. auto 10.
  - eexists _, _, _. split; [reflexivity|]. right. destruct M as [M|(U & H)]; [right|left]; auto.
Qed.
