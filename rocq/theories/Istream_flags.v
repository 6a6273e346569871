(* Proofs for C74: the indicators of a stream. *)
From Coq Require Import ZArith List Bool Lia.
From Verif Require Import Base Istream_model Istream_spec Istream_proofs.
Import ListNotations.
Open Scope Z_scope.

Inductive kind := Fine | Err | End.
Definition good (r : rres) : Prop := exists n, r = RN n /\ n <> 0%nat.
Definition q (orc : nat -> rres) (s s' : istream) (k : kind) : Prop :=
  (rb s <> Some [] -> rb s' <> Some []) /\ (inp s = [] -> inp s' = []) /\
  match k with
  | Fine => (reads s <= reads s')%nat /\ (forall j, (reads s <= j < reads s')%nat -> good (orc j)) /\ flags s' = flags s /\ (inp s = [] -> reads s' = reads s)
  | Err => exists m, reads s' = S m /\ (reads s <= m)%nat /\ (forall j, (reads s <= j < m)%nat -> good (orc j)) /\ orc m = RErr /\ flags s' = Z.lor (flags s) F_ERR /\
      (inp s = [] -> m = reads s)
  | End => exists m n, reads s' = S m /\ (reads s <= m)%nat /\ (forall j, (reads s <= j < m)%nat -> good (orc j)) /\ orc m = RN n /\ flags s' = Z.lor (flags s) F_EOF /\
      (n = 0%nat \/ inp s' = []) /\ (inp s = [] -> m = reads s)
  end.
Lemma q_refl orc s s' : flags s' = flags s -> reads s' = reads s -> inp s' = inp s -> (rb s' = rb s) -> q orc s s' Fine.
Proof. intros F R I B. unfold q. rewrite F, R, I, B. repeat split; auto; intros; lia. Qed.
Lemma q_trans orc s s1 s' k : q orc s s1 Fine -> q orc s1 s' k -> q orc s s' k.
Proof.
  intros (B1 & I1 & R1 & G1 & F1 & Z1) (B2 & I2 & K). split; [auto|]. split; [auto|]. destruct k.
  - destruct K as (R2 & G2 & F2 & Z2). split; [lia|]. split; [|split; [congruence|]].
    + intros j J. destruct (Nat.lt_ge_cases j (reads s1)); [apply G1; lia|apply G2; lia].
    + intros E. specialize (Z1 E). specialize (Z2 (I1 E)). congruence.
  - destruct K as (m & R2 & L2 & G2 & O2 & F2 & Z2). exists m. split; [exact R2|]. split; [lia|]. split; [|split; [exact O2|split; [congruence|]]].
    + intros j J. destruct (Nat.lt_ge_cases j (reads s1)); [apply G1; lia|apply G2; lia].
    + intros E. specialize (Z1 E). specialize (Z2 (I1 E)). congruence.
  - destruct K as (m & n & R2 & L2 & G2 & O2 & F2 & N2 & Z2). exists m, n. split; [exact R2|]. split; [lia|]. split; [|split; [exact O2|split; [congruence|split; [exact N2|]]]].
    + intros j J. destruct (Nat.lt_ge_cases j (reads s1)); [apply G1; lia|apply G2; lia].
    + intros E. specialize (Z1 E). specialize (Z2 (I1 E)). congruence.
Qed.
Lemma q_after orc s s1 s' k : q orc s s1 k -> flags s' = flags s1 -> reads s' = reads s1 -> inp s' = inp s1 -> rb s' = rb s1 -> q orc s s' k.
Proof. intros (B & I & K) F R J Y. unfold q. rewrite F, R, J, Y. split; [exact B|]. split; [exact I|]. destruct k; exact K. Qed.
Definition kind_of (r : option (list Z)) : kind := match r with None => Err | Some [] => End | Some _ => Fine end.
Lemma init_rb s : rb s <> Some [] -> arr (init_buf s) <> [] /\ flags (init_buf s) = flags s /\ reads (init_buf s) = reads s /\ inp (init_buf s) = inp s /\
  rpos (init_buf s) = rpos s /\ rsize (init_buf s) = rsize s.
Proof.
  intros B. unfold init_buf, arr. destruct (rb s) as [[|a l]|] eqn:E; try congruence.
  - rewrite E. repeat split; auto. discriminate.
  - cbn. repeat split; auto. discriminate.
Qed.
Lemma fill_q orc s s' r : rb s <> Some [] -> fill_buf orc s = Ok (s', r) -> q orc s s' (kind_of r).
Proof.
  intros B. destruct (init_rb s B) as (A & F & R & I & P & ZE). unfold fill_buf. set (s1 := init_buf s) in *. clearbody s1.
  assert (A1 : rb s1 <> Some []) by (intros E; apply A; unfold arr; rewrite E; reflexivity).
  destruct (Nat.eqb_spec (rpos s1) (rsize s1)) as [E|E].
  - unfold refill. rewrite R. destruct (orc (reads s)) as [|n] eqn:O.
    + intros [= <- <-]. split; [intros _; exact A1|]. split; [cbn; congruence|]. exists (reads s). cbn. rewrite F. repeat split; auto. intros; lia.
    + destruct (Nat.eqb_spec (Nat.min n (Nat.min (length (arr s1)) (length (inp s1)))) 0) as [K|K].
        cbn [rpos rsize]. destruct (Nat.leb 0 0 && _) eqn:Q; [|discriminate]. cbn. intros [= <- <-].
        split; [intros _; exact A1|]. split; [cbn; congruence|]. exists (reads s), n. cbn. rewrite F. repeat split; auto; try (intros; lia).
        destruct (arr s1); [congruence|]. cbn in K. destruct n; [auto|]. destruct (inp s1); [auto|]. cbn in K. lia.
      * set (k := Nat.min n _) in *. cbn [rpos rsize inp unget reads flags arr rb].
        destruct (_ && _) eqn:Q; [|discriminate]. intros [= <- <-].
        assert (KL : (k <= length (inp s1))%nat) by (unfold k; lia).
        assert (NZ : n <> 0%nat) by (unfold k in K; lia).
        assert (NI : inp s1 <> []) by (intros Y; rewrite Y in KL; cbn in KL; lia).
        cbn [skipn kind_of]. destruct (firstn (k - 0) (firstn k (inp s1) ++ skipn k (arr s1))) as [|x l] eqn:D.
        { exfalso. apply (f_equal (@length Z)) in D. rewrite Nat.sub_0_r, firstn_length, app_length, firstn_length in D. cbn in D. lia. }
        cbn [kind_of]. split; [|split].
        -- intros _ Y. cbn in Y. injection Y as Y. apply (f_equal (@length Z)) in Y. rewrite app_length, firstn_length in Y. cbn in Y. lia.
        -- cbn. rewrite <- I. intros Y. congruence.
        -- cbn. rewrite F. split; [lia|]. split; [|split; [reflexivity|]].
           ++ intros j J. assert (j = reads s) by lia. subst j. exists n. auto.
           ++ rewrite <- I. intros Y. congruence.
  - destruct (_ && _) eqn:Q; [|discriminate]. intros [= <- <-]. apply andb_true_iff in Q. destruct Q as [Q1 Q2]. apply Nat.leb_le in Q1, Q2.
    destruct (firstn (rsize s1 - rpos s1) (skipn (rpos s1) (arr s1))) as [|x l] eqn:D.
    { exfalso. apply (f_equal (@length Z)) in D. rewrite firstn_length, skipn_length in D. cbn in D. lia. }
    cbn [kind_of]. split; [intros _; exact A1|]. split; [congruence|]. rewrite R, F. repeat split; auto. intros; lia.
Qed.
Lemma q_rb orc s s' k : q orc s s' k -> rb s <> Some [] -> rb s' <> Some []. Proof. intros (B & _) H. auto. Qed.
Lemma consume_q orc s s1 i k : q orc s s1 k -> q orc s (consume s1 i) k.
Proof. intros Q. eapply q_after; [exact Q|reflexivity..]. Qed.
Lemma f_read_q orc s n s' r : (0 < n)%nat -> rb s <> Some [] -> f_read orc s n = Ok (s', r) -> q orc s s' (kind_of r).
Proof.
  intros N B. unfold f_read. destruct (Nat.eqb_spec (Nat.min n (length (unget s))) 0) as [E|E].
  - destruct (fill_buf orc s) as [[s1 r1]| | |] eqn:F; try discriminate. cbn [bind]. apply fill_q in F; [|exact B].
    destruct r1 as [buf|]; intros [= <- <-]; [|exact F]. apply consume_q.
    destruct buf as [|x l]; [rewrite firstn_nil; exact F|]. cbn. destruct n; [lia|]. cbn. exact F.
  - intros [= <- <-]. destruct (unget s) as [|x l]; [cbn in E; lia|]. cbn. destruct n; [lia|]. cbn. apply q_refl; reflexivity.
Qed.
Lemma fread_q orc total : forall fuel s got s' d, rb s <> Some [] -> fread_loop fuel orc s total got = Ok (s', d) -> exists k, q orc s s' k.
Proof.
  induction fuel as [|f IH]; intros s got s' d B; cbn [fread_loop]; [discriminate|].
  destruct (Nat.ltb_spec (length got) total) as [L|L]; [|intros [= <- <-]; exists Fine; apply q_refl; reflexivity].
  destruct (f_read orc s (total - length got)) as [[s1 r]| | |] eqn:R; try discriminate. cbn [bind]. apply f_read_q in R; [|lia|exact B].
  destruct r as [[|x l]|]; [intros [= <- <-]; eexists; exact R| |intros [= <- <-]; eexists; exact R].
  intros E. apply IH in E; [|exact (q_rb _ _ _ _ R B)]. destruct E as [k K]. exists k. eapply q_trans; [exact R|exact K].
Qed.
Lemma fgets_loop_q orc : forall fuel s left got w s' d o, rb s <> Some [] -> fgets_loop fuel orc s left got w = Ok (s', d, o) -> exists k, q orc s s' k.
Proof.
  induction fuel as [|f IH]; intros s left got w s' d o B; cbn [fgets_loop]; [discriminate|].
  destruct (left =? 0); [intros [= <- _ _]; exists Fine; apply q_refl; reflexivity|].
  destruct (fill_buf orc s) as [[s1 r]| | |] eqn:R; try discriminate. cbn [bind]. apply fill_q in R; [|exact B].
  destruct r as [[|x l]|]; [intros [= <- _ _]; eexists; exact R| |intros [= <- _ _]; eexists; exact R].
  cbv zeta. destruct (find 10 _).
  - intros [= <- _ _]. exists Fine. apply consume_q. exact R.
  - intros E. apply IH in E; [|exact (q_rb _ _ _ _ R B)]. destruct E as [k K]. exists k. eapply q_trans; [eapply consume_q; exact R|exact K].
Qed.
Lemma fgets_q orc s n s' d o : rb s <> Some [] -> fgets orc s n = Ok (s', d, o) -> exists k, q orc s s' k.
Proof.
  intros B. unfold fgets. cbv zeta. destruct (fgets_loop _ _ _ _ _ _) as [[[s1 g] r]| | |] eqn:R; try discriminate. cbn [bind].
  apply fgets_loop_q in R; [|exact B]. destruct R as [k K].
  intros E. exists k. eapply q_trans; [apply (q_refl orc s (set_unget s (skipn (Z.to_nat (Z.min (Z.max 0 (n mod 2 ^ 64 - 1)) (Z.of_nat (length (unget s))))) (unget s)))); reflexivity|].
  destruct r; injection E as <- _ _; exact K.
Qed.
Lemma read_until_q orc delim : forall fuel s buf s' r, rb s <> Some [] -> read_until fuel orc s delim buf = Ok (s', r) ->
  match r with None => q orc s s' Err | Some _ => q orc s s' Fine \/ q orc s s' End end.
Proof.
  induction fuel as [|f IH]; intros s buf s' r B; cbn [read_until]; [discriminate|].
  destruct (fill_buf orc s) as [[s1 [av|]]| | |] eqn:R; try discriminate; cbn [bind]; apply fill_q in R; try exact B; [|intros [= <- <-]; exact R].
  destruct (find delim av) as [i|] eqn:D.
  - intros [= <- <-]. left. apply consume_q. destruct av; [discriminate|]. exact R.
  - destruct av as [|x l]; [intros [= <- <-]; right; apply consume_q; exact R|].
    cbn [length Nat.eqb]. intros E. apply IH in E; [|exact (q_rb _ _ _ _ (consume_q _ _ _ (length (x :: l)) _ R) B)].
    destruct r; [destruct E as [E|E]; [left|right]|]; (eapply q_trans; [apply consume_q; exact R|exact E]).
Qed.
Lemma land_bit f b : 0 <= b -> Z.land f (2 ^ b) <> 0 <-> Z.testbit f b = true.
Proof.
  intros Hb. split; intros H.
  - destruct (Z.testbit f b) eqn:E; [reflexivity|]. exfalso. apply H. apply Z.bits_inj'. intros n N. rewrite Z.land_spec, Z.bits_0, Z.pow2_bits_eqb by lia.
    destruct (Z.eqb_spec b n); [subst; rewrite E; reflexivity|apply andb_false_r].
  - intros E. assert (X : Z.testbit (Z.land f (2 ^ b)) b = true) by (rewrite Z.land_spec, H, Z.pow2_bits_true by lia; reflexivity). rewrite E, Z.bits_0 in X. discriminate.
Qed.
Lemma err_bit f : err f <-> Z.testbit f 5 = true. Proof. apply (land_bit f 5). lia. Qed.
Lemma eof_bit f : eof f <-> Z.testbit f 4 = true. Proof. apply (land_bit f 4). lia. Qed.
Lemma or_err f : (err (Z.lor f F_ERR) <-> True) /\ (eof (Z.lor f F_ERR) <-> eof f).
Proof. rewrite err_bit, !eof_bit, !Z.lor_spec. change (Z.testbit F_ERR 5) with true. change (Z.testbit F_ERR 4) with false. rewrite orb_true_r, orb_false_r. tauto. Qed.
Lemma or_eof f : (eof (Z.lor f F_EOF) <-> True) /\ (err (Z.lor f F_EOF) <-> err f).
Proof. rewrite !err_bit, !eof_bit, !Z.lor_spec. change (Z.testbit F_EOF 5) with false. change (Z.testbit F_EOF 4) with true. rewrite orb_true_r, orb_false_r. tauto. Qed.
Lemma and_err f : (err (Z.land f F_ERR) <-> err f) /\ ~ eof (Z.land f F_ERR).
Proof. rewrite !err_bit, !eof_bit, !Z.land_spec. change (Z.testbit F_ERR 5) with true. change (Z.testbit F_ERR 4) with false. rewrite andb_true_r, andb_false_r. split; [tauto|discriminate]. Qed.
Lemma and_eof f : (eof (Z.land f F_EOF) <-> eof f) /\ ~ err (Z.land f F_EOF).
Proof. rewrite !err_bit, !eof_bit, !Z.land_spec. change (Z.testbit F_EOF 5) with false. change (Z.testbit F_EOF 4) with true. rewrite andb_true_r, andb_false_r. split; [tauto|discriminate]. Qed.
Lemma good_not (orc : nat -> rres) j : good (orc j) -> orc j <> RErr /\ orc j <> RN 0. Proof. intros (n & E & N). rewrite E. split; congruence. Qed.
Lemma q_tells orc s s' k : q orc s s' k -> tells orc s s'.
Proof.
  intros (_ & I & K). unfold tells. destruct k.
  - destruct K as (R & G & F & Z). rewrite F. split; [|split].
    + split; [auto|]. intros [H|(j & J & E)]; [exact H|]. apply G, good_not in J. destruct J. congruence.
    + auto.
    + intros [H|(j & n & J & E & [->|N])]; [exact H| |specialize (Z N); lia]. apply G, good_not in J. destruct J. congruence.
  - destruct K as (m & R & L & G & O & F & Z). rewrite F. destruct (or_err (flags s)) as [H1 H2]. split; [|split].
    + rewrite H1. split; [|auto]. intros _. right. exists m. split; [lia|exact O].
    + rewrite H2. auto.
    + rewrite H2. intros [H|(j & n & J & E & N)]; [exact H|]. exfalso. rewrite R in J. destruct (Nat.eq_dec j m) as [->|D]; [congruence|].
      destruct N as [->|N]; [|specialize (Z N); lia]. assert (J' : (reads s <= j < m)%nat) by lia. apply G, good_not in J'. destruct J'. congruence.
  - destruct K as (m & n & R & L & G & O & F & N & Z). rewrite F. destruct (or_eof (flags s)) as [H1 H2]. split; [|split].
    + rewrite H2. split; [auto|]. intros [H|(j & J & E)]; [exact H|]. exfalso. rewrite R in J. destruct (Nat.eq_dec j m) as [->|D]; [congruence|].
      assert (J' : (reads s <= j < m)%nat) by lia. apply G, good_not in J'. destruct J'. congruence.
    + intros _. right. exists m, n. split; [lia|auto].
    + intros _. apply H1. exact Logic.I.
Qed.
Lemma tells_same orc s s' : flags s' = flags s -> reads s' = reads s -> tells orc s s'.
Proof. intros F R. unfold tells. rewrite F, R. split; [|split]; [split; [auto|]|auto|]; (intros [H|H]; [exact H|]); [destruct H as (j & J & _)|destruct H as (j & n & J & _)]; lia. Qed.
Lemma exec_tells orc s o s' v : rb s <> Some [] -> i_exec orc s o = Ok (s', v) -> match o with IClearerr | ISetvbuf _ => False | _ => True end -> tells orc s s'.
Proof.
  intros B X O. destruct o as [|size n|c|a| |n|d]; cbn [i_exec] in X; try contradiction.
  - destruct (f_read orc s 1) as [[s1 r]| | |] eqn:R; try discriminate. cbn [bind] in X. apply f_read_q in R; [|lia|exact B]. apply q_tells in R.
    destruct r as [[|x l]|]; injection X as <- _; exact R.
  - destruct (_ || _); [injection X as <- _; apply tells_same; reflexivity|].
    destruct (fread_loop _ _ _ _ _) as [[s1 r]| | |] eqn:R; try discriminate. cbn [bind] in X. apply fread_q in R; [|exact B]. destruct R as [k R]. injection X as <- _. exact (q_tells _ _ _ _ R).
  - injection X as <- _. apply tells_same; reflexivity.
  - destruct (fgets orc s n) as [[[s1 g] r]| | |] eqn:R; try discriminate. cbn [bind] in X. apply fgets_q in R; [|exact B]. destruct R as [k R]. injection X as <- _. exact (q_tells _ _ _ _ R).
  - unfold getdelim in X. destruct (negb (Z.land (flags s) F_EOF =? 0) || negb (Z.land (flags s) F_ERR =? 0)) eqn:Q; [injection X as <- _; apply tells_same; reflexivity|].
    apply orb_false_iff in Q. destruct Q as [Q1 Q2]. apply negb_false_iff, Z.eqb_eq in Q1, Q2.
    destruct (_ || _); [injection X as <- _; apply tells_same; reflexivity|].
    destruct (read_until _ _ _ _ _) as [[s1 r]| | |] eqn:R; try discriminate. cbn [bind] in X. apply read_until_q in R; [|exact B].
    assert (NE : ~ err (flags s)) by (unfold err; rewrite Q2; auto). assert (NF : ~ eof (flags s)) by (unfold eof; rewrite Q1; auto).
    destruct r as [buf|].
    + set (er := match rev buf with [] => true | c :: _ => c =? d end) in X.
      assert (S' : exists f, s' = set_flags s1 f /\ (f = flags s1 \/ f = Z.land (flags s1) F_EOF)).
      { destruct er; cbn [andb] in X; [|injection X as <- _; exists (flags s1); split; [destruct s1; reflexivity|auto]].
        destruct (length buf =? 0)%nat; injection X as <- _; eexists; (split; [reflexivity|auto]). }
      destruct S' as (f & -> & F).
      assert (ER : ~ err (flags s1)).
      { destruct R as [R|R].
        - destruct R as (_ & _ & _ & _ & Y & _). rewrite Y. exact NE.
        - destruct R as (_ & _ & m & n & _ & _ & _ & _ & Y & _). rewrite Y. destruct (or_eof (flags s)) as [_ H]. rewrite H. exact NE. }
      assert (TS : tells orc s s1) by (destruct R as [R|R]; exact (q_tells _ _ _ _ R)).
      destruct F as [-> | ->]; [destruct s1; exact TS|].
      destruct (and_eof (flags s1)) as [A1 A2]. destruct TS as (T1 & T2 & T3). unfold tells. cbn [set_flags flags reads inp]. rewrite A1. split; [|split]; [|exact T2|exact T3].
      split; [contradiction|]. intros H. apply T1 in H. contradiction.
    + injection X as <- _. pose proof (q_tells _ _ _ _ R) as (T1 & T2 & T3). destruct (and_err (flags s1)) as [A1 A2]. unfold tells. cbn [set_flags flags reads inp]. rewrite A1.
      split; [exact T1|]. split; [contradiction|]. intros H. apply T3 in H. exfalso.
      destruct R as (_ & _ & m & _ & _ & _ & _ & Y & _). rewrite Y in H. apply (proj2 (or_err (flags s))) in H. contradiction.
Qed.
Lemma in_tells orc F f pre l s vs o s' v : buffering pre -> ok_ops l -> i_run orc (i_open F f) (pre ++ l) = Ok (s, vs) ->
  match o with IClearerr | ISetvbuf _ => False | _ => True end -> i_exec orc s o = Ok (s', v) -> tells orc s s'.
Proof. intros P L R O X. eapply exec_tells; [|exact X|exact O]. destruct (run_reach _ _ _ _ _ _ _ P L R) as (_ & _ & B). exact B. Qed.
Lemma in_clearerr orc s s' v : i_exec orc s IClearerr = Ok (s', v) -> Z.land (flags s') F_ERR = 0 /\ Z.land (flags s') F_EOF = 0 /\ unread s' = unread s.
Proof.
  cbn [i_exec]. intros [= <- _]. cbn [set_flags flags]. rewrite <- !Z.land_assoc.
  change (Z.land (Z.lnot (Z.lor F_EOF F_ERR)) F_ERR) with 0. change (Z.land (Z.lnot (Z.lor F_EOF F_ERR)) F_EOF) with 0. rewrite Z.land_0_r. auto.
Qed.
