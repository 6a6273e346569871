(* Each operation of Upperfd_model does what Upperfd_spec asks and keeps the invariant. *)
From Coq Require Import ZArith List Bool Lia.
From Verif Require Import Upperfd_spec Upperfd_model Upperfd_proofs.
Import ListNotations.
Open Scope Z_scope.

Definition fine (cap oth : Z) (k : kernel) (t : fdt) (o : op) (r : out) : Prop :=
  match r with
  | Val t' a => does k o a (flags_of t) (active t) (flags_of t') (active t') /\ inv cap (others oth o a) t'
  | Unreach => False
  | Nomem => short cap t o
  end.

Lemma sync_ok k t n : honest k t ->
  match sync_size k t n with
  | inl t' => tab t' = tab t /\ cnt t' = cnt t /\ first t' = first t /\ active t' = active t /\ has t' = has t
              /\ (has t' = true -> n <= kt t')
  | inr e => refused k e
  end.
Proof.
  intros H. unfold sync_size. destruct (has t) eqn:E.
  - destruct (k n) as [e|] eqn:K.
    + destruct (e =? EINVAL) eqn:Q.
      * apply Z.eqb_eq in Q. subst e. do 5 (split; [first [reflexivity|assumption]|]). intros _. apply H, K.
      * apply Z.eqb_neq in Q. split; [exists n; exact K|exact Q].
    + cbn [tab cnt first active has kt]. do 5 (split; [first [reflexivity|assumption]|]). intros _. lia.
  - do 5 (split; [first [reflexivity|assumption]|]). intros Q. congruence.
Qed.
Lemma same_refl u : same u u. Proof. intros d. reflexivity. Qed.

Section Ops.
Variables (cap oth : Z) (k : kernel) (t : fdt).
Hypothesis CAP : cap < 4294967296.
Hypothesis I : inv cap oth t.
Hypothesis HON : honest k t.

Lemma bounds : 0 <= tlen (tab t) <= cap /\ 0 <= nocc (tab t) <= tlen (tab t) /\ cnt t = nocc (tab t)
  /\ active t = oth + nocc (tab t) /\ 0 <= oth <= 65536.
Proof.
  pose proof (tlen_nonneg (tab t)). pose proof (nocc_range (tab t)). pose proof (i_cap _ _ _ I). pose proof (i_cnt _ _ _ I).
  pose proof (i_act _ _ _ I). pose proof (i_oth _ _ _ I). unfold MAXF in *. lia.
Qed.

Lemma insert_fine fl : fine cap oth k t (Insert fl) (insert_upper cap k t fl).
Proof.
  pose proof bounds as (B1 & B2 & B3 & B4 & B5).
  unfold insert_upper. destruct (MAXF <=? active t) eqn:A.
  { apply Z.leb_le in A. split; [|exact I]. right. exists EMFILE.
    split; [reflexivity|]. split; [apply same_refl|]. split; [reflexivity|]. left. split; [reflexivity|exact A]. }
  apply Z.leb_gt in A.
  destruct (i_chain _ _ _ I) as (ks & C & N & F).
  unfold insert. destruct (first t =? MAXF) eqn:E.
  - apply Z.eqb_eq in E. pose proof (sync_ok k t (tlen (tab t) + 1) HON) as S.
    destruct (sync_size k t (tlen (tab t) + 1)) as [t1|e].
    2: { split; [|exact I]. right. exists e. split; [reflexivity|]. split; [apply same_refl|]. split; [reflexivity|]. right. split; [lia|exact S]. }
    destruct S as (S1 & S2 & S3 & S4 & S5 & S6).
    destruct (cap <? tlen (tab t) + 1) eqn:L; [apply Z.ltb_lt in L; exact L|]. apply Z.ltb_ge in L.
    cbn [map]. assert (TG : 0 <= tlen (tab t) < TAG) by (unfold TAG; lia).
    rewrite tagged_add by exact TG.
    rewrite E in C. assert (K0 : ks = []) by (inversion C; congruence). subst ks.
    assert (OC : forall j, occ (tab t ++ [Occ (w32 fl)]) j = if j =? tlen (tab t) then Some (w32 fl) else occ (tab t) j).
    { intros j. unfold occ. rewrite getz_app. destruct (j <? tlen (tab t)) eqn:J.
      - apply Z.ltb_lt in J. destruct (j =? tlen (tab t)) eqn:Q; [apply Z.eqb_eq in Q; lia|reflexivity].
      - apply Z.ltb_ge in J. cbn [getz]. destruct (j - tlen (tab t) =? 0) eqn:Q; destruct (j =? tlen (tab t)) eqn:P;
          rewrite ?Z.eqb_eq, ?Z.eqb_neq in *; try lia; [reflexivity|]. rewrite getz_out by lia. reflexivity. }
    split.
    + left. exists (tlen (tab t) + TAG). split; [reflexivity|]. split; [exact A|]. split; [apply upper_add, TG|].
      split. { rewrite flags_upper by (apply upper_add, TG). apply occ_out. unfold index. lia. }
      split. { apply view_put; [apply upper_add, TG|]. intros j. cbn [tab with_cnt with_tab with_active]. rewrite S1, OC.
        replace (index (tlen (tab t) + TAG)) with (tlen (tab t)) by (unfold index; lia). reflexivity. }
      cbn [active with_cnt with_tab with_active]. rewrite S4. apply w64_id. unfold MAXF in *. lia.
    + cbn [others]. constructor; cbn [tab cnt first active has kt with_cnt with_tab with_active].
      * rewrite S1, tlen_app. change (tlen [Occ (w32 fl)]) with 1. lia.
      * apply (i_oth _ _ _ I).
      * rewrite S1, S2, nocc_app. cbn [nocc]. rewrite w32_id by lia. lia.
      * rewrite S1, S4, nocc_app. cbn [nocc]. rewrite w64_id by lia. lia.
      * intros Q. rewrite S1, tlen_app. change (tlen [Occ (w32 fl)]) with 1. apply S6, Q.
      * exists []. rewrite S3, E. split; [constructor|]. split; [constructor|].
        intros M i Ii O. rewrite S1 in *. rewrite OC in O. rewrite tlen_app in *. change (tlen [Occ (w32 fl)]) with 1 in *.
        destruct (i =? tlen (tab t)) eqn:Q; [discriminate|]. apply Z.eqb_neq in Q. apply F; [lia|lia|exact O].
  - apply Z.eqb_neq in E.
    inversion C as [Q|i nx ks' N1 G C' Q1 Q2]; [congruence|]. subst i ks. rewrite G.
    pose proof (getz_range _ _ _ G) as R. destruct (setz_some (tab t) (first t) (Occ (w32 fl)) R) as [l L]. rewrite L.
    cbn [map]. assert (TG : 0 <= first t < TAG) by (unfold TAG; lia). rewrite tagged_add by exact TG.
    destruct (setz_ok _ _ _ _ L) as (_ & L1 & L2 & L3).
    assert (O0 : occ (tab t) (first t) = None) by (unfold occ; rewrite G; reflexivity). rewrite O0 in L3. cbn [one isocc] in L3.
    pose proof (nocc_range l) as NL.
    assert (IX : index (first t + TAG) = first t) by (unfold index; lia).
    split.
    + left. exists (first t + TAG). split; [reflexivity|]. split; [exact A|]. split; [apply upper_add, TG|].
      split. { rewrite flags_upper by (apply upper_add, TG). rewrite IX. exact O0. }
      split. { apply view_put; [apply upper_add, TG|]. intros j. cbn [tab with_active]. rewrite IX. apply (occ_set _ _ _ _ j L). }
      cbn [active with_active]. apply w64_id. unfold MAXF in *. lia.
    + cbn [others]. inversion N as [|? ? NI N']; subst.
      constructor; cbn [tab cnt first active has kt with_active].
      * lia.
      * apply (i_oth _ _ _ I).
      * rewrite w32_id by lia. lia.
      * rewrite w64_id by lia. lia.
      * intros Q. rewrite L1. apply (i_kt _ _ _ I Q).
      * exists ks'. split.
        { apply chain_ext with (1 := C'). intros x X. rewrite L2. destruct (x =? first t) eqn:Q; [apply Z.eqb_eq in Q; subst; contradiction|reflexivity]. }
        split; [exact N'|]. intros M i Ii O. rewrite L1 in *. rewrite (occ_set _ _ _ _ i L) in O.
        destruct (i =? first t) eqn:Q; [discriminate|]. apply Z.eqb_neq in Q. destruct (F M i Ii O) as [X|X]; [congruence|exact X].
Qed.

Lemma remove_none h : occ (tab t) h = None -> remove t h = None.
Proof. unfold occ, remove. destruct (getz (tab t) h) as [[v|f]|]; [reflexivity|discriminate|reflexivity]. Qed.
Lemma remove_some h f : occ (tab t) h = Some f -> exists t1, remove t h = Some t1
  /\ (forall j, occ (tab t1) j = if j =? h then None else occ (tab t) j)
  /\ active t1 = active t /\ tlen (tab t1) = tlen (tab t) /\ nocc (tab t1) = nocc (tab t) - 1
  /\ has t1 = has t /\ kt t1 = kt t
  /\ inv cap oth (with_active t1 (w64 (active t - 1))).
Proof.
  intros O. pose proof bounds as (B1 & B2 & B3 & B4 & B5). unfold remove.
  assert (G : getz (tab t) h = Some (Occ f)).
  { unfold occ in O. destruct (getz (tab t) h) as [[v|x]|]; try discriminate. cbn in O. congruence. }
  rewrite G. pose proof (getz_range _ _ _ G) as R. destruct (setz_some (tab t) h (Vac (first t)) R) as [l L]. rewrite L.
  destruct (setz_ok _ _ _ _ L) as (_ & L1 & L2 & L3). rewrite O in L3. cbn [one isocc] in L3.
  pose proof (nocc_range l) as NL.
  eexists. split; [reflexivity|]. cbn [tab cnt first active has kt]. split; [intros j; apply (occ_set _ _ _ _ j L)|].
  split; [reflexivity|]. split; [exact L1|]. split; [lia|]. split; [reflexivity|]. split; [reflexivity|].
  destruct (i_chain _ _ _ I) as (ks & C & N & F).
  constructor; cbn [tab cnt first active has kt with_active].
  - lia.
  - apply (i_oth _ _ _ I).
  - rewrite w32_id by lia. lia.
  - rewrite w64_id by lia. lia.
  - intros Q. rewrite L1. apply (i_kt _ _ _ I Q).
  - rewrite (w32_id h) by lia. assert (NK : ~ In h ks).
    { intros K. destruct (chain_vac _ _ _ C h K) as [V _]. rewrite G in V. discriminate. }
    destruct (Z.eq_dec h MAXF) as [->|NM].
    + exists []. split; [constructor|]. split; [constructor|]. intros M. unfold MAXF in *. lia.
    + exists (h :: ks). split.
      { apply chain_cons with (first t); [exact NM|rewrite L2, Z.eqb_refl; reflexivity|].
        apply chain_ext with (1 := C). intros x X. rewrite L2. destruct (x =? h) eqn:Q; [apply Z.eqb_eq in Q; subst; contradiction|reflexivity]. }
      split; [constructor; assumption|]. intros M i Ii OO. rewrite L1 in *. rewrite (occ_set _ _ _ _ i L) in OO.
      destruct (i =? h) eqn:Q; [left; apply Z.eqb_eq in Q; congruence|right; apply F; assumption].
Qed.
Lemma fd_remove_ok d : upper d ->
  let (t1, a) := fd_remove t d in
  inv cap oth t1 /\ has t1 = has t /\ kt t1 = kt t /\ tlen (tab t1) = tlen (tab t)
  /\ (forall j, occ (tab t1) j = if j =? index d then None else occ (tab t) j)
  /\ match occ (tab t) (index d) with
     | Some _ => a = Unit /\ active t1 = active t - 1
     | None => a = Err EBADF /\ t1 = t
     end.
Proof.
  intros U. pose proof bounds as (B1 & B2 & B3 & B4 & B5). unfold fd_remove.
  destruct (upper_index d U) as [S IP]. rewrite S. destruct (occ (tab t) (index d)) as [f|] eqn:O.
  - destruct (remove_some _ _ O) as (t1 & R & R1 & R2 & R3 & R4 & R5 & R6 & R7). rewrite R, R2.
    pose proof (nocc_range (tab t1)) as NR.
    split; [exact R7|]. cbn [has kt tab with_active active]. split; [exact R5|]. split; [exact R6|]. split; [exact R3|].
    split; [exact R1|]. split; [reflexivity|]. apply w64_id. lia.
  - rewrite (remove_none _ O). split; [exact I|]. do 3 (split; [reflexivity|]). split; [|split; reflexivity].
    intros j. destruct (j =? index d) eqn:Q; [apply Z.eqb_eq in Q; congruence|reflexivity].
Qed.
Lemma remove_fine d : upper d -> fine cap oth k t (Remove d) (let (t1, a) := fd_remove t d in Val t1 a).
Proof.
  intros U. pose proof (fd_remove_ok d U) as H. destruct (fd_remove t d) as [t1 a].
  destruct H as (H1 & _ & _ & _ & H2 & H3). split; [|exact H1].
  cbn [does]. rewrite (flags_upper t d U). destruct (occ (tab t) (index d)) eqn:O.
  - destruct H3 as [-> H3]. split; [reflexivity|]. split; [|exact H3]. apply view_put; assumption.
  - destruct H3 as [-> ->]. split; [reflexivity|]. split; [apply same_refl|reflexivity].
Qed.

Lemma get_fine d : upper d -> fine cap oth k t (GetFlags d) (Val t (get_fd_flags t d)).
Proof.
  intros U. split; [|exact I]. split; [apply same_refl|]. split; [reflexivity|].
  rewrite (flags_upper t d U). unfold get_fd_flags, get_flags. destruct (upper_index d U) as [S _]. rewrite S.
  unfold occ, isocc. destruct (getz (tab t) (index d)) as [[v|f]|]; try reflexivity. f_equal.
  unfold cloexec. destruct (Z.land f CLOEXEC =? 0) eqn:E.
  - apply Z.eqb_eq in E. assert (B : Z.testbit (Z.land f CLOEXEC) 24 = false) by (rewrite E; apply Z.bits_0).
    rewrite Z.land_spec in B. change (Z.testbit CLOEXEC 24) with true in B. rewrite andb_true_r in B. rewrite B. reflexivity.
  - destruct (Z.testbit f 24) eqn:B; [reflexivity|]. apply Z.eqb_neq in E. destruct E.
    apply Z.bits_inj'. intros n N. rewrite Z.land_spec, Z.bits_0. change CLOEXEC with (2 ^ 24). rewrite Z.pow2_bits_eqb by lia.
    destruct (24 =? n) eqn:Q; [apply Z.eqb_eq in Q; subst n; rewrite B; reflexivity|apply andb_false_r].
Qed.
Lemma land_cloexec f : (Z.land f CLOEXEC =? 0) = negb (Z.testbit f 24).
Proof.
  destruct (Z.land f CLOEXEC =? 0) eqn:E.
  - apply Z.eqb_eq in E. assert (B : Z.testbit (Z.land f CLOEXEC) 24 = false) by (rewrite E; apply Z.bits_0).
    rewrite Z.land_spec in B. change (Z.testbit CLOEXEC 24) with true in B. rewrite andb_true_r in B. rewrite B. reflexivity.
  - destruct (Z.testbit f 24) eqn:B; [reflexivity|]. apply Z.eqb_neq in E. destruct E.
    apply Z.bits_inj'. intros n N. rewrite Z.land_spec, Z.bits_0. change CLOEXEC with (2 ^ 24). rewrite Z.pow2_bits_eqb by lia.
    destruct (24 =? n) eqn:Q; [apply Z.eqb_eq in Q; subst n; rewrite B; reflexivity|apply andb_false_r].
Qed.
Lemma cloexec_bit n : 0 <= n -> Z.testbit CLOEXEC n = (24 =? n).
Proof. intros H. change CLOEXEC with (2 ^ 24). apply Z.pow2_bits_eqb. lia. Qed.

Lemma occ_inv l i f f' : occ (tab t) i = Some f -> setz (tab t) i (Occ f') = Some l -> inv cap oth (with_tab t l).
Proof.
  intros O L. pose proof bounds as (B1 & B2 & B3 & B4 & B5). destruct (setz_ok _ _ _ _ L) as (_ & L1 & L2 & L3).
  rewrite O in L3. cbn [one isocc] in L3.
  destruct (i_chain _ _ _ I) as (ks & C & N & F).
  constructor; cbn [tab cnt first active has kt with_tab].
  - lia.
  - apply (i_oth _ _ _ I).
  - lia.
  - lia.
  - intros Q. rewrite L1. apply (i_kt _ _ _ I Q).
  - exists ks. split.
    { apply chain_ext with (1 := C). intros x X. rewrite L2. destruct (x =? i) eqn:Q; [|reflexivity]. apply Z.eqb_eq in Q. subst x.
      destruct (chain_vac _ _ _ C i X) as [V _]. unfold occ in O. congruence. }
    split; [exact N|]. intros M j J OO. rewrite L1 in *. rewrite (occ_set _ _ _ _ j L) in OO.
    destruct (j =? i); [discriminate|]. apply F; assumption.
Qed.
Lemma set_fine d raw : upper d -> fine cap oth k t (SetFlags d raw) (set_fd_flags t d raw).
Proof.
  intros U. unfold set_fd_flags, get_flags. destruct (upper_index d U) as [S _]. rewrite S.
  assert (OE : match getz (tab t) (index d) with Some (Occ f) => Some f | _ => None end = occ (tab t) (index d)) by reflexivity.
  rewrite OE. destruct (occ (tab t) (index d)) as [f|] eqn:O.
  2: { split; [|exact I]. cbn [does]. split; [reflexivity|]. rewrite (flags_upper t d U), O. split; [reflexivity|apply same_refl]. }
  assert (R : 0 <= index d < tlen (tab t)).
  { destruct (getz (tab t) (index d)) eqn:G; [apply (getz_range _ _ _ G)|discriminate OE]. }
  set (f' := if Z.land raw CLOEXEC =? 0 then _ else _).
  destruct (setz_some (tab t) (index d) (Occ f') R) as [l L]. rewrite L.
  split; [|cbn [others]; apply occ_inv with (1 := O) (2 := L)].
  cbn [does]. split; [reflexivity|]. rewrite (flags_upper t d U), O. split; [reflexivity|]. exists f'.
  split; [apply view_put; [exact U|]; intros j; cbn [tab with_tab]; apply (occ_set _ _ _ _ j L)|].
  unfold cloexec, f'. rewrite land_cloexec. split.
  - destruct (Z.testbit raw 24); cbn [negb].
    + rewrite Z.lor_spec, cloexec_bit by lia. apply orb_true_r.
    + rewrite Z.ldiff_spec, cloexec_bit by lia. apply andb_false_r.
  - intros b NB. destruct (Z_lt_ge_dec b 0) as [Q|Q]; [rewrite !Z.testbit_neg_r by lia; reflexivity|].
    destruct (Z.testbit raw 24); cbn [negb]; rewrite ?Z.lor_spec, ?Z.ldiff_spec, ?cloexec_bit by lia;
      destruct (24 =? b) eqn:E; try (apply Z.eqb_eq in E; congruence); cbn [negb]; rewrite ?orb_false_r, ?andb_true_r; reflexivity.
Qed.
Lemma other_open_fine : fine cap oth k t OtherOpen (step cap k t OtherOpen).
Proof.
  pose proof bounds as (B1 & B2 & B3 & B4 & B5). cbn [step]. destruct (MAXF <=? active t) eqn:A.
  - apply Z.leb_le in A. split; [|exact I]. split; [apply same_refl|]. right. split; [reflexivity|]. split; [exact A|reflexivity].
  - apply Z.leb_gt in A. unfold MAXF in A. assert (W : w64 (active t + 1) = active t + 1) by (apply w64_id; lia).
    split.
    + split; [apply view_same; reflexivity|]. left. split; [reflexivity|]. split; [exact A|exact W].
    + cbn [others]. destruct I as [X1 X2 X3 X4 X5 X6]. constructor; cbn [tab cnt first active has kt with_active]; try assumption.
      * unfold MAXF. lia.
      * rewrite W. lia.
Qed.
Lemma other_close_fine : 0 < oth -> fine cap oth k t OtherClose (step cap k t OtherClose).
Proof.
  intros P. pose proof bounds as (B1 & B2 & B3 & B4 & B5). cbn [step].
  assert (W : w64 (active t - 1) = active t - 1) by (apply w64_id; lia). split.
  - split; [apply view_same; reflexivity|]. split; [reflexivity|exact W].
  - cbn [others]. destruct I as [X1 X2 X3 X4 X5 X6]. constructor; cbn [tab cnt first active has kt with_active]; try assumption.
    + unfold MAXF. lia.
    + rewrite W. lia.
Qed.

(* writing into vacant slots *)
Lemma write_ok : forall is l f, NoDup is -> (forall i, In i is -> 0 <= i < tlen l /\ occ l i = None) ->
  exists l', write l is f = Some l' /\ tlen l' = tlen l /\ nocc l' = nocc l + size is
    /\ (forall j, occ l' j = if existsb (Z.eqb j) is then Some f else occ l j).
Proof.
  induction is as [|i is IH]; intros l f N H.
  - exists l. split; [reflexivity|]. split; [reflexivity|]. split; [change (size []) with 0; lia|reflexivity].
  - inversion N as [|? ? NI N']; subst. destruct (H i (or_introl eq_refl)) as [R O].
    cbn [write]. destruct (setz_some l i (Occ f) R) as [l1 L]. rewrite L. destruct (setz_ok _ _ _ _ L) as (_ & L1 & L2 & L3).
    rewrite O in L3. cbn [one isocc] in L3.
    destruct (IH l1 f N') as (l' & W & W1 & W2 & W3).
    { intros x X. destruct (H x (or_intror X)) as [Rx Ox]. rewrite L1. split; [exact Rx|]. rewrite (occ_set _ _ _ _ x L).
      destruct (x =? i) eqn:Q; [apply Z.eqb_eq in Q; subst; contradiction|exact Ox]. }
    exists l'. split; [exact W|]. split; [lia|]. split.
    { rewrite W2, L3. unfold size. cbn [length]. lia. }
    intros j. rewrite W3. cbn [existsb]. destruct (existsb (Z.eqb j) is); [rewrite orb_true_r; reflexivity|]. rewrite orb_false_r.
    apply (occ_set _ _ _ _ j L).
Qed.
(* the end of bulk_insert and bulk_insert_manual *)
Lemma placed t1 is f n : tlen (tab t) <= tlen (tab t1) <= cap -> (forall j, occ (tab t1) j = occ (tab t) j) ->
  nocc (tab t1) = nocc (tab t) -> cnt t1 = cnt t -> active t1 = active t -> has t1 = has t ->
  (has t = true -> tlen (tab t1) <= kt t1) ->
  NoDup is -> (forall i, In i is -> 0 <= i < tlen (tab t1) /\ occ (tab t) i = None) -> n = size is -> n <= 65536 ->
  exists l, write (tab t1) is f = Some l /\
  let t2 := with_active (rebuild_free_list (with_cnt (with_tab t1 l) (w32 (cnt t1 + w32 n)))) (w64 (active t1 + n)) in
  active (rebuild_free_list (with_cnt (with_tab t1 l) (w32 (cnt t1 + w32 n)))) = active t1 /\
  inv cap oth t2 /\ active t2 = active t + n
  /\ (forall j, occ (tab t2) j = if existsb (Z.eqb j) is then Some f else occ (tab t) j).
Proof.
  intros H1 H2 H3 H4 H5 H6 H7 N H8 E EN. pose proof bounds as (B1 & B2 & B3 & B4 & B5).
  destruct (write_ok is (tab t1) f N) as (l & W & W1 & W2 & W3).
  { intros i Ii. rewrite H2. apply H8, Ii. }
  exists l. split; [exact W|]. cbn zeta.
  set (t3 := with_cnt (with_tab t1 l) (w32 (cnt t1 + w32 n))).
  assert (T3 : tab t3 = l) by reflexivity.
  destruct (rebuild_tab t3 ltac:(rewrite T3; lia)) as (A1 & A2 & A3 & A4 & A5 & A6 & A7 & A8). rewrite T3 in *.
  assert (NL := nocc_range l). assert (NN : 0 <= n) by (subst n; unfold size; lia).
  assert (AC : active (rebuild_free_list t3) = active t1) by (rewrite A5; reflexivity).
  split; [exact AC|]. split; [|split].
  - constructor; cbn [tab cnt first active has kt with_active].
    + lia.
    + apply (i_oth _ _ _ I).
    + rewrite A4, A2. unfold t3. cbn [cnt with_cnt with_tab]. rewrite (w32_id n) by (clear - NN EN; lia). rewrite w32_id by lia. lia.
    + rewrite A2, H5. rewrite w64_id by lia. lia.
    + rewrite A6, A7, A1. unfold t3. cbn [has kt with_cnt with_tab]. intros Q. rewrite W1. apply H7. congruence.
    + exact A8.
  - cbn [active with_active]. rewrite H5. apply w64_id. lia.
  - intros j. cbn [tab with_active]. rewrite A3, W3, H2. reflexivity.
Qed.

(* growing the table: what a successful sync_size and resize leave *)
Lemma grown n t1 : tlen (tab t) <= n -> sync_size k t n = inl t1 ->
  match resize cap t1 n with
  | None => cap < n
  | Some t2 => n <= cap /\ tlen (tab t2) = n /\ (forall j, occ (tab t2) j = occ (tab t) j) /\ nocc (tab t2) = nocc (tab t)
      /\ cnt t2 = cnt t /\ active t2 = active t /\ has t2 = has t /\ (has t = true -> tlen (tab t2) <= kt t2)
  end.
Proof.
  intros L S. pose proof (sync_ok k t n HON) as Q. rewrite S in Q. destruct Q as (S1 & S2 & S3 & S4 & S5 & S6).
  destruct (resize cap t1 n) as [t2|] eqn:R.
  - apply resize_ok in R; [|exact CAP|rewrite S1; exact L]. destruct R as (R1 & R2 & R3 & R4 & R5 & R6 & R7 & R8 & _).
    rewrite S1 in *. split; [exact R1|]. split; [exact R2|]. split; [exact R4|]. split; [exact R3|].
    split; [congruence|]. split; [congruence|]. split; [congruence|]. intros Q. rewrite R8, R2. apply S6. congruence.
  - unfold resize in R. destruct (cap <? n) eqn:E; [apply Z.ltb_lt in E; exact E|discriminate].
Qed.
End Ops.
