(* The operations of Upperfd_model that place a descriptor at a given slot or several at once. *)
From Coq Require Import ZArith List Bool Lia.
From Verif Require Import Upperfd_spec Upperfd_model Upperfd_proofs Upperfd_proofs2.
Import ListNotations.
Open Scope Z_scope.

(* insert_at *)
Lemma insert_at_ok cap oth k t d f : cap < 4294967296 -> inv cap oth t -> honest k t -> upper d ->
  occ (tab t) (index d) = None ->
  match insert_at cap k t (index d) f with
  | Unreach => False
  | Nomem => cap <= index d
  | Val t' (Fds _) => inv cap oth (with_active t' (w64 (active t' + 1))) /\ active t' = active t /\ w64 (active t + 1) = active t + 1
      /\ (forall j, occ (tab t') j = if j =? index d then Some f else occ (tab t) j)
  | Val t' (Err e) => refused k e /\ t' = t
  | Val _ _ => False
  end.
Proof.
  intros CAP I HON U O. pose proof (bounds cap oth t I) as (B1 & B2 & B3 & B4 & B5).
  destruct (upper_index d U) as [_ IP].
  assert (W : w64 (active t + 1) = active t + 1) by (apply w64_id; lia).
  assert (PL : forall t1, tlen (tab t) <= tlen (tab t1) <= cap -> (forall j, occ (tab t1) j = occ (tab t) j) ->
    nocc (tab t1) = nocc (tab t) -> cnt t1 = cnt t -> active t1 = active t -> has t1 = has t ->
    (has t = true -> tlen (tab t1) <= kt t1) -> 0 <= index d < tlen (tab t1) ->
    exists v l, getz (tab t1) (index d) = Some (Vac v) /\ setz (tab t1) (index d) (Occ f) = Some l
      /\ let t' := rebuild_free_list (with_cnt (with_tab t1 l) (w32 (cnt t1 + 1))) in
         inv cap oth (with_active t' (w64 (active t' + 1))) /\ active t' = active t /\ w64 (active t + 1) = active t + 1
         /\ (forall j, occ (tab t') j = if j =? index d then Some f else occ (tab t) j)).
  { intros t1 H1 H2 H3 H4 H5 H6 H7 R.
    destruct (getz_some _ _ R) as [e G]. pose proof (H2 (index d)) as Q. rewrite O in Q. unfold occ in Q. rewrite G in Q.
    destruct e as [v|x]; [|discriminate Q]. exists v.
    destruct (placed cap oth t CAP I t1 [index d] f 1 H1 H2 H3 H4 H5 H6 H7) as (l & L & M).
    { constructor; [intros []|constructor]. }
    { intros i [<-|[]]. split; [exact R|exact O]. }
    { reflexivity. }
    { lia. }
    cbn [write] in L. destruct (setz (tab t1) (index d) (Occ f)) as [l1|] eqn:S; [|discriminate]. injection L as ->.
    exists l. split; [exact G|]. split; [reflexivity|]. cbn zeta in M |- *. change (w32 1) with 1 in M.
    destruct M as (M1 & M2 & M3 & M4). rewrite M1. split; [exact M2|]. split; [exact H5|]. split; [exact W|].
    intros j. rewrite <- (orb_false_r (j =? index d)). exact (M4 j). }
  unfold insert_at. destruct (tlen (tab t) <=? index d) eqn:E.
  - apply Z.leb_le in E. pose proof (sync_ok k t (index d + 1) HON) as S.
    destruct (sync_size k t (index d + 1)) as [t1|e] eqn:SY; [|split; [exact S|reflexivity]].
    pose proof (grown cap k t CAP HON (index d + 1) t1 ltac:(lia) SY) as GR.
    destruct (resize cap t1 (index d + 1)) as [t2|]; [|lia].
    destruct GR as (G1 & G2 & G3 & G4 & G5 & G6 & G7 & G8).
    destruct (PL t2 ltac:(lia) G3 G4 G5 G6 G7 G8 ltac:(lia)) as (v & l & P1 & P2 & P3). rewrite P1, P2. exact P3.
  - apply Z.leb_gt in E.
    destruct (PL t ltac:(lia) (fun j => eq_refl) eq_refl eq_refl eq_refl eq_refl (i_kt _ _ _ I) ltac:(lia)) as (v & l & P1 & P2 & P3).
    rewrite P1, P2. exact P3.
Qed.
Lemma override_fine cap oth k t d : cap < 4294967296 -> inv cap oth t -> honest k t -> upper d ->
  fine cap oth k t (Override d) (override_at cap k t d).
Proof.
  intros CAP I HON U. unfold override_at. pose proof (fd_remove_ok cap oth t CAP I d U) as R.
  destruct (fd_remove t d) as [t1 a]. cbn [fst]. destruct R as (R1 & R2 & R3 & R4 & R5 & R6).
  destruct (upper_index d U) as [S IP]. rewrite S.
  assert (HON1 : honest k t1) by (intros n N; rewrite R3; apply HON, N).
  pose proof (insert_at_ok cap oth k t1 d 0 CAP R1 HON1 U) as P. rewrite R5, Z.eqb_refl in P. specialize (P eq_refl).
  destruct (insert_at cap k t1 (index d) 0) as [t2 [ds|f| |e]| |] eqn:IA; try contradiction; [| |exact P].
  - destruct P as (P1 & P2 & P3 & P4). split; [|exact P1]. cbn [does]. left. split; [reflexivity|]. split.
    + apply view_put; [exact U|]. intros j. cbn [tab with_active]. rewrite P4, R5. destruct (j =? index d); reflexivity.
    + cbn [active with_active]. rewrite P2, P3, (flags_upper t d U). destruct (occ (tab t) (index d)).
      * destruct R6 as [_ R6]. lia.
      * destruct R6 as [_ R6]. subst t1. reflexivity.
  - destruct P as [P1 ->]. destruct (occ (tab t) (index d)) as [f|] eqn:O.
    + (* a descriptor in use has a slot already *)
      exfalso. destruct (getz (tab t) (index d)) as [x|] eqn:G; [|unfold occ in O; rewrite G in O; discriminate].
      apply getz_range in G. unfold insert_at in IA.
      destruct (tlen (tab t1) <=? index d) eqn:Q; [apply Z.leb_le in Q; lia|].
      destruct (getz (tab t1) (index d)) as [[v|v]|]; destruct (setz (tab t1) (index d) (Occ 0)); discriminate.
    + destruct R6 as [_ R6]. subst t1. split; [|exact I]. cbn [does]. right. exists e. split; [reflexivity|]. split; [exact P1|].
      split; [rewrite (flags_upper t d U); exact O|]. split; [apply same_refl|reflexivity].
Qed.

(* find_free_block *)
Lemma free_block_ok : forall l0 l i start count n, 0 < n -> 0 <= i -> (forall j, 0 <= j -> getz l j = getz l0 (i + j)) ->
  i + tlen l = tlen l0 -> 0 <= count < n -> (0 < count -> 0 <= start /\ start + count = i /\ forall j, start <= j < i -> occ l0 j = None) ->
  let b := free_block l i start count n in
  0 <= b <= tlen l0 /\ forall j, b <= j < b + n -> occ l0 j = None.
Proof.
  intros l0. induction l as [|e l IH]; intros i start count n N I G T C ST.
  - cbn [free_block]. change (tlen []) with 0 in T. destruct (count =? 0) eqn:Q.
    + split; [lia|]. intros j J. apply occ_out. lia.
    + apply Z.eqb_neq in Q. destruct (ST ltac:(lia)) as (S1 & S2 & S3). split; [lia|]. intros j J.
      destruct (Z_lt_ge_dec j i); [apply S3; lia|apply occ_out; lia].
  - pose proof (G 0 ltac:(lia)) as G0. cbn [getz] in G0. change (0 =? 0) with true in G0. replace (i + 0) with i in G0 by lia.
    rewrite tlen_cons in T.
    assert (G' : forall j, 0 <= j -> getz l j = getz l0 (i + 1 + j)).
    { intros j J. replace (i + 1 + j) with (i + (j + 1)) by lia. rewrite <- G by lia. cbn [getz].
      destruct (j + 1 =? 0) eqn:Q; [apply Z.eqb_eq in Q; lia|]. f_equal; lia. }
    cbn [free_block]. destruct e as [v|f].
    + assert (OI : occ l0 i = None) by (unfold occ; rewrite <- G0; reflexivity).
      set (s := if count =? 0 then i else start).
      assert (SS : 0 <= s /\ s + count = i /\ forall j, s <= j < i + 1 -> occ l0 j = None).
      { unfold s. destruct (count =? 0) eqn:Q.
        - apply Z.eqb_eq in Q. split; [lia|]. split; [lia|]. intros j J. replace j with i by lia. exact OI.
        - apply Z.eqb_neq in Q. destruct (ST ltac:(lia)) as (S1 & S2 & S3). split; [lia|]. split; [lia|]. intros j J.
          destruct (Z.eq_dec j i) as [->|]; [exact OI|apply S3; lia]. }
      destruct SS as (S1 & S2 & S3). destruct (count + 1 =? n) eqn:Q.
      * apply Z.eqb_eq in Q. pose proof (tlen_nonneg l). split; [lia|]. intros j J. apply S3. lia.
      * apply Z.eqb_neq in Q. apply IH; [exact N|lia|exact G'|lia|lia|]. intros _. split; [lia|]. split; [lia|]. intros j J. apply S3. lia.
    + apply IH; [exact N|lia|exact G'|lia|lia|]. intros Q. lia.
Qed.
Lemma from_nth : forall n s i, (i < n)%nat -> nth_error (from s n) i = Some (s + Z.of_nat i).
Proof.
  induction n as [|n IH]; intros s i H; [lia|]. cbn [from]. destruct i as [|i]; [cbn [nth_error]; f_equal; lia|].
  cbn [nth_error]. rewrite IH by lia. f_equal. lia.
Qed.
Lemma from_in : forall n s x, In x (from s n) <-> s <= x < s + Z.of_nat n.
Proof.
  induction n as [|n IH]; intros s x; [cbn; lia|]. cbn [from In]. rewrite IH. lia.
Qed.
Lemma from_nodup : forall n s, NoDup (from s n).
Proof.
  induction n as [|n IH]; intros s; cbn [from]; constructor; [rewrite from_in; lia|apply IH].
Qed.
Lemma from_length : forall n s, length (from s n) = n.
Proof. induction n as [|n IH]; intros s; cbn [from length]; [reflexivity|rewrite IH; reflexivity]. Qed.
Lemma size_cons x l : size (x :: l) = size l + 1. Proof. unfold size. cbn [length]. lia. Qed.
Lemma size_map {A} (f : A -> Z) l : size (map f l) = Z.of_nat (length l). Proof. unfold size. rewrite map_length. reflexivity. Qed.

Lemma bulk_add_fine cap oth k t r fl : cap < 4294967296 -> inv cap oth t -> honest k t ->
  let fds := 2 ^ 64 - 1 :: r in
  fine cap oth k t (Bulk fds fl) (bulk_add cap k t (size fds) fl).
Proof.
  intros CAP I HON fds. pose proof (bounds cap oth t I) as (B1 & B2 & B3 & B4 & B5).
  assert (NP : 0 < size fds) by (unfold fds, size; cbn [length]; lia).
  set (n := size fds) in *. unfold bulk_add.
  assert (NE : n =? 0 = false) by (apply Z.eqb_neq; lia). rewrite NE.
  assert (FAIL : forall e, (e = EMFILE /\ MAXF < active t + n) \/ (active t + n <= MAXF /\ refused k e) ->
    fine cap oth k t (Bulk fds fl) (Val t (Err e))).
  { intros e E. split; [|exact I]. unfold fds, does. rewrite Z.eqb_refl. right. exists e.
    split; [reflexivity|]. split; [apply same_refl|]. split; [reflexivity|exact E]. }
  destruct (MAXF <? active t + n) eqn:A.
  { apply Z.ltb_lt in A. apply FAIL. left. split; [reflexivity|exact A]. }
  apply Z.ltb_ge in A. assert (MX : MAXF = 65536) by reflexivity. unfold bulk_insert. rewrite NE.
  destruct (MAXF <? cnt t + n) eqn:A'; [apply Z.ltb_lt in A'; lia|].
  set (b := find_free_block t n).
  pose proof (free_block_ok (tab t) (tab t) 0 0 0 n NP ltac:(lia) (fun j _ => eq_refl) ltac:(lia) ltac:(lia) ltac:(lia)) as FB.
  cbn zeta in FB. change (free_block (tab t) 0 0 0 n) with b in FB. destruct FB as [FB1 FB2].
  set (new := if tlen (tab t) <? b + n then b + n else tlen (tab t)).
  assert (NW : tlen (tab t) <= new /\ b + n <= new /\ (new <> tlen (tab t) -> new = b + n)).
  { unfold new. destruct (tlen (tab t) <? b + n) eqn:Q; rewrite ?Z.ltb_lt, ?Z.ltb_ge in Q; lia. }
  assert (PL : forall t1, tlen (tab t1) = new -> new <= cap -> (forall j, occ (tab t1) j = occ (tab t) j) ->
    nocc (tab t1) = nocc (tab t) -> cnt t1 = cnt t -> active t1 = active t -> has t1 = has t ->
    (has t = true -> tlen (tab t1) <= kt t1) ->
    fine cap oth k t (Bulk fds fl)
     (match (let is := from b (Z.to_nat n) in
        match write (tab t1) is (w32 fl) with
        | Some l => Val (rebuild_free_list (with_cnt (with_tab t1 l) (w32 (cnt t1 + w32 n)))) (Fds is)
        | None => Unreach
        end) with
      | Val t (Fds hs) => Val (with_active t (w64 (active t + n))) (Fds (map tagged hs))
      | r => r
      end)).
  { intros t1 H0 H1 H2 H3 H4 H5 H6 H7. cbn zeta.
    destruct (placed cap oth t CAP I t1 (from b (Z.to_nat n)) (w32 fl) n ltac:(lia) H2 H3 H4 H5 H6 H7) as (l & L & M).
    { apply from_nodup. }
    { intros i Ii. apply from_in in Ii. split; [lia|]. apply FB2. lia. }
    { unfold size. rewrite from_length. lia. }
    { lia. }
    rewrite L. cbn zeta in M. destruct M as (M1 & M2 & M3 & M4). rewrite M1.
    assert (TG : forall i, In i (from b (Z.to_nat n)) -> 0 <= i < TAG).
    { intros i Ii. apply from_in in Ii. unfold TAG. lia. }
    assert (MT : map tagged (from b (Z.to_nat n)) = from (b + TAG) (Z.to_nat n)).
    { revert TG. generalize b. clear. induction (Z.to_nat n) as [|m IH]; intros b TG; [reflexivity|]. cbn [from map]. f_equal.
      - apply tagged_add, TG. left. reflexivity.
      - rewrite IH; [f_equal; lia|]. intros i Ii. apply TG. right. exact Ii. }
    rewrite MT. assert (UP : forall i, 0 <= i < n -> upper (b + TAG + i)).
    { intros i Ii. replace (b + TAG + i) with (b + i + TAG) by lia. apply upper_add, TG, from_in. lia. }
    split; [|exact M2]. unfold fds, does. rewrite Z.eqb_refl. fold fds. fold n. left. exists (b + TAG), (from (b + TAG) (Z.to_nat n)).
    split; [reflexivity|]. split; [unfold size at 1; rewrite from_length; lia|]. split; [exact A|]. split; [|split].
    - intros i Ii. split; [|split].
      + rewrite from_nth by lia. f_equal. lia.
      + apply UP, Ii.
      + rewrite flags_upper by (apply UP, Ii). unfold index. apply FB2. lia.
    - apply view_put_all.
      + intros d D. apply from_in in D. replace d with (b + TAG + (d - b - TAG)) by lia. apply UP. lia.
      + intros j. rewrite M4. replace (map index (from (b + TAG) (Z.to_nat n))) with (from b (Z.to_nat n)); [reflexivity|].
        generalize b. clear. induction (Z.to_nat n) as [|m IH]; intros b; [reflexivity|]. cbn [from map]. f_equal; [unfold index; lia|].
        rewrite (IH (b + 1)). f_equal. f_equal. lia.
    - rewrite M3. lia. }
  destruct (tlen (tab t) =? new) eqn:Q.
  - apply Z.eqb_eq in Q. apply (PL t Q ltac:(lia) (fun j => eq_refl) eq_refl eq_refl eq_refl eq_refl (i_kt _ _ _ I)).
  - apply Z.eqb_neq in Q. pose proof (sync_ok k t new HON) as S. destruct (sync_size k t new) as [t1|e] eqn:SY.
    + pose proof (grown cap k t CAP HON new t1 ltac:(lia) SY) as GR. destruct (resize cap t1 new) as [t2|].
      * destruct GR as (G1 & G2 & G3 & G4 & G5 & G6 & G7 & G8). exact (PL t2 G2 G1 G3 G4 G5 G6 G7 G8).
      * unfold fine, short, fds. rewrite Z.eqb_refl. fold fds. fold n. lia.
    + apply FAIL. right. split; [exact A|exact S].
Qed.

(* naming the slots *)
Lemma validate_ok l : forall hs seen,
  match validate_free l seen hs with
  | None => NoDup (map strip_tags hs) /\ (forall x, In x seen -> ~ In x (map strip_tags hs))
            /\ (forall h, In h (map strip_tags hs) -> h < MAXF /\ occ l h = None)
  | Some e => (e = EMFILE /\ exists h, In h (map strip_tags hs) /\ MAXF <= h)
              \/ (e = EBADF /\ (~ NoDup (map strip_tags hs) \/ exists x, In x seen /\ In x (map strip_tags hs)))
              \/ (e = EEXIST /\ exists h, In h (map strip_tags hs) /\ occ l h <> None)
  end.
Proof.
  induction hs as [|h hs IH]; intros seen.
  - cbn [validate_free map]. split; [constructor|]. split; [intros x _ []|intros h []].
  - cbn [validate_free map]. destruct (MAXF <=? strip_tags h) eqn:A.
    { apply Z.leb_le in A. left. split; [reflexivity|]. exists (strip_tags h). split; [left; reflexivity|exact A]. }
    apply Z.leb_gt in A. destruct (existsb (Z.eqb (strip_tags h)) seen) eqn:E.
    { apply existsb_exists in E. destruct E as (x & X & Y). apply Z.eqb_eq in Y. right. left. split; [reflexivity|]. right.
      exists x. split; [exact X|left; exact Y]. }
    assert (NS : ~ In (strip_tags h) seen).
    { intros Q. assert (existsb (Z.eqb (strip_tags h)) seen = true) by (apply existsb_exists; exists (strip_tags h); split; [exact Q|apply Z.eqb_refl]). congruence. }
    assert (CONT : occ l (strip_tags h) = None ->
      match validate_free l (strip_tags h :: seen) hs with
      | None => NoDup (strip_tags h :: map strip_tags hs) /\ (forall x, In x seen -> ~ In x (strip_tags h :: map strip_tags hs))
            /\ (forall x, In x (strip_tags h :: map strip_tags hs) -> x < MAXF /\ occ l x = None)
      | Some e => (e = EMFILE /\ exists x, In x (strip_tags h :: map strip_tags hs) /\ MAXF <= x)
              \/ (e = EBADF /\ (~ NoDup (strip_tags h :: map strip_tags hs) \/ exists x, In x seen /\ In x (strip_tags h :: map strip_tags hs)))
              \/ (e = EEXIST /\ exists x, In x (strip_tags h :: map strip_tags hs) /\ occ l x <> None)
      end).
    { intros O. specialize (IH (strip_tags h :: seen)). destruct (validate_free l (strip_tags h :: seen) hs) as [e|].
      - destruct IH as [(E1 & x & X & Y)|[(E1 & [X|(x & X & Y)])|(E1 & x & X & Y)]].
        + left. split; [exact E1|]. exists x. split; [right; exact X|exact Y].
        + right. left. split; [exact E1|]. left. intros N. inversion N. contradiction.
        + right. left. split; [exact E1|]. destruct X as [<-|X].
          * left. intros N. inversion N. contradiction.
          * right. exists x. split; [exact X|right; exact Y].
        + right. right. split; [exact E1|]. exists x. split; [right; exact X|exact Y].
      - destruct IH as (N & S & H). split; [|split].
        + constructor; [|exact N]. apply S. left. reflexivity.
        + intros x X [Y|Y]; [subst x; contradiction|]. apply (S x); [right; exact X|exact Y].
        + intros x [<-|X]; [split; assumption|apply H, X]. }
    destruct (getz l (strip_tags h)) as [[v|f]|] eqn:G.
    + apply CONT. unfold occ. rewrite G. reflexivity.
    + right. right. split; [reflexivity|]. exists (strip_tags h). split; [left; reflexivity|]. unfold occ. rewrite G. discriminate.
    + apply CONT. unfold occ. rewrite G. reflexivity.
Qed.
Lemma maximum_ge l x : In x l -> x <= maximum l.
Proof. induction l as [|y l IH]; intros H; [destruct H|]. unfold maximum in *. cbn [fold_right]. destruct H as [->|H]; [lia|apply IH in H; lia]. Qed.
Lemma maximum_in l : l <> [] -> (forall x, In x l -> 0 <= x) -> In (maximum l) l.
Proof.
  induction l as [|y l IH]; intros N H; [congruence|]. unfold maximum in *. cbn [fold_right].
  destruct l as [|z l]; [left; cbn; specialize (H y (or_introl eq_refl)); lia|].
  specialize (IH ltac:(discriminate) (fun x X => H x (or_intror X))).
  destruct (Z_le_gt_dec y (fold_right Z.max 0 (z :: l))) as [L|L].
  - right. rewrite Z.max_r by lia. exact IH.
  - left. rewrite Z.max_l by lia. reflexivity.
Qed.
Lemma map_index_named fds : (forall d, In d fds -> 0 <= d < 2 ^ 64) -> map index (map named fds) = map strip_tags fds.
Proof.
  intros H. rewrite map_map. apply map_ext_in. intros d D. apply (named_index d (H d D)).
Qed.
Lemma nodup_index ds : NoDup (map index ds) <-> NoDup ds.
Proof.
  split; [apply NoDup_map_inv|]. intros N. induction N as [|d ds NI N IH]; cbn [map]; constructor; [|exact IH].
  intros Q. apply in_map_iff in Q. destruct Q as (x & X & Y). apply index_inj in X. subst x. contradiction.
Qed.

Lemma bulk_manual_fine cap oth k t d r fl : cap < 4294967296 -> inv cap oth t -> honest k t ->
  let fds := d :: r in (forall x, In x fds -> 0 <= x < 2 ^ 64) ->
  fine cap oth k t (Bulk fds fl) (fd_bulk_insert cap k t fds fl).
Proof.
  intros CAP I HON fds PR. pose proof (bounds cap oth t I) as (B1 & B2 & B3 & B4 & B5).
  unfold fd_bulk_insert, fds. change 18446744073709551615 with (2 ^ 64 - 1). destruct (d =? 2 ^ 64 - 1) eqn:AU.
  { apply Z.eqb_eq in AU. subst d. apply bulk_add_fine; assumption. }
  fold fds. set (n := size fds).
  assert (NP : 0 < n) by (unfold n, fds, size; cbn [length]; lia).
  set (ds := map named fds). assert (MI : map index ds = map strip_tags fds) by (apply map_index_named, PR).
  assert (HN : forall x, In x ds -> 0 <= index x /\ In (index x) (map strip_tags fds) /\ (index x < TAG -> upper x)).
  { intros x X. split; [|split].
    - apply in_map_iff in X. destruct X as (y & Y & Z). subst x. destruct (named_index y (PR y Z)) as (E & P & _). lia.
    - rewrite <- MI. apply in_map, X.
    - apply in_map_iff in X. destruct X as (y & Y & Z). subst x. destruct (named_index y (PR y Z)) as (E & _ & P). rewrite E. exact P. }
  assert (HS : forall h, In h (map strip_tags fds) -> exists x, In x ds /\ index x = h).
  { intros h H. rewrite <- MI in H. apply in_map_iff in H. destruct H as (x & X & Y). exists x. split; assumption. }
  assert (FL : forall x, In x ds -> index x < MAXF -> flags_of t x = occ (tab t) (index x)).
  { intros x X L. apply flags_upper. destruct (HN x X) as (_ & _ & U). apply U. unfold MAXF, TAG in *. lia. }
  assert (FAIL : forall e,
      (e = EMFILE /\ (MAXF < active t + n \/ exists x, In x ds /\ MAXF <= index x))
      \/ (e = EBADF /\ ~ NoDup ds)
      \/ (e = EEXIST /\ exists x, In x ds /\ flags_of t x <> None)
      \/ ((active t + n <= MAXF /\ NoDup ds /\ (forall x, In x ds -> index x < MAXF /\ flags_of t x = None)) /\ refused k e) ->
    fine cap oth k t (Bulk fds fl) (Val t (Err e))).
  { intros e E. split; [|exact I]. unfold fds, does. rewrite AU. fold fds. fold n. fold ds. right. exists e.
    split; [reflexivity|]. split; [apply same_refl|]. split; [reflexivity|exact E]. }
  assert (MX : MAXF = 65536) by reflexivity.
  destruct (MAXF <? active t + n) eqn:A.
  { apply Z.ltb_lt in A. apply FAIL. left. split; [reflexivity|left; exact A]. }
  apply Z.ltb_ge in A. unfold bulk_insert_manual. fold n.
  assert (NE : n =? 0 = false) by (apply Z.eqb_neq; lia). rewrite NE.
  destruct (MAXF <? cnt t + n) eqn:A'; [apply Z.ltb_lt in A'; lia|]. clear A'.
  pose proof (validate_ok (tab t) fds []) as V. destruct (validate_free (tab t) [] fds) as [e|].
  { apply FAIL. destruct V as [(E & h & H & L)|[(E & [N|(x & [] & _)])|(E & h & H & O)]].
    - left. split; [exact E|]. right. destruct (HS h H) as (x & X & Y). exists x. split; [exact X|lia].
    - right. left. split; [exact E|]. rewrite <- MI in N. rewrite nodup_index in N. exact N.
    - right. right. left. split; [exact E|]. destruct (HS h H) as (x & X & Y). exists x. split; [exact X|].
      destruct (getz (tab t) h) as [en|] eqn:G; [|unfold occ in O; rewrite G in O; destruct (O eq_refl)].
      apply getz_range in G. rewrite flags_upper; [rewrite Y; exact O|]. apply (HN x X). unfold TAG. lia. }
  destruct V as (VN & _ & VH).
  assert (ND : NoDup ds) by (apply nodup_index; rewrite MI; exact VN).
  assert (GOOD : forall x, In x ds -> index x < MAXF /\ flags_of t x = None).
  { intros x X. destruct (HN x X) as (_ & J & _). destruct (VH _ J) as [L O]. split; [exact L|]. rewrite FL by assumption. exact O. }
  set (is := map strip_tags fds) in *. set (m := maximum is).
  assert (ISP : forall h, In h is -> 0 <= h).
  { intros h H. destruct (HS h H) as (x & X & <-). apply (HN x X). }
  assert (MIN : In m is) by (apply maximum_in; [unfold is, fds; discriminate|exact ISP]).
  destruct (VH m MIN) as [ML MO].
  assert (PL : forall t1, tlen (tab t) <= tlen (tab t1) <= cap -> m < tlen (tab t1) -> (forall j, occ (tab t1) j = occ (tab t) j) ->
    nocc (tab t1) = nocc (tab t) -> cnt t1 = cnt t -> active t1 = active t -> has t1 = has t ->
    (has t = true -> tlen (tab t1) <= kt t1) ->
    fine cap oth k t (Bulk fds fl)
     (match (match write (tab t1) is (w32 fl) with
        | Some l => Val (rebuild_free_list (with_cnt (with_tab t1 l) (w32 (cnt t1 + w32 n)))) (Fds fds)
        | None => Unreach
        end) with
      | Val t (Fds hs) => Val (with_active t (w64 (active t + n))) (Fds hs)
      | r => r
      end)).
  { intros t1 H0 H1 H2 H3 H4 H5 H6 H7.
    destruct (placed cap oth t CAP I t1 is (w32 fl) n ltac:(lia) H2 H3 H4 H5 H6 H7 VN) as (l & L & M).
    { intros i Ii. pose proof (ISP i Ii). pose proof (maximum_ge is i Ii). fold m in H8. split; [lia|]. apply VH, Ii. }
    { unfold n, is, size. rewrite map_length. reflexivity. }
    { lia. }
    rewrite L. cbn zeta in M. destruct M as (M1 & M2 & M3 & M4). rewrite M1.
    split; [|exact M2]. unfold fds, does. rewrite AU. fold fds. fold n. fold ds. left. split; [reflexivity|].
    split; [split; [exact A|]; split; [exact ND|exact GOOD]|]. split; [|rewrite M3; reflexivity].
    apply view_put_all.
    - intros x X. destruct (HN x X) as (_ & _ & U). apply U. destruct (GOOD x X) as [Lx _]. unfold TAG. lia.
    - intros j. rewrite M4, MI. reflexivity. }
  destruct (tlen (tab t) <=? m) eqn:Q.
  - apply Z.leb_le in Q. pose proof (sync_ok k t (m + 1) HON) as S. destruct (sync_size k t (m + 1)) as [t1|e] eqn:SY.
    + pose proof (grown cap k t CAP HON (m + 1) t1 ltac:(lia) SY) as GR. destruct (resize cap t1 (m + 1)) as [t2|].
      * destruct GR as (G1 & G2 & G3 & G4 & G5 & G6 & G7 & G8). exact (PL t2 ltac:(lia) ltac:(lia) G3 G4 G5 G6 G7 G8).
      * unfold fine, short, fds. rewrite AU. fold fds. fold ds. destruct (HS m MIN) as (x & X & Y). exists x. split; [exact X|lia].
    + apply FAIL. right. right. right. split; [|exact S]. split; [exact A|]. split; [exact ND|exact GOOD].
  - apply Z.leb_gt in Q. apply (PL t ltac:(lia) Q (fun j => eq_refl) eq_refl eq_refl eq_refl eq_refl (i_kt _ _ _ I)).
Qed.
