From Verif Require Import Base Swab_model.

(* the bytes of each pair exchanged; one over is left out *)
Fixpoint exchanged (l : list Z) : list Z := match l with a :: b :: r => b :: a :: exchanged r | _ => [] end.

Lemma exchanged_len l : len (exchanged l) = 2 * (len l / 2).
Proof.
  assert (H : forall n l, (length l <= n)%nat -> len (exchanged l) = 2 * (len l / 2)).
  { clear l. induction n as [|n IH]; intros [|a [|b r]] L; try reflexivity; cbn [length] in L; [lia|]. cbn [exchanged]. rewrite !len_cons.
    rewrite IH by (lia). replace (len r + 1 + 1) with (len r + 1 * 2) by lia. rewrite Z.div_add by lia. lia. }
  exact (H _ l (le_n _)).
Qed.

Lemma swaps_ok n : forall l m src dest offset, Z.of_nat n = len l / 2 -> bytes_at m (src + offset) l -> mapped m (dest + offset) (2 * (len l / 2)) ->
  disjoint (src + offset) (len l) (dest + offset) (2 * (len l / 2)) ->
  exists m', swaps n m src dest offset = Ok m' /\ stored m m' (dest + offset) (exchanged l).
Proof.
  induction n as [|n IH]; intros l m src dest offset N B M D.
  - assert (E : exchanged l = []).
    { pose proof (exchanged_len l) as X. rewrite <- N in X. destruct (exchanged l) as [|x r]; [reflexivity|]. rewrite len_cons in X. pose proof (len_nonneg r). lia. }
    exists m. rewrite E. split; [reflexivity|apply stored_nil].
  - destruct l as [|a [|b r]]; [change (len (@nil Z) / 2) with 0 in N; lia|change (len [a] / 2) with 0 in N; lia|]. cbn [exchanged]. cbn [bytes_at] in B. destruct B as (B0 & B1 & BR).
    pose proof (len_nonneg r) as LN.
    assert (LE : len (a :: b :: r) / 2 = 1 + len r / 2).
    { rewrite !len_cons. replace (len r + 1 + 1) with (len r + 1 * 2) by lia. rewrite Z.div_add by lia. lia. }
    rewrite LE in *. rewrite !len_cons in D. assert (LD : 0 <= len r / 2) by (apply Z.div_pos; lia).
    cbn [swaps]. rewrite (ld_ok _ _ _ B0). cbn [bind]. replace (dest + (offset + 1)) with (dest + offset + 1) by lia. rewrite st_ok by (apply M; lia). cbn [bind].
    assert (B1' : upd m (dest + offset + 1) a (src + (offset + 1)) = Some b).
    { replace (src + (offset + 1)) with (src + offset + 1) by lia. unfold upd. destruct (Z.eqb_spec (src + offset + 1) (dest + offset + 1)); [unfold disjoint in D; lia|exact B1]. }
    rewrite (ld_ok _ _ _ B1'). cbn [bind]. rewrite st_ok by (apply mapped_upd with (n := 2 * (1 + len r / 2)) (a := dest + offset); [exact M|lia]). cbn [bind].
    set (m2 := upd (upd m (dest + offset + 1) a) (dest + offset) b).
    assert (K : forall x, x <> dest + offset -> x <> dest + offset + 1 -> m2 x = m x).
    { intros x X1 X2. unfold m2, upd. destruct (Z.eqb_spec x (dest + offset)); [contradiction|]. destruct (Z.eqb_spec x (dest + offset + 1)); [contradiction|reflexivity]. }
    destruct (IH r m2 src dest (offset + 2)) as (m' & E & S).
    + lia.
    + replace (src + (offset + 2)) with (src + offset + 1 + 1) by lia. eapply bytes_at_ext; [|exact BR]. intros x X. apply K; unfold disjoint in D; lia.
    + intros x X. rewrite K by lia. apply M. lia.
    + unfold disjoint in *. lia.
    + exists m'. split; [exact E|]. destruct S as (S1 & S2). assert (LX : len (exchanged r) = 2 * (len r / 2)) by apply exchanged_len. split.
      * cbn [bytes_at]. split; [|split].
        -- rewrite S2 by lia. unfold m2, upd. rewrite Z.eqb_refl. reflexivity.
        -- rewrite S2 by lia. unfold m2, upd. destruct (Z.eqb_spec (dest + offset + 1) (dest + offset)); [lia|]. rewrite Z.eqb_refl. reflexivity.
        -- replace (dest + offset + 1 + 1) with (dest + (offset + 2)) by lia. exact S1.
      * intros x X. rewrite !len_cons in X. rewrite S2 by lia. apply K; lia.
Qed.
Lemma swab_ok m src dest l : bytes_at m src l -> mapped m dest (2 * (len l / 2)) -> disjoint src (len l) dest (2 * (len l / 2)) ->
  exists m', swab m src dest (len l) = Ok m' /\ stored m m' dest (exchanged l).
Proof.
  intros B M D. unfold swab. pose proof (len_nonneg l) as LN. destruct (Z.leb_spec (len l) 0).
  - assert (l = []) as -> by (destruct l; [reflexivity|rewrite len_cons in *; pose proof (len_nonneg l); lia]). exists m. split; [reflexivity|apply stored_nil].
  - destruct (swaps_ok (Z.to_nat (len l / 2)) l m src dest 0) as (m' & E & S); rewrite ?Z.add_0_r; try assumption.
    + rewrite Z2Nat.id; [reflexivity|apply Z.div_pos; lia].
    + exists m'. rewrite Z.add_0_r in S. split; assumption.
Qed.
