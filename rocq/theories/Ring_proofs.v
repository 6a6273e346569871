(* Proofs for C52. *)
From Coq Require Import Permutation.
From Verif Require Import Base Ring_model Ring_spec.

Lemma in_offsets n c x : forall i, In x (offsets n i c) <-> exists k, i <= k < i + Z.of_nat n /\ x = k * c.
Proof.
  induction n as [|n IH]; intro i; cbn [offsets In].
  - split; [intros []|intros (k & K & _); lia].
  - rewrite IH. split.
    + intros [<-|(k & K & E)]; [exists i; split; [lia|reflexivity]|exists k; split; [lia|exact E]].
    + intros (k & K & E). destruct (Z.eq_dec k i) as [->|N]; [left; auto|right; exists k; split; [lia|exact E]].
Qed.
Lemma nodup_offsets n c : 0 < c -> forall i, NoDup (offsets n i c).
Proof.
  intro C. induction n as [|n IH]; intro i; constructor; auto. rewrite in_offsets. intros (k & K & E).
  assert (i = k) by nia. lia.
Qed.
Lemma length_offsets n c : forall i, length (offsets n i c) = n.
Proof. induction n; intro i; cbn; auto. Qed.

Section Pool.
Variables (total c base : Z).
Hypotheses (C : 0 < c) (T : 0 <= total).
Definition all := offsets (Z.to_nat (total / c)) 0 c.
Lemma perm a live : pool total c base a live -> Permutation (map fst live ++ free_offsets a) all /\ chunk_size a = c /\ total_size a = total.
Proof.
  induction 1 as [a H|a live size align a' p v _ (IH & I2 & I3) S H|a live size align a' v _ (IH & I2 & I3) H|a l1 o size l2 a' v _ (IH & I2 & I3) H].
  - unfold shm_new in H. destruct (Z.eqb_spec c 0); [lia|]. injection H as <-. cbn. auto.
  - unfold alloc_buf_sized, allocate in H. destruct (free_offsets a) as [|o r] eqn:E; [discriminate|]. injection H as <- <- <-. cbn [map fst free_offsets chunk_size total_size app].
    replace (base + o - base) with o by lia. split; [|auto]. etransitivity; [apply Permutation_middle|exact IH].
  - unfold alloc_buf_sized, allocate in H. destruct (free_offsets a) as [|o r] eqn:E; [|discriminate]. injection H as <- <-. rewrite E. auto.
  - unfold free_buf, free_at in H. injection H as <- <-. cbn [free_offsets chunk_size total_size deallocate]. split; [|auto]. etransitivity; [|exact IH].
    rewrite !map_app. cbn [map fst]. rewrite <- !app_assoc. cbn [app]. apply Permutation_app_head. symmetry. apply Permutation_middle.
Qed.
Lemma chunk_in o : In o all -> exists k, o = k * c /\ 0 <= k /\ o + c <= total.
Proof.
  unfold all. rewrite in_offsets. intros (k & K & ->). exists k. split; [reflexivity|]. split; [lia|].
  assert (0 <= total / c) by (apply Z.div_pos; lia). rewrite Z2Nat.id in K by lia. pose proof (Z.mul_div_le total c C). nia.
Qed.
Lemma live_ok a live : pool total c base a live -> Forall (fun x => 0 <= snd x <= c) live ->
  Forall (fun x => inside total x /\ (c | fst x)) live /\ ForallOrdPairs apart live.
Proof.
  intros P F. destruct (perm a live P) as (Q & _). assert (IN : forall o, In o (map fst live) -> In o all) by (intros o I; eapply Permutation_in; [exact Q|apply in_or_app; left; exact I]).
  assert (ND : NoDup (map fst live)).
  { assert (N : NoDup (map fst live ++ free_offsets a)) by (eapply Permutation_NoDup; [symmetry; exact Q|apply nodup_offsets; exact C]).
    clear - N. induction (map fst live) as [|x l IH]; [constructor|]. inversion N; subst. constructor; [|apply IH; assumption]. rewrite in_app_iff in *. tauto. }
  split.
  - rewrite Forall_forall in *. intros x I. specialize (F x I). destruct (chunk_in (fst x)) as (k & E & K & L); [apply IN, in_map; exact I|].
    split; [unfold inside; nia|exists k; exact E].
  - clear P Q. induction live as [|x live IH]; [constructor|]. cbn [map] in *. inversion ND; subst. constructor.
    + rewrite Forall_forall in *. intros y I. destruct (chunk_in (fst x)) as (k & E & _); [apply IN; left; reflexivity|].
      destruct (chunk_in (fst y)) as (j & E2 & _); [apply IN; right; apply in_map; exact I|].
      assert (k <> j) by (intros ->; apply H1; rewrite E, <- E2; apply in_map; exact I).
      pose proof (F x (or_introl eq_refl)). pose proof (F y (or_intror I)). unfold apart. destruct (Z.lt_ge_cases k j); [left|right]; nia.
    + apply IH; auto. inversion F; assumption. intros o I. apply IN. right. exact I.
Qed.
Lemma alloc_result a live size align a' p v : pool total c base a live -> alloc_buf_sized a base size align = (a', p, v) ->
  (p = None /\ v = -1 /\ len live = total / c) \/ (len live < total / c /\ exists o, p = Some (base + o) /\ v = as_c_int o /\ In o all).
Proof.
  intros P H. destruct (perm a live P) as (Q & _). assert (L : len live + len (free_offsets a) = total / c).
  { apply Permutation_length in Q. rewrite app_length, map_length in Q. unfold all in Q. rewrite length_offsets in Q.
    assert (0 <= total / c) by (apply Z.div_pos; lia). unfold len. lia. }
  unfold alloc_buf_sized, allocate in H. destruct (free_offsets a) as [|o r] eqn:E.
  - injection H as <- <- <-. left. change (len []) with 0 in L. repeat split. lia.
  - injection H as <- <- <-. right. rewrite len_cons in L. pose proof (len_nonneg r). split; [lia|]. exists o. split; [reflexivity|]. split; [reflexivity|].
    eapply Permutation_in; [exact Q|]. apply in_or_app. right. left. reflexivity.
Qed.
Lemma free_partition a live : pool total c base a live -> Permutation (map fst live ++ free_offsets a) all.
Proof. intro P. apply (perm a live P). Qed.
End Pool.
