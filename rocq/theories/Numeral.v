(** Positional numerals: the digit sequence of a non-negative integer, most significant
    digit first.  Shared by the models (it stands for Rust's integer Display/LowerHex/Octal
    digit generation) and characterised by [numeral] below. *)
From Verif Require Import Base.

Fixpoint to_digits_aux (fuel : nat) (b n : Z) (acc : list Z) : list Z :=
  match fuel with
  | O => acc
  | S f => let acc' := n mod b :: acc in
           if n / b =? 0 then acc' else to_digits_aux f b (n / b) acc'
  end.
Definition to_digits (b n : Z) : list Z := to_digits_aux (S (Z.to_nat (Z.log2 n))) b n [].

Definition dvalue (b : Z) (l : list Z) : Z := fold_left (fun a d => a * b + d) l 0.

(** [l] is the numeral of [n] in base [b]: digits in range, the right value, no
    superfluous leading zero. *)
Definition numeral (b : Z) (l : list Z) (n : Z) : Prop :=
  Forall (fun d => 0 <= d < b) l /\ dvalue b l = n /\ l <> [] /\ (hd 0 l = 0 -> l = [0]).

Lemma dvalue_app b l k : dvalue b (l ++ k) = dvalue b l * b ^ len k + dvalue b k.
Proof.
  unfold dvalue. rewrite fold_left_app. generalize (fold_left (fun a d => a * b + d) l 0) as v.
  induction k as [|d k IH]; intros v; cbn [fold_left]; [cbv [len length Z.of_nat]; rewrite Z.pow_0_r; lia|].
  rewrite IH, (IH (0 * b + d)). rewrite len_cons, Z.pow_add_r by (pose proof (len_nonneg k); lia). rewrite Z.pow_1_r. ring.
Qed.
Lemma dvalue_snoc b l d : dvalue b (l ++ [d]) = dvalue b l * b + d.
Proof. unfold dvalue. rewrite fold_left_app. reflexivity. Qed.
Lemma dvalue_cons b d l : dvalue b (d :: l) = d * b ^ len l + dvalue b l.
Proof. change (d :: l) with ([d] ++ l). rewrite dvalue_app. unfold dvalue at 1. cbn [fold_left]. ring. Qed.
Lemma dvalue_range b l : 2 <= b -> Forall (fun d => 0 <= d < b) l -> 0 <= dvalue b l < b ^ len l.
Proof.
  intros Hb H. induction H as [|d l Hd H IH]; [change (0 <= 0 < b ^ 0); rewrite Z.pow_0_r; lia|].
  rewrite dvalue_cons, len_cons, Z.pow_add_r, Z.pow_1_r by (pose proof (len_nonneg l); lia).
  assert (0 < b ^ len l) by (apply Z.pow_pos_nonneg; pose proof (len_nonneg l); lia). nia.
Qed.

Lemma to_digits_aux_S f b n acc : to_digits_aux (S f) b n acc =
  if n / b =? 0 then n mod b :: acc else to_digits_aux f b (n / b) (n mod b :: acc).
Proof. reflexivity. Qed.
Lemma to_digits_aux_ok b : 2 <= b -> forall fuel n acc, 0 <= n < 2 ^ Z.of_nat fuel -> (0 < fuel)%nat ->
  exists l, to_digits_aux fuel b n acc = l ++ acc /\ numeral b l n.
Proof.
  intros Hb. induction fuel as [|f IH]; intros n acc Hn Hf; [lia|]. rewrite to_digits_aux_S.
  pose proof (Z.mod_pos_bound n b ltac:(lia)). pose proof (Z.div_mod n b ltac:(lia)). destruct (Z.eqb_spec (n / b) 0).
  - exists [n mod b]. split; [reflexivity|]. unfold numeral, dvalue. cbn [fold_left]. repeat split; [repeat constructor; lia|lia|discriminate|].
    cbn [hd]. intros ->. reflexivity.
  - assert (0 <= n / b) by (apply Z.div_pos; lia).
    assert (n / b <= n / 2) by (apply Z.div_le_compat_l; lia).
    assert (2 ^ Z.of_nat (S f) = 2 * 2 ^ Z.of_nat f) by (rewrite Nat2Z.inj_succ, Z.pow_succ_r by lia; reflexivity).
    assert (n / 2 < 2 ^ Z.of_nat f) by (apply Z.div_lt_upper_bound; lia).
    destruct (IH (n / b) (n mod b :: acc)) as [l [E [N1 [N2 [N3 N4]]]]]; [lia| |].
    { destruct f; [|lia]. change (2 ^ Z.of_nat 0) with 1 in *. lia. }
    exists (l ++ [n mod b]). split; [rewrite E, <- app_assoc; reflexivity|].
    repeat split.
    + apply Forall_app. split; [exact N1|repeat constructor; lia].
    + rewrite dvalue_snoc, N2. lia.
    + intros C. apply app_eq_nil in C. destruct C; discriminate.
    + destruct l as [|d l]; [congruence|]. cbn [app hd] in *. intros ->. specialize (N4 eq_refl). injection N4 as ->. unfold dvalue in N2. cbn in N2. lia.
Qed.
Lemma to_digits_numeral b n : 2 <= b -> 0 <= n -> numeral b (to_digits b n) n.
Proof.
  intros Hb Hn. unfold to_digits. destruct (to_digits_aux_ok b Hb (S (Z.to_nat (Z.log2 n))) n []) as [l [E N]]; [|lia|].
  - rewrite Nat2Z.inj_succ, Z2Nat.id by apply Z.log2_nonneg. split; [lia|].
    destruct (Z.eq_dec n 0) as [->|]; [reflexivity|]. apply Z.log2_spec. lia.
  - rewrite E, app_nil_r. exact N.
Qed.

Lemma numeral_digits b l n : numeral b l n -> Forall (fun d => 0 <= d < b) l.
Proof. intros [H _]. exact H. Qed.
Lemma numeral_ne b l n : numeral b l n -> l <> [].
Proof. intros [_ [_ [H _]]]. exact H. Qed.

(** Number of digits: n < b^k iff at most k digits (k >= 1). *)
Lemma numeral_len b l n k : 2 <= b -> numeral b l n -> 1 <= k -> n < b ^ k -> len l <= k.
Proof.
  intros Hb [H1 [H2 [H3 H4]]] Hk Hn. destruct l as [|d l]; [congruence|]. cbn [hd] in H4. inversion H1; subst.
  pose proof (len_nonneg l). pose proof (dvalue_range b l Hb H6) as R. rewrite dvalue_cons in Hn. rewrite len_cons.
  destruct (Z.eq_dec d 0) as [->|Hd]; [specialize (H4 eq_refl); injection H4 as ->; rewrite len_nil; lia|].
  destruct (Z_le_dec (len l + 1) k); [lia|].
  assert (b ^ k <= b ^ len l) by (apply Z.pow_le_mono_r; lia).
  assert (0 < b ^ len l) by (apply Z.pow_pos_nonneg; lia). nia.
Qed.
Lemma numeral_1 b l n : 2 <= b -> numeral b l n -> n < b -> l = [n].
Proof.
  intros Hb N Hn. pose proof (numeral_len b l n 1 Hb N ltac:(lia) ltac:(rewrite Z.pow_1_r; lia)) as L.
  destruct N as [H1 [H2 [H3 _]]]. destruct l as [|d [|e l]]; [congruence| |rewrite !len_cons in L; pose proof (len_nonneg l); lia].
  unfold dvalue in H2. cbn in H2. f_equal. lia.
Qed.
Lemma numeral_2 b l n : 2 <= b -> numeral b l n -> b <= n < b * b -> l = [n / b; n mod b].
Proof.
  intros Hb N Hn. pose proof (numeral_len b l n 2 Hb N ltac:(lia) ltac:(rewrite Z.pow_2_r; lia)) as L.
  destruct N as [H1 [H2 [H3 H4]]]. destruct l as [|d [|e [|f l]]]; [congruence| | |rewrite !len_cons in L; pose proof (len_nonneg l); lia].
  - unfold dvalue in H2. cbn in H2. inversion H1; subst. lia.
  - unfold dvalue in H2. cbn [fold_left] in H2. inversion H1 as [|? ? A B]; subst. inversion B; subst.
    f_equal; [|f_equal]; [apply Z.div_unique with e; lia|apply Z.mod_unique with d; lia].
Qed.
Lemma numeral_3 b l n : 2 <= b -> numeral b l n -> b * b <= n < b * b * b -> l = [n / (b * b); n / b mod b; n mod b].
Proof.
  intros Hb N Hn. pose proof (numeral_len b l n 3 Hb N ltac:(lia)) as L. replace (b ^ 3) with (b * b * b) in L by ring. specialize (L ltac:(lia)).
  destruct N as [H1 [H2 [H3 H4]]]. destruct l as [|d [|e [|f [|g l]]]]; [congruence| | | |rewrite !len_cons in L; pose proof (len_nonneg l); lia];
    unfold dvalue in H2; cbn [fold_left] in H2; inversion H1 as [|? ? A B]; subst.
  - nia.
  - inversion B; subst. nia.
  - inversion B as [|? ? A' B']; subst. inversion B'; subst.
    f_equal; [|f_equal; [|f_equal]].
    + apply Z.div_unique with (e * b + f); nia.
    + replace (((0 * b + d) * b + e) * b + f) with (f + (d * b + e) * b) by ring. rewrite Z.div_add, Z.div_small by lia.
      apply Z.mod_unique with d; lia.
    + apply Z.mod_unique with (d * b + e); lia.
Qed.

Lemma numeral_inj b l1 l2 n : 2 <= b -> numeral b l1 n -> numeral b l2 n -> l1 = l2.
Proof.
  intros Hb. revert l2 n. induction l1 as [|d l1 IH] using rev_ind; intros l2 n N1 N2.
  - destruct N1 as [_ [_ [H _]]]. congruence.
  - destruct l2 as [|e l2 _] using rev_ind; [destruct N2 as [_ [_ [H _]]]; congruence|].
    destruct N1 as [F1 [V1 [_ Z1]]], N2 as [F2 [V2 [_ Z2]]]. apply Forall_app in F1, F2. destruct F1 as [F1 D1], F2 as [F2 D2].
    inversion D1; subst. inversion D2; subst. rewrite !dvalue_snoc in *.
    assert (Hd : d = e).
    { assert (d = (dvalue b l1 * b + d) mod b) by (rewrite Z.add_comm, Z_mod_plus_full, Z.mod_small; lia).
      assert (e = (dvalue b l2 * b + e) mod b) by (rewrite Z.add_comm, Z_mod_plus_full, Z.mod_small; lia). congruence. }
    assert (Hv : dvalue b l1 = dvalue b l2) by (subst; nia). f_equal; [|congruence].
    assert (C : l1 = [] <-> l2 = []).
    { split; intros ->.
      - destruct l2 as [|x l2]; [reflexivity|]. inversion F2; subst. change (dvalue b []) with 0 in Hv. rewrite dvalue_cons in Hv.
        pose proof (dvalue_range b l2 Hb H6). pose proof (Z.pow_pos_nonneg b (len l2) ltac:(lia) (len_nonneg _)).
        assert (x = 0) by nia. subst x. cbn [hd app] in Z2. specialize (Z2 eq_refl). destruct l2; discriminate.
      - destruct l1 as [|x l1]; [reflexivity|]. inversion F1; subst. change (dvalue b []) with 0 in Hv. rewrite dvalue_cons in Hv.
        pose proof (dvalue_range b l1 Hb H6). pose proof (Z.pow_pos_nonneg b (len l1) ltac:(lia) (len_nonneg _)).
        assert (x = 0) by nia. subst x. cbn [hd app] in Z1. specialize (Z1 eq_refl). destruct l1; discriminate. }
    destruct l1 as [|x l1]; [symmetry; apply C; reflexivity|]. destruct l2 as [|y l2]; [assert (x :: l1 = []) by (apply C; reflexivity); discriminate|].
    apply (IH (y :: l2) (dvalue b (x :: l1))).
    + repeat split; [exact F1|discriminate|]. intros H. cbn [hd app] in *. specialize (Z1 H). destruct l1; discriminate.
    + repeat split; [exact F2|congruence|discriminate|]. intros H. cbn [hd app] in *. specialize (Z2 H). destruct l2; discriminate.
Qed.
