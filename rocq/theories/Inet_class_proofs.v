(* Proofs for C89 *)
From Coq Require Import ZArith List Bool Lia.
From Verif Require Import Base Inet_model Inet_class_spec.
Open Scope Z_scope.

Lemma div_of n k h : 0 <= h < k -> (n * k + h) / k = n /\ (n * k + h) mod k = h.
Proof.
  intro H. split; [rewrite Z.add_comm, Z.div_add, Z.div_small by lia; lia|rewrite Z.add_comm, Z.mod_add, Z.mod_small by lia; lia].
Qed.
Lemma lnaof_ok a n c h : 0 <= a < 2 ^ 32 -> class a n c h -> inet_lnaof a = h.
Proof.
  intros A C. unfold inet_lnaof. inversion C as [a' n' h' N H E|a' n' h' N H E|a' n' h' N H E]; subst.
  - destruct (div_of n (2 ^ 24) h H) as (D & M). rewrite D, M. destruct (Z.ltb_spec n 128); [reflexivity|lia].
  - destruct (div_of n (2 ^ 16) h H) as (D & M). rewrite M.
    assert (Q : 128 <= (n * 2 ^ 16 + h) / 2 ^ 24 < 192) by (split; [apply Z.div_le_lower_bound; lia|apply Z.div_lt_upper_bound; lia]).
    destruct (Z.ltb_spec ((n * 2 ^ 16 + h) / 2 ^ 24) 128); [lia|]. destruct (Z.ltb_spec ((n * 2 ^ 16 + h) / 2 ^ 24) 192); [reflexivity|lia].
  - destruct (div_of n (2 ^ 8) h H) as (D & M). rewrite M.
    assert (Q : 192 <= (n * 2 ^ 8 + h) / 2 ^ 24) by (apply Z.div_le_lower_bound; lia).
    destruct (Z.ltb_spec ((n * 2 ^ 8 + h) / 2 ^ 24) 128); [lia|]. destruct (Z.ltb_spec ((n * 2 ^ 8 + h) / 2 ^ 24) 192); [lia|reflexivity].
Qed.
Lemma lor_shift n k h : 0 <= k -> 0 <= h < 2 ^ k -> Z.lor h (n * 2 ^ k) = n * 2 ^ k + h.
Proof.
  intros K H. rewrite <- Z.shiftl_mul_pow2 by exact K. rewrite (Z.add_comm _ h).
  assert (L0 : Z.land h (Z.shiftl n k) = 0).
  { apply Z.bits_inj'. intros i I. rewrite Z.land_spec, Z.shiftl_spec, Z.bits_0 by lia.
    destruct (Z.lt_ge_cases i k) as [L|L]; [rewrite (Z.testbit_neg_r n) by lia; apply andb_false_r|].
    destruct (Z.eq_dec h 0) as [->|NZ]; [rewrite Z.bits_0; reflexivity|].
    assert (G : Z.log2 h < k) by (apply Z.log2_lt_pow2; lia).
    rewrite (Z.bits_above_log2 h) by lia. reflexivity. }
  rewrite (Z.add_nocarry_lxor _ _ L0). symmetry. apply Z.lxor_lor. exact L0.
Qed.
Lemma makeaddr_ok a n c h : 0 <= a < 2 ^ 32 -> class a n c h -> inet_makeaddr n h = a.
Proof.
  intros A C. unfold inet_makeaddr. inversion C as [a' n' h' N H E|a' n' h' N H E|a' n' h' N H E]; subst.
  - destruct (Z.ltb_spec n 256); [|lia]. rewrite Z.mod_small by lia. apply lor_shift; lia.
  - destruct (Z.ltb_spec n 256); [lia|]. destruct (Z.ltb_spec n 65536); [|lia]. rewrite Z.mod_small by lia. apply lor_shift; lia.
  - destruct (Z.ltb_spec n 256); [lia|]. destruct (Z.ltb_spec n 65536); [lia|]. rewrite Z.mod_small by lia. apply lor_shift; lia.
Qed.
