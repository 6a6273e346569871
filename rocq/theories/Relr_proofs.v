(* Proofs for C86 *)
From Coq Require Import ZArith List Bool Lia.
From Verif Require Import Base Relr_model Relr_spec.
Import ListNotations.
Open Scope Z_scope.

Definition bumps (base : Z) (m : words) (l : list Z) : words := fold_left (bump base) l m.

Lemma bumps_app base m l1 l2 : bumps base m (l1 ++ l2) = bumps base (bumps base m l1) l2.
Proof. unfold bumps. apply fold_left_app. Qed.

Lemma odd_bit0 e : Z.odd e = Z.testbit e 0.
Proof. symmetry. apply Z.bit0_odd. Qed.

Lemma bitmap_spec base addr : forall f m e i, 0 <= i -> 0 <= e < 2 ^ Z.of_nat f ->
  bitmap (S f) base m addr e i =
  Ok (bumps base m (map (fun j => (addr + 8 * (i + Z.of_nat j)) mod W64) (filter (fun j => Z.testbit e (Z.of_nat j)) (seq 0 f)))).
Proof.
  induction f as [|f IH]; intros m e i HI HE.
  - assert (e = 0) as -> by (cbn in HE; lia). reflexivity.
  - change (bitmap (S (S f)) base m addr e i) with
      (if e =? 0 then Ok m else bitmap (S f) base (if Z.odd e then bump base m ((addr + 8 * i) mod W64) else m) addr (e / 2) (i + 1)).
    destruct (Z.eqb_spec e 0) as [->|NE].
    { replace (filter _ _) with (@nil nat); [reflexivity|]. symmetry. clear. induction (seq 0 (S f)) as [|x l IHl]; [reflexivity|].
      cbn [filter]. rewrite Z.testbit_0_l. exact IHl. }
    rewrite IH; [|lia|rewrite Nat2Z.inj_succ, Z.pow_succ_r in HE by lia; split; [apply Z.div_pos; lia|apply Z.div_lt_upper_bound; lia]].
    f_equal. cbn [seq]. cbn [filter]. change (Z.of_nat 0) with 0. rewrite <- odd_bit0.
    assert (E : map (fun j => (addr + 8 * (i + 1 + Z.of_nat j)) mod W64) (filter (fun j => Z.testbit (e / 2) (Z.of_nat j)) (seq 0 f)) =
                map (fun j => (addr + 8 * (i + Z.of_nat j)) mod W64) (filter (fun j => Z.testbit e (Z.of_nat j)) (seq 1 f))).
    { rewrite <- seq_shift. generalize (seq 0 f). intro l. induction l as [|j l IHl]; [reflexivity|]. cbn [filter map].
      replace (Z.testbit (e / 2) (Z.of_nat j)) with (Z.testbit e (Z.of_nat (S j))).
      2:{ rewrite Nat2Z.inj_succ. rewrite <- Z.div2_bits by lia. reflexivity. }
      destruct (Z.testbit e (Z.of_nat (S j))); cbn [map]; rewrite IHl; [|reflexivity]. do 3 f_equal. lia. }
    rewrite E. destruct (Z.odd e); [|reflexivity]. cbn [map bumps fold_left]. rewrite Z.add_0_r. reflexivity.
Qed.

Lemma relr_spec base : forall l m a w, Forall is_word l -> match a with Some a => a = (base + w) mod W64 | None => starts_even l end ->
  relr base m a l = Ok (bumps base m (map (fun o => (base + o) mod W64) (decode w l))).
Proof.
  assert (W0 : W64 <> 0) by discriminate.
  induction l as [|e l IH]; intros m a w WL HA; [reflexivity|]. inversion WL as [|x y HW WL']; subst. cbn [relr decode]. rewrite odd_bit0.
  destruct (Z.testbit e 0) eqn:B.
  - destruct a as [a|]; [|unfold starts_even in HA; congruence]. rewrite bitmap_spec; [|lia|split; [apply Z.div_pos; [apply HW|lia]|]].
    2:{ apply Z.div_lt_upper_bound; [lia|]. destruct HW as [_ HW]. change (2 * 2 ^ Z.of_nat 64) with (2 * 2 ^ 64). lia. }
    cbn [bind]. rewrite (IH _ _ (w + 8 * 63)); [|assumption|].
    2:{ subst a. rewrite Z.add_mod_idemp_l by assumption. f_equal. lia. }
    rewrite map_app, bumps_app. do 3 f_equal.
    rewrite map_map. replace (seq 0 64) with (seq 0 63 ++ [63%nat]) by reflexivity. rewrite filter_app. cbn [filter].
    assert (HB : Z.testbit (e / 2) (Z.of_nat 63) = false).
    { rewrite Z.div2_bits by lia. change (Z.succ (Z.of_nat 63)) with 64. destruct (Z.eq_dec e 0) as [->|NZ]; [apply Z.testbit_0_l|].
      destruct HW as [H0 HW]. apply Z.bits_above_log2; [exact H0|]. apply Z.log2_lt_pow2; lia. }
    rewrite HB, app_nil_r.
    assert (FE : filter (fun j => Z.testbit (e / 2) (Z.of_nat j)) (seq 0 63) = filter (fun j => Z.testbit e (Z.of_nat j + 1)) (seq 0 63)).
    { apply filter_ext. intro j. rewrite Z.div2_bits by lia. reflexivity. }
    rewrite FE. apply map_ext. intro j. subst a. rewrite Z.add_mod_idemp_l by assumption. f_equal. lia.
  - rewrite (IH _ _ (e + 8)); [|assumption|rewrite Z.add_mod_idemp_l by assumption; f_equal; lia]. reflexivity.
Qed.

Lemma bumps_count base : forall l m a, is_word (m a) ->
  bumps base m l a = (m a + base * Z.of_nat (count_occ Z.eq_dec l a)) mod W64.
Proof.
  induction l as [|p l IH]; intros m a HA.
  - cbn [count_occ bumps fold_left]. change (Z.of_nat 0) with 0. rewrite Z.mul_0_r, Z.add_0_r, Z.mod_small; [reflexivity|exact HA].
  - change (bumps base m (p :: l) a) with (bumps base (bump base m p) l a). cbn [count_occ]. rewrite IH.
    + unfold bump. destruct (Z.eqb_spec a p) as [->|NE].
      * destruct (Z.eq_dec p p); [|congruence]. rewrite Z.add_mod_idemp_l by discriminate. f_equal. lia.
      * destruct (Z.eq_dec p a); [congruence|]. reflexivity.
    + unfold bump. destruct (a =? p); [apply Z.mod_pos_bound; reflexivity|exact HA].
Qed.

Lemma apply_relr_spec base m l : Forall is_word l -> starts_even l -> (forall a, is_word (m a)) ->
  exists m', apply_relr base m l = Ok m' /\
    forall a, m' a = (m a + base * Z.of_nat (count_occ Z.eq_dec (map (fun o => (base + o) mod 2 ^ 64) (decode 0 l)) a)) mod 2 ^ 64.
Proof.
  intros WL SE HM. unfold apply_relr. rewrite (relr_spec base l m None 0 WL SE). eexists. split; [reflexivity|]. intro a. apply bumps_count, HM.
Qed.
