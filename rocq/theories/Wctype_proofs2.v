(* From the value-by-value check to the statements about all values. *)
From Coq Require Import String.
From Verif Require Import Base String_spec Ctype_spec Ctype_model Ctype_proofs Inet_model Inet_proofs Wcs_model Wcs_spec
  Wctype_tables Wctype_model Wctype_spec Wctype_proofs.
Open Scope Z_scope.

Lemma fact_at w : 0 <= w < 262144 -> fact lower_runs upper_runs w = true.
Proof.
  intros W.
  assert (K : 0 <= w / 256 < 0 + 2 ^ Z.of_nat 10).
  { change (2 ^ Z.of_nat 10) with 1024. split; [apply Z.div_pos; lia|apply Z.div_lt_upper_bound; lia]. }
  pose proof (check_ok 10 block 0 fact_all (w / 256) K) as B. unfold block in B.
  assert (I : w / 256 * 256 <= w < w / 256 * 256 + 256).
  { pose proof (Z.div_mod w 256 ltac:(lia)). pose proof (Z.mod_pos_bound w 256 ltac:(lia)). lia. }
  pose proof (check_ok 8 _ _ B w I) as F. unfold fact in *.
  rewrite !(moved_filter (meets (w / 256 * 256)) w) in F by (intros r; apply meets_ok; exact I). exact F.
Qed.

Lemma nz_flag x : nz x = true <-> x <> 0.
Proof. unfold nz. destruct (Z.eqb_spec x 0); cbn; split; congruence. Qed.

(* The facts in words. *)
Record facts (w a p l u : Z) : Prop := Facts {
  fa : iswalpha w = Ok a; fp : iswpunct w = Ok p; fl : towlower w = Ok l; fu : towupper w = Ok u;
  f_uni_lower : l = uni_lower w; f_uni_upper : u = uni_upper w;
  f_upper_alpha : l <> w -> a <> 0; f_lower_alpha : u <> w -> a <> 0;
  f_alnum_graph : iswdigit w <> 0 \/ a <> 0 -> iswgraph w <> 0;
  f_punct_graph : p <> 0 -> iswgraph w <> 0;
  f_xdigit_alnum : iswxdigit w <> 0 -> iswdigit w <> 0 \/ a <> 0;
  f_digit_xdigit : iswdigit w <> 0 -> iswxdigit w <> 0;
  f_blank : iswblank w <> 0 -> iswspace w <> 0;
  f_cntrl : iswcntrl w <> 0 -> iswprint w = 0 /\ iswdigit w = 0 /\ a = 0 /\ p = 0;
  f_pun : p <> 0 -> iswdigit w = 0 /\ a = 0 /\ iswspace w = 0;
  f_space : iswspace w <> 0 -> iswdigit w = 0 /\ a = 0;
  f_digit : iswdigit w <> 0 -> a = 0;
  f_surr : 55296 <= w < 57344 ->
    iswdigit w = 0 /\ a = 0 /\ p = 0 /\ iswprint w = 0 /\ iswcntrl w = 0 /\ iswspace w = 0;
  f_l : l <> w -> 0 <= l < 131072 /\ towlower l = Ok l /\ (exists x, towupper l = Ok x /\ x <> l) /\
                  exists b, iswalpha l = Ok b /\ b <> 0;
  f_u : u <> w -> 0 <= u < 131072 /\ towupper u = Ok u /\ (exists x, towlower u = Ok x /\ x <> u) /\
                  exists b, iswalpha u = Ok b /\ b <> 0 }.

Lemma nzn x : nz x = false <-> x = 0.
Proof. unfold nz. destruct (Z.eqb_spec x 0); cbn; split; congruence. Qed.
Lemma small_facts w : 0 <= w < 262144 -> exists a p l u, facts w a p l u.
Proof.
  intros W. pose proof (fact_at w W) as H. unfold fact in H.
  destruct (f_alpha w) as [a| | |] eqn:A; try discriminate H.
  destruct (f_punct w) as [p| | |] eqn:P; try discriminate H.
  destruct (f_case w 0) as [l| | |] eqn:L; try discriminate H.
  destruct (f_case w 1) as [u| | |] eqn:U; try discriminate H.
  cbv zeta in H.
  apply and_true in H. destruct H as [H1 H]. apply and_true in H. destruct H as [H2 H].
  apply and_true in H. destruct H as [H3 H]. apply and_true in H. destruct H as [H4 H].
  apply and_true in H. destruct H as [H5 H]. apply and_true in H. destruct H as [H6 H].
  apply and_true in H. destruct H as [H7 H]. apply and_true in H. destruct H as [H8 H].
  apply and_true in H. destruct H as [H9 H]. apply and_true in H. destruct H as [H10 H].
  apply and_true in H. destruct H as [H11 H]. apply and_true in H. destruct H as [H12 H].
  apply and_true in H. destruct H as [H13 H]. apply and_true in H. destruct H as [H14 H].
  apply and_true in H. destruct H as [H15 H16].
  exists a, p, l, u. constructor.
  - rewrite f_alpha_ok. exact A.
  - rewrite f_punct_ok. exact P.
  - rewrite f_lower_ok. exact L.
  - rewrite f_upper_ok. exact U.
  - apply Z.eqb_eq. exact H1.
  - apply Z.eqb_eq. exact H2.
  - intros N. apply Z.eqb_neq in N. rewrite N in H3. apply nz_flag. exact H3.
  - intros N. apply Z.eqb_neq in N. rewrite N in H4. apply nz_flag. exact H4.
  - intros N. apply nz_flag. destruct (nz (iswdigit w)) eqn:D; [exact H5|].
    apply nzn in D. destruct N as [N|N]; [contradiction|]. apply nz_flag in N. rewrite N in H5. exact H5.
  - intros N. apply nz_flag in N. rewrite N in H6. apply nz_flag. exact H6.
  - intros N. apply nz_flag in N. rewrite N in H7. apply orb_prop in H7. rewrite !nz_flag in H7. exact H7.
  - intros N. apply nz_flag in N. rewrite N in H8. apply nz_flag. exact H8.
  - intros N. apply nz_flag in N. rewrite N in H9. apply nz_flag. exact H9.
  - intros N. apply nz_flag in N. rewrite N in H10. apply negb_true_iff in H10.
    rewrite !orb_false_iff, !nzn in H10. tauto.
  - intros N. apply nz_flag in N. rewrite N in H11. apply negb_true_iff in H11.
    rewrite !orb_false_iff, !nzn in H11. tauto.
  - intros N. apply nz_flag in N. rewrite N in H12. apply negb_true_iff in H12.
    rewrite !orb_false_iff, !nzn in H12. tauto.
  - intros N. apply nz_flag in N. rewrite N in H13. apply negb_true_iff in H13. apply nzn. exact H13.
  - intros N. assert (E : (55296 <=? w) && (w <? 57344) = true) by (clear - N; lia). rewrite E in H14.
    apply negb_true_iff in H14. rewrite !orb_false_iff, !nzn in H14. tauto.
  - intros N. apply Z.eqb_neq in N. rewrite N in H15. cbn [negb] in H15.
    destruct (f_case l 0) as [ll| | |] eqn:LL; try discriminate H15.
    destruct (f_case l 1) as [lu| | |] eqn:LU; try discriminate H15.
    destruct (f_alpha l) as [al| | |] eqn:AL; try discriminate H15.
    apply and_true in H15. destruct H15 as [G1 H15]. apply and_true in H15. destruct H15 as [G2 H15].
    apply and_true in H15. destruct H15 as [G3 H15]. apply and_true in H15. destruct H15 as [G4 H15].
    split; [clear - G1 G2; lia|]. split; [rewrite f_lower_ok, LL; f_equal; clear - G3; lia|].
    split; [exists lu; rewrite f_upper_ok; split; [exact LU|clear - G4; lia]|].
    exists al. rewrite f_alpha_ok. split; [exact AL|apply nz_flag; exact H15].
  - intros N. apply Z.eqb_neq in N. rewrite N in H16. cbn [negb] in H16.
    destruct (f_case u 1) as [ll| | |] eqn:LL; try discriminate H16.
    destruct (f_case u 0) as [lu| | |] eqn:LU; try discriminate H16.
    destruct (f_alpha u) as [al| | |] eqn:AL; try discriminate H16.
    apply and_true in H16. destruct H16 as [G1 H16]. apply and_true in H16. destruct H16 as [G2 H16].
    apply and_true in H16. destruct H16 as [G3 H16]. apply and_true in H16. destruct H16 as [G4 H16].
    split; [clear - G1 G2; lia|]. split; [rewrite f_upper_ok, LL; f_equal; clear - G3; lia|].
    split; [exists lu; rewrite f_lower_ok; split; [exact LU|clear - G4; lia]|].
    exists al. rewrite f_alpha_ok. split; [exact AL|apply nz_flag; exact H16].
Qed.

(* ---- the values from 2^18 up ---- *)
Lemma u32_small x : 0 <= x < 4294967296 -> u32 x = x.
Proof. intros H. apply Z.mod_small. exact H. Qed.
Lemma lor_big w : 262144 <= w < 2 ^ 32 -> 262144 <= Z.lor w 32 < 2 ^ 32.
Proof.
  intros W. assert (N : 0 <= Z.lor w 32) by (apply Z.lor_nonneg; lia). split.
  - assert (E : Z.lor w 32 / 2 ^ 18 = w / 2 ^ 18).
    { rewrite <- !Z.shiftr_div_pow2 by lia. rewrite Z.shiftr_lor. change (Z.shiftr 32 18) with 0. apply Z.lor_0_r. }
    assert (1 <= w / 2 ^ 18) by (apply Z.div_le_lower_bound; lia).
    pose proof (Z.mul_div_le (Z.lor w 32) (2 ^ 18) ltac:(lia)). change (2 ^ 18) with 262144 in *. lia.
  - assert (E : Z.lor w 32 / 2 ^ 32 = 0).
    { rewrite <- Z.shiftr_div_pow2 by lia. rewrite Z.shiftr_lor. change (Z.shiftr 32 32) with 0. rewrite Z.lor_0_r.
      rewrite Z.shiftr_div_pow2 by lia. apply Z.div_small. lia. }
    apply Z.div_small_iff in E; lia.
Qed.
Lemma moved_beyond l w : forallb (fun r => match r with R _ b _ _ => b <? 262144 end) l = true -> 262144 <= w -> moved l w = w.
Proof.
  intros A W. induction l as [|[a b s d] l IH]; cbn [moved]; [reflexivity|]. cbn [forallb] in A.
  apply andb_prop in A. destruct A as [A1 A2]. cbn [in_run].
  assert (E : (a <=? w) && (w <=? b) = false) by lia. rewrite E. apply IH. exact A2.
Qed.
Lemma big_casemap t r b e w d : 262144 <= w -> casemap t r b e w d = Ok w.
Proof. intros W. unfold casemap. destruct (Z.leb_spec 131072 w); [reflexivity|lia]. Qed.
Lemma big_facts w : 262144 <= w < 2 ^ 32 ->
  facts w 0 0 w w /\ iswdigit w = 0 /\ iswxdigit w = 0 /\ iswblank w = 0 /\ iswcntrl w = 0 /\ iswspace w = 0.
Proof.
  intros W. change (2 ^ 32) with 4294967296 in W.
  assert (D : iswdigit w = 0).
  { unfold iswdigit. rewrite u32_small by lia. destruct (Z.ltb_spec (w - 48) 10); [lia|reflexivity]. }
  assert (X : iswxdigit w = 0).
  { pose proof (lor_big w W) as L. change (2 ^ 32) with 4294967296 in L.
    unfold iswxdigit. rewrite !u32_small by lia.
    destruct (Z.ltb_spec (w - 48) 10); [lia|]. destruct (Z.ltb_spec (Z.lor w 32 - 97) 6); [lia|reflexivity]. }
  assert (Bl : iswblank w = 0).
  { unfold iswblank, isblank. unfold to_i32.
    assert (H : (w + 2147483648) mod 4294967296 = w + 2147483648 \/ (w + 2147483648) mod 4294967296 = w - 2147483648).
    { destruct (Z_lt_dec w 2147483648); [left; apply Z.mod_small; lia|right].
      symmetry. apply (Z.mod_unique _ _ 1); lia. }
    set (v := (w + 2147483648) mod 4294967296 - 2147483648) in *.
    destruct (Z.eqb_spec v 32); [subst v; lia|]. destruct (Z.eqb_spec v 9); [subst v; lia|reflexivity]. }
  assert (Cn : iswcntrl w = 0).
  { unfold iswcntrl. rewrite !u32_small by lia.
    assert (E : (w <? 32) || (w - 127 <? 33) || (w - 8232 <? 2) || (w - 65529 <? 3) = false) by lia.
    rewrite E. reflexivity. }
  assert (Sp : iswspace w = 0).
  { unfold iswspace. cbn [existsb].
    repeat (match goal with |- context [Z.eqb w ?k] => destruct (Z.eqb_spec w k); [lia|] end). reflexivity. }
  split; [|auto]. constructor; try (rewrite ?D, ?X, ?Bl, ?Cn, ?Sp; tauto); try lia.
  - unfold iswalpha, alpha_is. destruct (Z.ltb_spec w 131072); [lia|]. destruct (Z.ltb_spec w 196606); [lia|reflexivity].
  - unfold iswpunct, punct_is. destruct (Z.ltb_spec w 131072); [lia|]. reflexivity.
  - apply big_casemap. lia.
  - apply big_casemap. lia.
  - symmetry. apply moved_beyond; [vm_compute; reflexivity|lia].
  - symmetry. apply moved_beyond; [vm_compute; reflexivity|lia].
Qed.
Lemma all_facts w : wint w -> exists a p l u, facts w a p l u.
Proof.
  intros W. unfold wint in W. destruct (Z_lt_dec w 262144); [apply small_facts; lia|].
  exists 0, 0, w, w. apply big_facts. lia.
Qed.
