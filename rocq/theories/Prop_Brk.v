(* C156: brk and sbrk. *)
From Verif Require Import Base Brk_model Brk_spec Brk_proofs.
Open Scope Z_scope.

(* whatever the calls, each returns the break so far and moves it on, or fails and leaves it *)
Theorem C156_sbrk_partial : forall base incrs, 0 < base -> base + BRK_MAX_SIZE < 2 ^ 63 -> Forall (fun i => 0 <= i < 2 ^ 63) incrs ->
  snd (sbrks (inl base) start incrs) = map (fun o => match o with Some a => a | None => FAILED end) (grants (base + BRK_MAX_SIZE) base incrs).
Proof. intros base incrs A B F. apply sbrks_ok; [split; assumption|right; split; reflexivity|exact F]. Qed.
Print Assumptions C156_sbrk_partial.
Example C156_sbrk_case : snd (sbrks (inl 8192) start [0; 100; 5000000; 28; 0]) = [8192; 8192; FAILED; 8292; 8320].
Proof. rewrite C156_sbrk_partial; [reflexivity|lia|reflexivity|]. change (2 ^ 63) with 9223372036854775808. repeat constructor; lia. Qed.
(* the areas obtained are in the 4 megabytes mapped and do not overlap *)
Theorem C156_areas_partial : forall base incrs k a i, 0 < base -> base + BRK_MAX_SIZE < 2 ^ 63 -> Forall (fun i => 0 <= i < 2 ^ 63) incrs ->
  nth_error (snd (sbrks (inl base) start incrs)) k = Some a -> a <> FAILED -> nth_error incrs k = Some i ->
  base <= a /\ a + i < base + BRK_MAX_SIZE /\
  forall l b, (k < l)%nat -> nth_error (snd (sbrks (inl base) start incrs)) l = Some b -> b <> FAILED -> a + i <= b.
Proof.
  intros base incrs k a i A B F G N I. rewrite C156_sbrk_partial in * by assumption. rewrite nth_error_map in G.
  assert (X : forall l b, nth_error (map (fun o => match o with Some a => a | None => FAILED end) (grants (base + BRK_MAX_SIZE) base incrs)) l = Some b -> b <> FAILED -> nth_error (grants (base + BRK_MAX_SIZE) base incrs) l = Some (Some b)).
  { intros l b H NF. rewrite nth_error_map in H. destruct (nth_error (grants (base + BRK_MAX_SIZE) base incrs) l) as [[c|]|]; cbn in H; congruence. }
  assert (P : base < base + BRK_MAX_SIZE) by (pose proof size_pos; lia). rewrite <- nth_error_map in G.
  pose proof (X k a G N) as G'. destruct (grants_from _ incrs base k a i F P G' I) as (G1 & G2). split; [exact G1|]. split; [exact G2|]. intros l b K H NF.
  exact (grants_apart _ incrs base k l a b i F P K G' I (X l b H NF)).
Qed.
Print Assumptions C156_areas_partial.
Example C156_areas_case : 8192 + 100 <= 8292.
Proof.
  destruct (C156_areas_partial 8192 [100; 28] 0 8192 100) as (_ & _ & H); [lia|reflexivity|change (2 ^ 63) with 9223372036854775808; repeat constructor; lia|reflexivity|discriminate|reflexivity|].
  apply (H 1%nat 8292); [lia|reflexivity|discriminate].
Qed.
(* brk sets the break, as sbrk(0) then tells; or fails and leaves it *)
Theorem C156_brk_partial : forall base cur s a, place base -> breaks base cur s -> 0 < a < 2 ^ 64 -> cur <= a ->
  exists s' r e, brk (inl base) s a = (s', r, e) /\
  (if a <? base + BRK_MAX_SIZE then r = 0 /\ e = None /\ breaks base a s' /\ exists s2, sbrk (inl base) (inl base) s' 0 = (s2, a, None)
   else r = -1 /\ e = Some ENOMEM /\ exists s2, sbrk (inl base) (inl base) s' 0 = (s2, cur, None)).
Proof.
  intros base cur s a P B A C. unfold brk. destruct (sys_first base s cur a P B) as (s1 & A1 & C1 & E). rewrite E. rewrite (proj2 (Z.eqb_neq a NULL)) by (unfold NULL; lia). rewrite (proj2 (Z.leb_le cur a)) by exact C. cbn [andb].
  destruct (Z.ltb_spec a (base + BRK_MAX_SIZE)); cbn [or_null set_brk BRK BRK_CUR BRK_END].
  - rewrite Z.ltb_irrefl. do 3 eexists. split; [reflexivity|]. split; [reflexivity|]. split; [reflexivity|].
    assert (X : breaks base a (State a a (base + BRK_MAX_SIZE))) by (left; destruct A1 as (_ & _ & _ & R); repeat split; cbn [BRK BRK_CUR BRK_END]; auto; lia). split; [exact X|].
    destruct (sbrk_ok base a _ 0 P X ltac:(split; [lia|reflexivity])) as (s2 & E2 & _). exists s2. exact E2.
  - rewrite (proj2 (Z.ltb_lt NULL a)) by (unfold NULL; lia). do 3 eexists. split; [reflexivity|]. split; [reflexivity|]. split; [reflexivity|].
    assert (X : breaks base cur (State NULL (BRK_CUR s1) (BRK_END s1))) by (left; destruct A1 as (A1 & A2 & _ & R); repeat split; cbn [BRK BRK_CUR BRK_END]; auto; lia).
    destruct (sbrk_ok base cur _ 0 P X ltac:(split; [lia|reflexivity])) as (s2 & E2 & _). exists s2. exact E2.
Qed.
Print Assumptions C156_brk_partial.
Example C156_brk_case : exists s' r e, brk (inl 8192) start 9000 = (s', r, e) /\ r = 0 /\ breaks 8192 9000 s'.
Proof.
  destruct (C156_brk_partial 8192 8192 start 9000) as (s' & r & e & E & H); [split; reflexivity|right; split; reflexivity|split; reflexivity|lia|].
  change (9000 <? 8192 + BRK_MAX_SIZE) with true in H. cbv iota in H. exists s', r, e. tauto.
Qed.
(* the break cannot be moved back *)
Theorem C156_back_refuted : exists base, place base /\ snd (sbrks (inl base) start [100; -100; 0]) = [base; FAILED; base + 100].
Proof. exists 8192. split; [split; reflexivity|vm_compute; reflexivity]. Qed.
Print Assumptions C156_back_refuted.
(* if nothing can be mapped sbrk(0) returns a null pointer, not -1 *)
Theorem C156_null_refuted : forall e e', sbrk (inr e) (inr e') start 0 = (start, NULL, Some e).
Proof. reflexivity. Qed.
Print Assumptions C156_null_refuted.
(* with other increments it fails *)
Theorem C156_nothing : forall e e' i, 0 < i < 2 ^ 63 -> exists s', sbrk (inr e) (inr e') start i = (s', FAILED, Some ENOMEM) /\ s' = start.
Proof.
  intros e e' i I. exists start. split; [|reflexivity]. assert (P : ptr (NULL + i) = i).
  { unfold ptr. change (NULL + i) with i. apply Z.mod_small. change (2 ^ 63) with 9223372036854775808 in I. change (2 ^ 64) with 18446744073709551616. lia. }
  assert (X : sbrk (inr e) (inr e') start i = if i =? 0 then (start, NULL, Some e) else if NULL <? ptr (NULL + i) then (start, FAILED, Some ENOMEM) else (start, NULL, Some e')) by reflexivity.
  rewrite X, P. rewrite (proj2 (Z.eqb_neq i 0)) by lia. rewrite (proj2 (Z.ltb_lt NULL i)) by (unfold NULL; lia). reflexivity.
Qed.
Print Assumptions C156_nothing.
Example C156_nothing_case : exists s', sbrk (inr 12) (inr 12) start 16 = (s', FAILED, Some ENOMEM) /\ s' = start.
Proof. apply C156_nothing. split; reflexivity. Qed.
