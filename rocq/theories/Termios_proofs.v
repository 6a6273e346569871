(* Terminals: proofs. *)
From Verif Require Import Base Termios_model Termios_spec.

Lemma but_bit x l i : 0 <= i -> u32 x -> Z.testbit (but x l) i = Z.testbit x i && negb (Z.testbit l i).
Proof.
  intros I0 X. unfold but. rewrite !Z.land_spec, Z.lnot_spec by exact I0. change (2 ^ 32 - 1) with (Z.ones 32). rewrite Z.testbit_ones by lia.
  destruct (Z.leb_spec 0 i); [|lia]. destruct (Z.ltb_spec i 32); cbn [andb]; [rewrite andb_true_r; reflexivity|]. rewrite !andb_false_r.
  replace (Z.testbit x i) with false; [reflexivity|]. symmetry. destruct (Z.eq_dec x 0) as [->|]; [apply Z.bits_0|]. apply Z.bits_above_log2; [unfold u32 in X; lia|].
  apply Z.log2_lt_pow2; [unfold u32 in X; lia|]. apply Z.lt_le_trans with (2 ^ 32); [unfold u32 in X; lia|]. apply Z.pow_le_mono_r; lia.
Qed.
Lemma off_bits l off : (forall i, 0 <= i < 16 -> (Z.testbit l i = true <-> In i off)) -> 0 <= l < 2 ^ 16 -> Forall (fun i => 0 <= i < 16) off -> forall i, 0 <= i -> (Z.testbit l i = true <-> In i off).
Proof.
  intros H L F i I0. destruct (Z.lt_ge_cases i 16); [apply H; lia|]. split; intro X.
  - exfalso. destruct (Z.eq_dec l 0) as [->|]; [rewrite Z.bits_0 in X; discriminate X|]. rewrite Z.bits_above_log2 in X; [discriminate X|lia|]. apply Z.log2_lt_pow2; [lia|].
    apply Z.lt_le_trans with (2 ^ 16); [lia|]. apply Z.pow_le_mono_r; lia.
  - rewrite Forall_forall in F. specialize (F i X). lia.
Qed.
Lemma but_switched x l off : u32 x -> (forall i, 0 <= i < 16 -> (Z.testbit l i = true <-> In i off)) -> 0 <= l < 2 ^ 16 -> Forall (fun i => 0 <= i < 16) off -> switched off [] x (but x l).
Proof.
  intros X H L F i I0. pose proof (off_bits l off H L F i I0) as B. rewrite but_bit by assumption. split; [intros []|]. split.
  - intros _ O. apply B in O. rewrite O. apply andb_false_r.
  - intros _ O. destruct (Z.testbit l i); [tauto|]. apply andb_true_r.
Qed.
Ltac bits := intros i I0; assert (C : i = 0 \/ i = 1 \/ i = 2 \/ i = 3 \/ i = 4 \/ i = 5 \/ i = 6 \/ i = 7 \/ i = 8 \/ i = 9 \/ i = 10 \/ i = 11 \/ i = 12 \/ i = 13 \/ i = 14 \/ i = 15) by lia;
  repeat (destruct C as [->|C]; [cbn; intuition (try discriminate; try lia)|]); subst i; cbn; intuition (try discriminate; try lia).
Lemma raw_ok : forall t, proper t -> raw t (cfmakeraw t).
Proof.
  intros [a b c d k] (A & B & C0 & D & K). cbn [iflag oflag cflag lflag cc] in *. unfold raw, cfmakeraw. cbn [iflag oflag cflag lflag cc].
  split; [apply but_switched; [exact A|bits|vm_compute; split; [discriminate|reflexivity]|repeat constructor; lia]|].
  split; [apply but_switched; [exact B|bits|vm_compute; split; [discriminate|reflexivity]|repeat constructor; lia]|].
  split.
  { pose proof (but_switched c (Z.lor CSIZE PARENB) [8; 9; 12] C0) as S. specialize (S ltac:(bits) ltac:(vm_compute; split; [discriminate|reflexivity]) ltac:(repeat constructor; lia)).
    assert (E : forall i, 0 <= i -> (Z.testbit CS8 i = true <-> In i [8; 9])) by (apply off_bits; [bits|vm_compute; split; [discriminate|reflexivity]|repeat constructor; lia]).
    intros i I0. specialize (S i I0). specialize (E i I0). rewrite Z.lor_spec. destruct (Z.testbit CS8 i); [rewrite orb_true_r|rewrite orb_false_r].
    - split; [reflexivity|]. split; intro N; destruct N; apply E; reflexivity.
    - split; [intro H; apply E in H; discriminate H|]. split; intro N; apply S; intros []. }
  split; [apply but_switched; [exact D|bits|vm_compute; split; [discriminate|reflexivity]|repeat constructor; lia]|].
  clear -K. do 32 (destruct k as [|? k]; [discriminate K|]). destruct k; [|discriminate K]. cbn. split; [reflexivity|]. split; [reflexivity|]. split; [reflexivity|].
  intros i N1 N2. do 18 (destruct i as [|i]; [solve [reflexivity|contradiction]|]). reflexivity.
Qed.
