(** Little-endian machine words in byte memory (to_ne_bytes/from_ne_bytes on x86_64)
    and lemmas about them. *)
From Verif Require Import Base String_model String_proofs Sort_model Sort_proofs.

Fixpoint le_bytes (k : nat) (v : Z) : list Z :=
  match k with O => [] | S k' => v mod 256 :: le_bytes k' (v / 256) end.

(** u32::from_ne_bytes( *p ) and *p = v.to_ne_bytes() *)
Definition ld32 (m : mem) (a : Z) : res Z := ld_le 4 m a.
Definition st32 (m : mem) (a v : Z) : res mem := st_bytes m a (le_bytes 4 v).

Definition word_at (m : mem) (a v : Z) : Prop := bytes_at m a (le_bytes 4 v).
Fixpoint words_at (m : mem) (a : Z) (l : list Z) : Prop :=
  match l with [] => True | v :: l' => word_at m a v /\ words_at m (a + 4) l' end.
Definition is_u32 (v : Z) : Prop := 0 <= v < 2 ^ 32.

Lemma le_bytes_length k : forall v, length (le_bytes k v) = k.
Proof. induction k as [|k IH]; intros v; cbn; [reflexivity|]. rewrite IH. reflexivity. Qed.
Lemma le_bytes_len k v : len (le_bytes k v) = Z.of_nat k.
Proof. unfold len. rewrite le_bytes_length. reflexivity. Qed.
Lemma le_bytes_byte k : forall v, Forall is_byte (le_bytes k v).
Proof.
  induction k as [|k IH]; intros v; cbn; constructor; auto. apply Z.mod_pos_bound. lia.
Qed.

Lemma ld_le_bytes k : forall m a v, bytes_at m a (le_bytes k v) -> 0 <= v < 256 ^ Z.of_nat k -> ld_le k m a = Ok v.
Proof.
  induction k as [|k IH]; intros m a v B H; cbn [ld_le].
  - change (256 ^ Z.of_nat 0) with 1 in H. f_equal. lia.
  - cbn [le_bytes] in B. destruct B as [B0 B]. rewrite (ld_ok _ _ _ B0). cbn [bind].
    rewrite (IH m (a + 1) (v / 256) B).
    + cbn [bind]. f_equal. pose proof (Z.div_mod v 256 ltac:(lia)). lia.
    + replace (Z.of_nat (S k)) with (Z.of_nat k + 1) in H by lia. rewrite Z.pow_add_r in H by lia.
      change (256 ^ 1) with 256 in H. split; [apply Z.div_pos; lia|]. apply Z.div_lt_upper_bound; lia.
Qed.
Lemma ld32_ok m a v : word_at m a v -> is_u32 v -> ld32 m a = Ok v.
Proof. intros B H. apply ld_le_bytes; [exact B|exact H]. Qed.
Lemma st32_ok m a v : mapped m a 4 -> exists m', st32 m a v = Ok m' /\ stored m m' a (le_bytes 4 v).
Proof. intros H. apply st_bytes_ok. rewrite le_bytes_len. exact H. Qed.

Lemma words_at_app m a l k : words_at m a (l ++ k) <-> words_at m a l /\ words_at m (a + 4 * len l) k.
Proof.
  revert a; induction l as [|v l IH]; intros a; cbn [words_at app].
  - change (len (@nil Z)) with 0. rewrite Z.mul_0_r, Z.add_0_r. tauto.
  - rewrite IH, len_cons. replace (a + 4 + 4 * len l) with (a + 4 * (len l + 1)) by lia. tauto.
Qed.
Lemma words_at_ext m m' a l : (forall x, a <= x < a + 4 * len l -> m' x = m x) -> words_at m a l -> words_at m' a l.
Proof.
  revert a; induction l as [|v l IH]; intros a He; cbn [words_at]; [auto|].
  rewrite len_cons in He. pose proof (len_nonneg l). intros [H0 H1]. split.
  - eapply bytes_at_ext; [|exact H0]. rewrite le_bytes_len. intros x Hx. apply He. lia.
  - apply IH; [|exact H1]. intros x Hx. apply He. lia.
Qed.
Lemma words_at_nth m a l i v : words_at m a l -> nth_error l i = Some v -> word_at m (a + 4 * Z.of_nat i) v.
Proof.
  revert a i; induction l as [|w l IH]; intros a i H E; [destruct i; discriminate|].
  destruct H as [H0 H1]. destruct i as [|i]; cbn in E.
  - injection E as <-. change (Z.of_nat 0) with 0. rewrite Z.mul_0_r, Z.add_0_r. exact H0.
  - replace (a + 4 * Z.of_nat (S i)) with (a + 4 + 4 * Z.of_nat i) by lia. apply IH; assumption.
Qed.

(** Replace element i. *)
Fixpoint set_nth (i : nat) (v : Z) (l : list Z) : list Z :=
  match l, i with
  | [], _ => []
  | _ :: l', O => v :: l'
  | x :: l', S i' => x :: set_nth i' v l'
  end.
Lemma set_nth_length i v l : length (set_nth i v l) = length l.
Proof. revert i; induction l as [|x l IH]; intros [|i]; cbn; auto. Qed.
Lemma set_nth_Forall (P : Z -> Prop) i v l : P v -> Forall P l -> Forall P (set_nth i v l).
Proof.
  intros Hv. revert i; induction l as [|x l IH]; intros [|i] H; cbn; auto; apply Forall_cons_iff in H; destruct H; constructor; auto.
Qed.
Lemma words_at_set m m' a l i v : (i < length l)%nat -> words_at m a l ->
  stored m m' (a + 4 * Z.of_nat i) (le_bytes 4 v) -> words_at m' a (set_nth i v l).
Proof.
  intros Hi H [S1 S2]. rewrite le_bytes_len in S2. revert a i Hi H S1 S2.
  induction l as [|x l IH]; intros a i Hi H S1 S2; [cbn in Hi; lia|]. destruct H as [H0 H1].
  pose proof (len_nonneg l).
  destruct i as [|i]; cbn [set_nth words_at].
  - change (Z.of_nat 0) with 0 in *. rewrite Z.mul_0_r, Z.add_0_r in *. split; [exact S1|].
    eapply words_at_ext; [|exact H1]. intros y Hy. apply S2. lia.
  - split.
    + eapply bytes_at_ext; [|exact H0]. rewrite le_bytes_len. intros y Hy. apply S2. lia.
    + apply IH; auto.
      * cbn in Hi. lia.
      * replace (a + 4 + 4 * Z.of_nat i) with (a + 4 * Z.of_nat (S i)) by lia. exact S1.
      * intros y Hy. apply S2. lia.
Qed.
