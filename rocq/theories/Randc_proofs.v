(* Lemmas for C161. *)
From Verif Require Import Base Randc_model Randc_spec.

Definition word (v : Z) : Prop := 0 <= v < 2 ^ 32.
Definition words (r : rng) : Prop := word (rx r) /\ word (ry r) /\ word (rz r) /\ word (rw r).
Lemma lxor_word a b : word a -> word b -> word (Z.lxor a b).
Proof.
  intros [A1 A2] [B1 B2]. assert (N : 0 <= Z.lxor a b) by (apply Z.lxor_nonneg; split; intro; assumption). split; [exact N|].
  destruct (Z.eq_dec (Z.lxor a b) 0) as [->|E]; [reflexivity|]. apply Z.log2_lt_pow2; [lia|].
  assert (L : forall x, 0 <= x < 2 ^ 32 -> Z.log2 x < 32).
  { intros x X. destruct (Z.eq_dec x 0) as [->|X0]; [reflexivity|]. apply Z.log2_lt_pow2; [lia|apply X]. }
  pose proof (Z.log2_lxor a b A1 B1). pose proof (L a (conj A1 A2)). pose proof (L b (conj B1 B2)). lia.
Qed.
Lemma shiftr_word a n : word a -> 0 <= n -> word (Z.shiftr a n).
Proof.
  intros [A1 A2] N. rewrite Z.shiftr_div_pow2 by exact N. assert (0 < 2 ^ n) by (apply Z.pow_pos_nonneg; lia). split; [apply Z.div_pos; lia|].
  apply Z.le_lt_trans with a; [|exact A2]. apply Z.div_le_upper_bound; nia.
Qed.
Lemma u32_word a : word (u32 a). Proof. unfold u32, word. change (2 ^ 32) with 4294967296. apply Z.mod_pos_bound. lia. Qed.
Lemma sample_ok r : words r -> words (fst (sample r)) /\ 0 <= snd (sample r) <= RAND_MAX.
Proof.
  intros (X & Y & Zz & W). unfold sample, next_u32. cbv zeta. cbn [fst snd].
  set (t := Z.lxor (rx r) (u32 (Z.shiftl (rx r) 11))). assert (T : word t) by (apply lxor_word; [exact X|apply u32_word]).
  set (w := Z.lxor (Z.lxor (rw r) (Z.shiftr (rw r) 19)) (Z.lxor t (Z.shiftr t 8))).
  assert (Q : word w) by (apply lxor_word; apply lxor_word; try assumption; apply shiftr_word; try assumption; lia).
  split; [repeat split; cbn [rx ry rz rw]; first [apply Y|apply Zz|apply W|apply Q]|]. rewrite Z.shiftr_div_pow2 by lia. change (2 ^ 1) with 2. destruct Q as [Q1 Q2]. change (2 ^ 32) with 4294967296 in Q2. unfold RAND_MAX.
  pose proof (Z.div_mod w 2 ltac:(lia)). pose proof (Z.mod_pos_bound w 2 ltac:(lia)). lia.
Qed.
Lemma le32_word l : Forall (fun b => 0 <= b < 256) l -> word (le32 l).
Proof.
  intro F. unfold le32. destruct l as [|a [|b [|c [|d [|e l]]]]]; try (split; [lia|reflexivity]). repeat match goal with H : Forall _ (_ :: _) |- _ => inversion H; subst; clear H end. unfold word. change (2 ^ 32) with 4294967296. lia.
Qed.
Lemma Forall_firstn' (P : Z -> Prop) n : forall l, Forall P l -> Forall P (firstn n l).
Proof. induction n as [|n IH]; intros l F; [constructor|]. destruct F; cbn [firstn]; constructor; auto. Qed.
Lemma Forall_skipn' (P : Z -> Prop) n : forall l, Forall P l -> Forall P (skipn n l).
Proof. induction n as [|n IH]; intros l F; [exact F|]. destruct F; cbn [skipn]; [constructor|auto]. Qed.
Lemma seed_words l : Forall (fun b => 0 <= b < 256) l -> words (from_seed l).
Proof.
  intro F. unfold from_seed. cbv zeta. destruct (_ && _); [repeat split; cbn [rx ry rz rw]; lia|].
  repeat split; cbn [rx ry rz rw]; apply le32_word; try apply Forall_firstn'; try apply Forall_skipn'; assumption.
Qed.
Lemma repeat_bytes b n : 0 <= b < 256 -> Forall (fun b => 0 <= b < 256) (repeat b n).
Proof. intro B. induction n; cbn [repeat]; constructor; assumption. Qed.
Definition good (s : state) : Prop := match s with Some r => words r | None => True end.
Lemma srand_good s x : good (srand s x). Proof. apply seed_words, repeat_bytes, Z.mod_pos_bound. lia. Qed.
Lemma rand_good s : good s -> good (fst (rand s)) /\ 0 <= snd (rand s) <= RAND_MAX.
Proof.
  intro G. unfold rand. cbv zeta. set (r := match s with Some r => r | None => from_seed (repeat 1 16) end).
  assert (R : words r) by (destruct s; [exact G|apply seed_words, repeat_bytes; lia]). pose proof (sample_ok r R) as [A B]. destruct (sample r) as [r' v]. split; [exact A|exact B].
Qed.
Lemma run_good : forall l s, good s -> good (run s l).
Proof. induction l as [|[x|] l IH]; intros s G; [exact G| |]; cbn [run]; apply IH; [apply srand_good|apply rand_good; exact G]. Qed.
Lemma numbers_range : forall n s, good s -> Forall (fun v => 0 <= v <= RAND_MAX) (numbers n s).
Proof.
  induction n as [|n IH]; intros s G; [constructor|]. cbn [numbers]. pose proof (rand_good s G) as [A B]. destruct (rand s) as [s' v]. constructor; [exact B|apply IH; exact A].
Qed.
Lemma bytes_ok v : Forall (fun b => 0 <= b < 256) (to_bytes v).
Proof. unfold to_bytes. repeat constructor; apply Z.mod_pos_bound; lia. Qed.
Lemma rand_r_ok v : exists r, rand_r (Some v) = (Some r, r) /\ 0 <= r <= RAND_MAX.
Proof.
  unfold rand_r. pose proof (sample_ok (from_seed (to_bytes v ++ to_bytes v ++ to_bytes v ++ to_bytes v))) as H.
  destruct (sample _) as [r' x]. exists x. split; [reflexivity|]. apply H. apply seed_words. repeat (apply Forall_app; split); apply bytes_ok.
Qed.
Lemma numbers_r_ok : forall n v, List.length (numbers_r n v) = n /\ Forall (fun v => 0 <= v <= RAND_MAX) (numbers_r n v).
Proof.
  induction n as [|n IH]; intro v; [split; [reflexivity|constructor]|]. cbn [numbers_r]. destruct (rand_r_ok v) as (r & -> & R). destruct (IH r) as [A B]. split; [cbn [List.length]; rewrite A; reflexivity|constructor; assumption].
Qed.
Definition first_number (b : Z) : Z := hd 0 (numbers 1 (srand None b)).
Fixpoint differ (l : list Z) : bool := match l with [] => true | x :: l => forallb (fun y => negb (x =? y)) l && differ l end.
Definition all_bytes : list Z := map Z.of_nat (seq 0 256).
Lemma firsts_differ : differ (map first_number all_bytes) = true. Proof. vm_compute. reflexivity. Qed.
Lemma differ_inj (f : Z -> Z) : forall l, differ (map f l) = true -> forall a b, In a l -> In b l -> f a = f b -> a = b.
Proof.
  induction l as [|x l IH]; intros D a b A B E; [destruct A|]. cbn [map differ] in D. apply andb_true_iff in D as [D1 D2]. rewrite forallb_forall in D1.
  assert (N : forall y, In y l -> f x <> f y).
  { intros y Y Q. specialize (D1 (f y) (in_map f l y Y)). rewrite Q, Z.eqb_refl in D1. discriminate D1. }
  destruct A as [->|A], B as [->|B]; [reflexivity|destruct (N b B E)|destruct (N a A (eq_sym E))|apply IH; assumption].
Qed.
Lemma byte_in b : 0 <= b < 256 -> In b all_bytes.
Proof. intro B. unfold all_bytes. rewrite <- (Z2Nat.id b) by lia. apply in_map, in_seq. lia. Qed.
Lemma seeds_differ s s' a b : hd 0 (numbers 1 (srand s a)) = hd 0 (numbers 1 (srand s' b)) -> a mod 256 = b mod 256.
Proof.
  intro E. apply (differ_inj first_number all_bytes firsts_differ); [apply byte_in, Z.mod_pos_bound; lia|apply byte_in, Z.mod_pos_bound; lia|].
  unfold first_number, srand. rewrite !Zmod_mod. exact E.
Qed.
