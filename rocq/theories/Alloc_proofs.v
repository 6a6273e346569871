From Verif Require Import Base String_model String_proofs Alloc_model.

Lemma calloc_overflow H m n s : USIZE_MAX < n * s ->
  calloc H m n s = Ok {| ptr := NULL; mm := m; errno := Some ENOMEM; asked := [] |}.
Proof. intros O. unfold calloc, checked_mul. destruct (Z.leb_spec (n * s) USIZE_MAX); [lia|reflexivity]. Qed.

Lemma calloc_ok H m n s m1 p : 0 <= n * s <= USIZE_MAX -> H m (Malloc (n * s)) = (m1, p) ->
  (p <> NULL -> mapped m1 p (n * s)) ->
  exists o, calloc H m n s = Ok o /\ asked o = [Malloc (n * s)] /\ ptr o = p /\
    (p = NULL -> errno o = Some ENOMEM /\ mm o = m1) /\
    (p <> NULL -> errno o = None /\ stored m1 (mm o) p (repeat 0 (Z.to_nat (n * s)))).
Proof.
  intros O E M. unfold calloc, checked_mul, malloc. destruct (Z.leb_spec (n * s) USIZE_MAX); [|lia]. rewrite E. cbn [ptr mm errno asked].
  destruct (Z.eqb_spec p NULL) as [->|N].
  - eexists. split; [reflexivity|]. cbn. repeat split; congruence.
  - destruct (fill_ok (Z.to_nat (n * s)) m1 p 0) as [m' [F S]]; [rewrite Z2Nat.id by lia; auto|].
    rewrite F. cbn [bind]. eexists. split; [reflexivity|]. cbn. repeat split; try congruence; apply S.
Qed.

Lemma reallocarray_ok H m p a b :
  (USIZE_MAX < a * b -> reallocarray H m p a b = {| ptr := NULL; mm := m; errno := Some ENOMEM; asked := [] |}) /\
  (0 <= a * b <= USIZE_MAX -> forall r m1 q, r = (if p =? NULL then Malloc (a * b) else Realloc p (a * b)) -> H m r = (m1, q) ->
     asked (reallocarray H m p a b) = [r] /\ ptr (reallocarray H m p a b) = q /\ mm (reallocarray H m p a b) = m1 /\
     (q = NULL -> errno (reallocarray H m p a b) = Some ENOMEM)).
Proof.
  unfold reallocarray, checked_mul. split.
  - intros O. destruct (Z.leb_spec (a * b) USIZE_MAX); [lia|reflexivity].
  - intros O r m1 q -> E. destruct (Z.leb_spec (a * b) USIZE_MAX); [|lia]. unfold realloc. rewrite E. cbn.
    repeat split. intros ->. reflexivity.
Qed.

Lemma pos_ones_pos p : (1 <= pos_ones p)%nat.
Proof. induction p; cbn; lia. Qed.
Lemma pos_ones_1 p : pos_ones p = 1%nat <-> exists k, 0 <= k /\ Zpos p = 2 ^ k.
Proof.
  induction p as [p IH|p IH|]; cbn [pos_ones].
  - pose proof (pos_ones_pos p). split; [lia|]. intros [k [Hk E]]. destruct (Z.eq_dec k 0) as [->|N]; [change (2 ^ 0) with 1 in E; lia|].
    replace k with (1 + (k - 1)) in E by lia. rewrite Z.pow_add_r in E by lia. change (2 ^ 1) with 2 in E. lia.
  - rewrite IH. split; intros [k [Hk E]].
    + exists (1 + k). split; [lia|]. rewrite Z.pow_add_r by lia. change (2 ^ 1) with 2. lia.
    + destruct (Z.eq_dec k 0) as [->|N]; [change (2 ^ 0) with 1 in E; lia|].
      exists (k - 1). split; [lia|]. replace k with (1 + (k - 1)) in E by lia. rewrite Z.pow_add_r in E by lia. change (2 ^ 1) with 2 in E. lia.
  - split; [intros _; exists 0; split; [lia|reflexivity]|reflexivity].
Qed.
Definition power2 (a : Z) : Prop := exists k, 0 <= k /\ a = 2 ^ k.
Lemma is_pow2_spec a : reflect (power2 a) (is_power_of_two a).
Proof.
  unfold is_power_of_two. destruct a as [|p|p].
  - constructor. intros [k [Hk E]]. pose proof (Z.pow_pos_nonneg 2 k). lia.
  - destruct (Nat.eqb_spec (pos_ones p) 1) as [E|E]; constructor; [apply pos_ones_1; exact E|]. intros P. apply E, pos_ones_1, P.
  - constructor. intros [k [Hk E]]. pose proof (Z.pow_pos_nonneg 2 k). lia.
Qed.
Lemma is_mult_spec a b : 0 < b -> is_multiple_of a b = true <-> (b | a).
Proof.
  intros B. unfold is_multiple_of. destruct (Z.eqb_spec b 0); [lia|]. rewrite Z.eqb_eq. apply Z.mod_divide. lia.
Qed.

Lemma memalign_ok H m align size m1 p : H m (Memalign align size) = (m1, p) ->
  (power2 align -> memalign H m align size =
     {| ptr := p; mm := m1; errno := if p =? NULL then Some ENOMEM else None; asked := [Memalign align size] |}) /\
  (~ power2 align -> memalign H m align size = {| ptr := NULL; mm := m; errno := Some EINVAL; asked := [] |}).
Proof.
  intros E. unfold memalign. destruct (is_pow2_spec align) as [P|P]; split; intros Q; try contradiction; [rewrite E|]; reflexivity.
Qed.
Lemma aligned_alloc_ok H m align size m1 p : 0 <= align -> 0 <= size -> H m (Memalign align size) = (m1, p) ->
  (power2 align -> (align | size) -> aligned_alloc H m align size =
     {| ptr := p; mm := m1; errno := if p =? NULL then Some ENOMEM else None; asked := [Memalign align size] |}) /\
  (~ (power2 align /\ (align | size)) ->
     aligned_alloc H m align size = {| ptr := NULL; mm := m; errno := Some EINVAL; asked := [] |}).
Proof.
  intros Ha Hs E. destruct (memalign_ok H m align size m1 p E) as [M1 M2]. unfold aligned_alloc. split.
  - intros P D. destruct (Z.eqb_spec align 0) as [Z0|Z0].
    { destruct P as [k [Hk K]]. pose proof (Z.pow_pos_nonneg 2 k). lia. }
    rewrite (proj2 (is_mult_spec size align ltac:(lia)) D). cbn [orb negb]. apply M1, P.
  - intros N. destruct (Z.eqb_spec align 0) as [Z0|Z0]; [reflexivity|]. cbn [orb].
    destruct (is_multiple_of size align) eqn:D; cbn [negb]; [|reflexivity]. apply M2. intros P. apply N. split; [exact P|].
    apply is_mult_spec in D; [exact D|lia].
Qed.
Lemma posix_memalign_ok H m align size m1 p : H m (Memalign align size) = (m1, p) ->
  (power2 align -> (8 | align) ->
     posix_memalign H m align size = ({| ptr := p; mm := m1; errno := None; asked := [Memalign align size] |}, if p =? NULL then ENOMEM else 0)) /\
  (~ (power2 align /\ (8 | align)) ->
     posix_memalign H m align size = ({| ptr := NULL; mm := m; errno := None; asked := [] |}, EINVAL)).
Proof.
  intros E. unfold posix_memalign. destruct (is_pow2_spec align) as [P|P].
  - destruct (is_multiple_of align 8) eqn:D; cbn [andb].
    + apply is_mult_spec in D; [|lia]. split; intros; [rewrite E; reflexivity|tauto].
    + split; [|reflexivity]. intros _ D'. apply is_mult_spec in D'; [congruence|lia].
  - rewrite andb_false_r. split; [contradiction|reflexivity].
Qed.
