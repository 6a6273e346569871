From Coq Require Import String.
From Verif Require Import Base Ctype_spec Mman_model.
Open Scope string_scope.
Open Scope list_scope.
Open Scope Z_scope.

(* what the byte at x is: a byte of an object, with protection *)
Definition shows (s : space) (x : Z) : option (option Z * Z * Z * bool) :=
  match s (x / 4096) with Some g => Some (obj g, pos g * 4096 + x mod 4096, prot g, shared g) | None => None end.
(* the page of x has none of the bytes from a to a + n *)
Definition apart (x a n : Z) : Prop := forall y, a <= y < a + n -> y / 4096 <> x / 4096.

Lemma round_up_ok n : 0 <= n -> n + 4096 < 2 ^ 64 -> exists s, round_up n = Some s /\ s mod 4096 = 0 /\ n <= s < n + 4096.
Proof.
  intros N L. unfold round_up, PAGE_SIZE. destruct (Z.ltb_spec (n + 4096) (2 ^ 64)); [|lia].
  eexists. split; [reflexivity|]. split; [apply Z.mod_mul; lia|]. pose proof (Z.div_mod (n + 4096 - 1) 4096 ltac:(lia)). pose proof (Z.mod_pos_bound (n + 4096 - 1) 4096 ltac:(lia)). lia.
Qed.

Lemma span_bytes s a n size f x : a mod 4096 = 0 -> 0 < n -> size mod 4096 = 0 -> n <= size < n + 4096 ->
  (a <= x < a + n -> span s (a / 4096) (size / 4096) f (x / 4096) = f (x / 4096)) /\
  (apart x a n -> span s (a / 4096) (size / 4096) f (x / 4096) = s (x / 4096)).
Proof.
  intros A N S0 L. pose proof (Z.div_mod a 4096 ltac:(lia)). pose proof (Z.div_mod size 4096 ltac:(lia)). pose proof (Z.div_mod x 4096 ltac:(lia)). pose proof (Z.mod_pos_bound x 4096 ltac:(lia)).
  unfold span. split.
  - intros R. destruct (Z.leb_spec (a / 4096) (x / 4096)); [|lia]. destruct (Z.ltb_spec (x / 4096) (a / 4096 + size / 4096)); [reflexivity|lia].
  - intros R. destruct (Z.leb_spec (a / 4096) (x / 4096)); [|reflexivity]. destruct (Z.ltb_spec (x / 4096) (a / 4096 + size / 4096)); [|reflexivity].
    exfalso. apply (R (Z.max a (x / 4096 * 4096))); [lia|].
    destruct (Z.max_spec a (x / 4096 * 4096)) as [(_ & ->)|(C & ->)]; [apply Z.div_mul; lia|]. assert (a / 4096 = x / 4096) by lia. lia.
Qed.

Definition protection (p : Z) : Prop := 0 <= p < 8.

Lemma any_false s p n : any s p n = false -> forall q, p <= q < p + n -> s q = None.
Proof.
  intros A q Q. unfold any in A. destruct (s q) eqn:S0; [|reflexivity].
  assert (T : existsb (fun i => match s (p + Z.of_nat i) with Some _ => true | None => false end) (seq 0 (Z.to_nat n)) = true).
  { apply existsb_exists. exists (Z.to_nat (q - p)). split; [apply in_seq; lia|]. rewrite Z2Nat.id by lia. replace (p + (q - p)) with q by lia. rewrite S0. reflexivity. }
  congruence.
Qed.
Lemma all_true s p n : (forall q, p <= q < p + n -> s q <> None) -> all s p n = true.
Proof.
  intros A. unfold all. apply forallb_forall. intros i I0. apply in_seq in I0. specialize (A (p + Z.of_nat i) ltac:(lia)). destruct (s _); [reflexivity|contradiction].
Qed.
(* the kernel's choices are free pages *)
Definition chooses (k : kernel) : Prop := forall n, 0 < n -> 0 < free_at k (pages k) n /\ forall q, free_at k (pages k) n <= q < free_at k (pages k) n + n -> pages k q = None.

(* the flags: shared or private, with or without MAP_FIXED, MAP_ANONYMOUS and MAP_STACK *)
Definition flags_of (sh fixed anon stack : bool) : Z := (if sh then 1 else 2) + (if fixed then 4 else 0) + (if anon then 32 else 0) + (if stack then 131072 else 0).

Lemma flag_bits p sh fixed anon stack : protection p ->
  let m := Z.land (Z.lor (Z.shiftl p 16) (Z.land (flags_of sh fixed anon stack) 65535)) ALL_FLAGS in
  Z.testbit m 0 = sh /\ Z.testbit m 2 = fixed /\ Z.testbit m 3 = false /\ m / 65536 = p /\ (Z.land (flags_of sh fixed anon stack) MAP_ANONYMOUS =? MAP_ANONYMOUS) = anon.
Proof.
  intros Q. unfold protection in Q. assert (D : p = 0 \/ p = 1 \/ p = 2 \/ p = 3 \/ p = 4 \/ p = 5 \/ p = 6 \/ p = 7) by lia.
  repeat (destruct D as [->|D]; [destruct sh, fixed, anon, stack; vm_compute; repeat split|]). subst p. destruct sh, fixed, anon, stack; vm_compute; repeat split.
Qed.

(* the object a call names *)
Definition names (k : kernel) (anon : bool) (fd : Z) (o : option Z) : Prop := if anon then o = None else 0 <= fd < 2 ^ 31 /\ exists f, file k fd = Some f /\ o = Some f.

Theorem mmap_ok k addr n p sh fixed anon stack fd off o : chooses k -> addr mod 4096 = 0 -> 0 <= addr < 2 ^ 64 -> 0 < n -> n + 4096 < 2 ^ 64 -> protection p -> off mod 4096 = 0 -> 0 <= off < 2 ^ 63 ->
  names k anon fd o -> exists k' a, mmap k addr n p (flags_of sh fixed anon stack) fd off = inl (k', a) /\ a mod 4096 = 0 /\ (fixed = true -> a = addr) /\
    (fixed = false -> forall x, a <= x < a + n -> shows (pages k) x = None) /\
    (forall x, a <= x < a + n -> shows (pages k') x = Some (o, off + (x - a), p, sh)) /\
    (forall x, apart x a n -> shows (pages k') x = shows (pages k) x).
Proof.
  intros C A AR N L Q O OR NM. destruct (round_up_ok n ltac:(lia) L) as (size & ES & SM & SR).
  destruct (flag_bits p sh fixed anon stack Q) as (B0 & B2 & B3 & BP & BA).
  unfold mmap. destruct (Z.eqb_spec n 0); [lia|]. rewrite ES. cbv zeta. rewrite BA.
  set (fl := Z.land (Z.lor (Z.shiftl p 16) (Z.land (flags_of sh fixed anon stack) 65535)) ALL_FLAGS) in *. clearbody fl.
  assert (OU : as_usize off = off) by (apply Z.mod_small; change (2 ^ 63) with 9223372036854775808 in OR; change (2 ^ 64) with 18446744073709551616; lia). rewrite OU.
  set (P0 := if fixed then addr / 4096 else if (addr / 4096 =? 0) || any (pages k) (addr / 4096) (size / 4096) then free_at k (pages k) (size / 4096) else addr / 4096).
  set (k' := set_pages k (span (pages k) P0 (size / 4096) (fun q => Some (P o (off / 4096 + (q - P0)) p sh)))).
  assert (F : fmap k (if anon then 2 ^ 64 - 1 else as_usize fd) (M off size fl addr) = inl (k', P0 * 4096)).
  { unfold fmap. cbn [m_offset m_size m_address m_flags]. unfold PAGE_SIZE. rewrite O, SM, A. cbn [Z.eqb negb orb]. rewrite B0, B2, B3, BP, andb_false_r. cbn [andb]. cbv zeta. fold P0.
    destruct anon.
    - rewrite Z.eqb_refl. unfold names in NM. unfold k'. rewrite NM. reflexivity.
    - destruct NM as (FR & f & FF & ->). assert (FU : as_usize fd = fd) by (apply Z.mod_small; change (2 ^ 31) with 2147483648 in FR; change (2 ^ 64) with 18446744073709551616; lia).
      rewrite FU. destruct (Z.eqb_spec fd (2 ^ 64 - 1)) as [X|X]; [exfalso; change (2 ^ 31) with 2147483648 in FR; change (2 ^ 64) with 18446744073709551616 in X; lia|].
      rewrite FF. unfold k'. reflexivity. }
  exists k', (P0 * 4096). split; [destruct anon; exact F|].
  assert (PM : P0 * 4096 mod 4096 = 0) by (apply Z.mod_mul; lia).
  split; [exact PM|]. pose proof (Z.div_mod addr 4096 ltac:(lia)) as DA. pose proof (Z.div_mod size 4096 ltac:(lia)) as DS.
  split; [intros X; unfold P0; rewrite X; lia|]. split; [|split].
  - intros X x R. unfold shows. pose proof (Z.div_mod x 4096 ltac:(lia)). pose proof (Z.mod_pos_bound x 4096 ltac:(lia)).
    assert (Y : pages k (x / 4096) = None); [|rewrite Y; reflexivity].
    unfold P0 in R. rewrite X in R. destruct ((addr / 4096 =? 0) || any (pages k) (addr / 4096) (size / 4096)) eqn:T.
    + apply (proj2 (C (size / 4096) ltac:(lia))). lia.
    + apply orb_false_iff in T. apply (any_false _ _ _ (proj2 T)). lia.
  - intros x R. unfold shows, k'. cbn [pages set_pages].
    pose proof (span_bytes (pages k) (P0 * 4096) n size (fun q => Some (P o (off / 4096 + (q - P0)) p sh)) x PM N SM SR) as (S1 & _). rewrite Z.div_mul in S1 by lia. rewrite S1 by exact R.
    cbn [obj pos prot shared]. pose proof (Z.div_mod x 4096 ltac:(lia)). pose proof (Z.div_mod off 4096 ltac:(lia)).
    replace ((off / 4096 + (x / 4096 - P0)) * 4096 + x mod 4096) with (off + (x - P0 * 4096)) by lia. reflexivity.
  - intros x R. unfold shows, k'. cbn [pages set_pages].
    pose proof (span_bytes (pages k) (P0 * 4096) n size (fun q => Some (P o (off / 4096 + (q - P0)) p sh)) x PM N SM SR) as (_ & S1). rewrite Z.div_mul in S1 by lia. rewrite S1 by exact R. reflexivity.
Qed.

Theorem munmap_ok k a n : a mod 4096 = 0 -> 0 < n -> n + 4096 < 2 ^ 64 ->
  exists k', munmap k a n = inl k' /\ (forall x, a <= x < a + n -> shows (pages k') x = None) /\ (forall x, apart x a n -> shows (pages k') x = shows (pages k) x).
Proof.
  intros A N L. destruct (round_up_ok n ltac:(lia) L) as (size & ES & SM & SR). unfold munmap. destruct (Z.eqb_spec n 0); [lia|]. rewrite ES.
  unfold funmap, PAGE_SIZE. rewrite A. cbn [Z.eqb negb]. eexists. split; [reflexivity|]. cbn [pages set_pages].
  split; intros x R; unfold shows; pose proof (span_bytes (pages k) a n size (fun _ => None) x A N SM SR) as (S1 & S2); [rewrite S1 by exact R|rewrite S2 by exact R]; reflexivity.
Qed.

Theorem mprotect_ok k a n p : a mod 4096 = 0 -> 0 < n -> n + 4096 < 2 ^ 64 -> protection p -> (forall x, a <= x < a + n -> shows (pages k) x <> None) ->
  exists k', mprotect k a n p = inl k' /\
    (forall x, a <= x < a + n -> exists o i q s, shows (pages k) x = Some (o, i, q, s) /\ shows (pages k') x = Some (o, i, p, s)) /\
    (forall x, apart x a n -> shows (pages k') x = shows (pages k) x).
Proof.
  intros A N L Q PR. destruct (round_up_ok n ltac:(lia) L) as (size & ES & SM & SR). unfold mprotect. rewrite ES. cbv zeta.
  assert (F : as_usize (Z.shiftl p 16) = p * 65536 /\ (Z.land (p * 65536) ALL_FLAGS =? p * 65536) = true).
  { unfold protection in Q. assert (D : p = 0 \/ p = 1 \/ p = 2 \/ p = 3 \/ p = 4 \/ p = 5 \/ p = 6 \/ p = 7) by lia.
    repeat (destruct D as [->|D]; [vm_compute; split; reflexivity|]). subst p. vm_compute. split; reflexivity. }
  destruct F as (F1 & F2). rewrite F1, F2. unfold sys_mprotect, PAGE_SIZE. rewrite A. cbn [Z.eqb negb].
  pose proof (Z.div_mod a 4096 ltac:(lia)) as DA. pose proof (Z.div_mod size 4096 ltac:(lia)) as DS.
  assert (AL : all (pages k) (a / 4096) (size / 4096) = true).
  { apply all_true. intros q R E. assert (X : exists x, a <= x < a + n /\ x / 4096 = q).
    { exists (q * 4096). split; [lia|apply Z.div_mul; lia]. }
    destruct X as (x & XR & XQ). apply (PR x XR). unfold shows. rewrite XQ, E. reflexivity. }
  rewrite AL. eexists. split; [reflexivity|]. cbn [pages set_pages]. rewrite Z.div_mul by lia.
  split; intros x R; pose proof (span_bytes (pages k) a n size (fun q => match pages k q with Some g => Some (P (obj g) (pos g) p (shared g)) | None => None end) x A N SM SR) as (S1 & S2).
  - specialize (PR x R). unfold shows in *. rewrite S1 by exact R. destruct (pages k (x / 4096)) as [g|]; [|contradiction].
    exists (obj g), (pos g * 4096 + x mod 4096), (prot g), (shared g). split; reflexivity.
  - unfold shows. rewrite S2 by exact R. reflexivity.
Qed.

Theorem errors k addr n p f fd off : mmap k addr 0 p f fd off = inr 22 /\ munmap k addr 0 = inr 22 /\
  (2 ^ 64 <= n + 4096 -> mmap k addr n p f fd off = inr 12 /\ munmap k addr n = inr 12 /\ mprotect k addr n p = inr 12).
Proof.
  split; [reflexivity|]. split; [reflexivity|]. intros L.
  assert (R : round_up n = None) by (unfold round_up, PAGE_SIZE; destruct (Z.ltb_spec (n + 4096) (2 ^ 64)); [lia|reflexivity]).
  unfold mmap, munmap, mprotect. rewrite R. destruct (Z.eqb_spec n 0) as [->|]; [exfalso; vm_compute in L; apply L; reflexivity|]. repeat split.
Qed.

(* shm_open *)
Fixpoint no_slashes (s : list Z) : list Z := match s with b :: t => if b =? 47 then no_slashes t else s | [] => [] end.
Lemma skip_slash_spec s : skip_slash s = no_slashes s.
Proof.
  induction s as [|b s IH]; [reflexivity|]. cbn [no_slashes]. destruct (Z.eqb_spec b 47) as [->|B]; [exact IH|].
  destruct b as [|b|b]; try reflexivity. cbn [skip_slash]. repeat (match goal with y : positive |- _ => destruct y; try reflexivity end). exfalso. apply B. reflexivity.
Qed.
Theorem shm_same a b : shm_path a = shm_path b <-> no_slashes a = no_slashes b.
Proof. unfold shm_path. rewrite !skip_slash_spec. split; [apply app_inv_head|intros ->; reflexivity]. Qed.
