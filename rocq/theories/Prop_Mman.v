From Coq Require Import String.
From Verif Require Import Base Ctype_spec Mman_model Mman_proofs.
Open Scope string_scope.
Open Scope list_scope.
Open Scope Z_scope.

(* C153 full: after mmap of n bytes, each of the n bytes at the address returned is the byte of the object named at the offset plus its distance, with the
   protection asked for; no page without one of these bytes has changed; without MAP_FIXED they were free before, with it the address is
   the one given; a descriptor that is not open is EBADF.  munmap unmaps exactly the pages with one of the n bytes, and mprotect
   changes the protection of exactly these.  Advice such as MAP_POPULATE does not change this.  shm_open opens the same object for the same name and
   different ones for different names, and the descriptor is closed by exec.
   Missing: the descriptor -1 (refuted), MAP_POPULATE (refuted), closing by exec (refuted).  Kernel: as modelled. *)
Theorem C153_mmap_partial : forall k addr n p sh fixed anon stack fd off o, chooses k -> addr mod 4096 = 0 -> 0 <= addr < 2 ^ 64 -> 0 < n -> n + 4096 < 2 ^ 64 -> 0 <= p < 8 -> off mod 4096 = 0 -> 0 <= off < 2 ^ 63 ->
  names k anon fd o -> exists k' a, mmap k addr n p (flags_of sh fixed anon stack) fd off = inl (k', a) /\ a mod 4096 = 0 /\ (fixed = true -> a = addr) /\
    (fixed = false -> forall x, a <= x < a + n -> shows (pages k) x = None) /\
    (forall x, a <= x < a + n -> shows (pages k') x = Some (o, off + (x - a), p, sh)) /\
    (forall x, apart x a n -> shows (pages k') x = shows (pages k) x).
Proof. exact mmap_ok. Qed.
Print Assumptions C153_mmap_partial.
(* pages from 16 on are free, and descriptor 3 is open *)
Definition kernel0 : kernel := K (fun q => if (0 <=? q) && (q <? 16) then Some (P None q 6 false) else None) (fun fd => if fd =? 3 then Some 5 else None) (fun _ _ => 16).
Example C153_mmap_case : chooses kernel0 /\ names kernel0 false 3 (Some 5) /\ names kernel0 true (-1) None /\ flags_of false false true false = 34 /\
  match mmap kernel0 0 5000 3 (flags_of true false false false) 3 8192 with
  | inl (k, a) => a = 65536 /\ shows (pages k) 70535 = Some (Some 5, 13191, 3, true) /\ shows (pages k) (65536 + 8192) = None
  | inr _ => False
  end.
Proof.
  split; [|split; [|split; [reflexivity|split; [reflexivity|vm_compute; repeat split]]]].
  - intros n N. cbn [free_at pages kernel0]. split; [lia|]. intros q Q. destruct (Z.ltb_spec q 16); [lia|]. rewrite andb_false_r. reflexivity.
  - split; [split; [discriminate|reflexivity]|]. exists 5. split; reflexivity.
Qed.
Theorem C153_munmap : forall k a n, a mod 4096 = 0 -> 0 < n -> n + 4096 < 2 ^ 64 ->
  exists k', munmap k a n = inl k' /\ (forall x, a <= x < a + n -> shows (pages k') x = None) /\ (forall x, apart x a n -> shows (pages k') x = shows (pages k) x).
Proof. exact munmap_ok. Qed.
Print Assumptions C153_munmap.
Example C153_munmap_case : match munmap kernel0 4096 4097 with inl k => shows (pages k) 12287 = None /\ shows (pages k) 12288 <> None /\ shows (pages k) 4095 <> None | inr _ => False end.
Proof. vm_compute. repeat split; discriminate. Qed.
Theorem C153_mprotect : forall k a n p, a mod 4096 = 0 -> 0 < n -> n + 4096 < 2 ^ 64 -> 0 <= p < 8 -> (forall x, a <= x < a + n -> shows (pages k) x <> None) ->
  exists k', mprotect k a n p = inl k' /\
    (forall x, a <= x < a + n -> exists o i q s, shows (pages k) x = Some (o, i, q, s) /\ shows (pages k') x = Some (o, i, p, s)) /\
    (forall x, apart x a n -> shows (pages k') x = shows (pages k) x).
Proof. exact mprotect_ok. Qed.
Print Assumptions C153_mprotect.
Example C153_mprotect_case : match mprotect kernel0 4096 4097 5 with inl k => shows (pages k) 12287 = Some (None, 12287, 5, false) /\ shows (pages k) 12288 = Some (None, 12288, 6, false) | inr _ => False end /\
  mprotect kernel0 4096 1 8 = inr 22 /\ mprotect kernel0 61440 4097 1 = inr 12.
Proof. vm_compute. repeat split. Qed.
Theorem C153_errors : forall k addr n p f fd off, mmap k addr 0 p f fd off = inr 22 /\ munmap k addr 0 = inr 22 /\
  (2 ^ 64 <= n + 4096 -> mmap k addr n p f fd off = inr 12 /\ munmap k addr n = inr 12 /\ mprotect k addr n p = inr 12).
Proof. exact errors. Qed.
Print Assumptions C153_errors.
Theorem C153_not_open_partial : forall k addr n p sh fd, addr mod 4096 = 0 -> 0 < n -> n + 4096 < 2 ^ 64 -> 0 <= p < 8 -> 0 <= fd < 2 ^ 31 -> file k fd = None ->
  mmap k addr n p (flags_of sh false false false) fd 0 = inr 9.
Proof.
  intros k addr n p sh fd A N L Q FR FF. destruct (round_up_ok n ltac:(lia) L) as (size & ES & SM & SR). destruct (flag_bits p sh false false false Q) as (B0 & B2 & B3 & BP & BA).
  unfold mmap. destruct (Z.eqb_spec n 0); [lia|]. rewrite ES. cbv zeta. rewrite BA. unfold fmap. cbn [m_offset m_size m_address m_flags]. unfold PAGE_SIZE. change (as_usize 0) with 0. rewrite SM, A.
  change (0 mod 4096) with 0. cbn [Z.eqb negb orb]. rewrite B2. cbn [andb]. change (2 ^ 31) with 2147483648 in FR.
  assert (FU : as_usize fd = fd) by (apply Z.mod_small; change (2 ^ 64) with 18446744073709551616; lia). rewrite FU, FF.
  destruct (Z.eqb_spec fd (2 ^ 64 - 1)) as [X|X]; [exfalso; change (2 ^ 64) with 18446744073709551616 in X; lia|]. reflexivity.
Qed.
Print Assumptions C153_not_open_partial.
Example C153_not_open_case : file kernel0 4 = None /\ mmap kernel0 0 1 4 2 4 0 = inr 9. Proof. vm_compute. split; reflexivity. Qed.
(* -1, as open returns when it fails: fresh memory is mapped instead of the file *)
Theorem C153_descriptor_refuted : forall k n p sh, chooses k -> 0 < n -> n + 4096 < 2 ^ 64 -> 0 <= p < 8 ->
  exists k' a, mmap k 0 n p (flags_of sh false false false) (-1) 0 = inl (k', a) /\ forall x, a <= x < a + n -> shows (pages k') x = Some (None, x - a, p, sh).
Proof.
  intros k n p sh C N L Q. destruct (mmap_ok k 0 n p sh false true false (-1) 0 None C eq_refl ltac:(lia) N L Q eq_refl ltac:(lia) eq_refl) as (k' & a & E & _ & _ & _ & S0 & _).
  exists k', a. split; [|exact S0]. rewrite <- E. unfold mmap. destruct (n =? 0); [reflexivity|]. destruct (round_up n); [|reflexivity]. cbv zeta.
  destruct (flag_bits p sh false true false Q) as (_ & _ & _ & _ & BA). destruct (flag_bits p sh false false false Q) as (_ & _ & _ & _ & BB). rewrite BA, BB.
  replace (Z.land (flags_of sh false true false) 65535) with (Z.lor (Z.land (flags_of sh false false false) 65535) 32) by (destruct sh; reflexivity).
  rewrite Z.lor_assoc, (Z.land_lor_distr_l _ 32). change (Z.land 32 ALL_FLAGS) with 0. rewrite Z.lor_0_r. reflexivity.
Qed.
Print Assumptions C153_descriptor_refuted.
Example C153_descriptor_case : match mmap kernel0 0 1 4 2 (-1) 0 with inl (k, a) => shows (pages k) a = Some (None, 0, 4, false) | inr _ => False end. Proof. vm_compute. reflexivity. Qed.
(* MAP_POPULATE (31) with MAP_PRIVATE and MAP_ANONYMOUS: a hint that is taken is an error, though there is room, and the memory is shared *)
Theorem C153_populate_refuted : exists k, chooses k /\ mmap k 4096 1 6 (Z.lor 34 31) (-1) 0 = inr 17 /\
  match mmap k 0 1 6 34 (-1) 0, mmap k 65536 1 6 (Z.lor 34 31) (-1) 0 with
  | inl (k1, a1), inl (k2, a2) => shows (pages k1) a1 = Some (None, 0, 6, false) /\ shows (pages k2) a2 = Some (None, 0, 6, true)
  | _, _ => False
  end.
Proof. exists kernel0. split; [apply C153_mmap_case|]. vm_compute. repeat split. Qed.
Print Assumptions C153_populate_refuted.

Theorem C153_shm : forall a b f m, (shm_path a = shm_path b <-> no_slashes a = no_slashes b) /\ shm_open a f m = (codes "/scheme/shm/" ++ no_slashes a, f, m).
Proof. intros a b f m. split; [apply shm_same|]. unfold shm_open, shm_path. rewrite skip_slash_spec. reflexivity. Qed.
Print Assumptions C153_shm.
Example C153_shm_case : no_slashes (codes "/mem") = codes "mem" /\ shm_open (codes "/mem") 2 0 = (codes "/scheme/shm/mem", 2, 0). Proof. vm_compute. split; reflexivity. Qed.
(* O_CLOEXEC (2^24) is not added *)
Theorem C153_cloexec_refuted : forall name oflag mode, Z.testbit oflag 24 = false -> Z.testbit (snd (fst (shm_open name oflag mode))) 24 = false.
Proof. intros name oflag mode N. exact N. Qed.
Print Assumptions C153_cloexec_refuted.
Example C153_cloexec_case : Z.testbit 2 24 = false. Proof. reflexivity. Qed.
