(* Property C141: System V shared memory. *)
From Verif Require Import Base Sysvshm_model Sysvshm_spec Sysvshm_proofs.

(* C141, sharing: through every attachment of a segment the same bytes are read, zero at first and then those last
   stored through any of them.
   Missing: segments found by their key, other processes, read-only attachments. *)
Theorem C141_share_partial fd size w c ps p i : 0 <= size -> life fd size w c ps -> In p ps -> 0 <= i < size -> load w (p + i) = Ok (c i).
Proof. intros S L P I. destruct (life_inv fd size w c ps S L) as (o & V). exact (inv_load fd size w c ps o p i V P I). Qed.
Print Assumptions C141_share_partial.

(* C141, progress: at any time the segment can be attached where there is room, stored to within its size, and
   detached; detaching takes away that attachment and nothing else. *)
Theorem C141_progress_partial fd size w c ps : 0 <= size -> life fd size w c ps ->
  (forall flg a, Z.testbit flg 12 = false -> unused w a (pages (size + 8)) ->
    exists w' p, shmat w fd flg a = Ok (w', inl p) /\ a <= p /\ p + size <= a + pages (size + 8) /\
      forall x, ~ a <= x < a + pages (size + 8) -> space w' x = space w x) /\
  (forall p i v, In p ps -> 0 <= i < size -> exists w', store w (p + i) v = Ok w') /\
  (forall p, In p ps -> exists w', shmdt w p = Ok (w', inl 0) /\
    (forall i, 0 <= i < size -> load w' (p + i) = Fault) /\
    forall x, ~ p - 8 <= x < p - 8 + pages (size + 8) -> load w' x = load w x).
Proof.
  intros S L. destruct (life_inv fd size w c ps S L) as (o & V). pose proof (pages_ge (size + 8) ltac:(lia)) as PG. split; [|split].
  - intros flg a F U. destruct (attach_ok fd size w c ps o flg a V F U) as (w' & E & _ & C & _). exists w', (a + 8). split; [exact E|].
    split; [lia|]. split; [lia|exact C].
  - intros p i v P I. destruct (store_inv fd size w c ps o p i v V P I) as (w' & E & _). exists w'. exact E.
  - intros p P. destruct (i_maps _ _ _ _ _ _ V p P) as (M1 & M2 & M3).
    assert (D := detach_ok fd size w c ps o p V P). destruct D as (w' & E & V' & C). exists w'. split; [exact E|].
    assert (CC : contents w' = contents w).
    { unfold shmdt in E. destruct ((p =? 0) || (p =? 2 ^ 64 - 1)); [discriminate E|]. destruct (load_le 8 w (p - HEADER)) as [t| | |]; try discriminate E.
      cbn [bind] in E. destruct (t =? 0); [discriminate E|]. injection E as <-. reflexivity. }
    split.
    + intros i I. unfold load. rewrite C. destruct (Z.leb_spec (p - 8) (p + i)); [|lia]. destruct (Z.ltb_spec (p + i) (p - 8 + pages (size + 8))); [|lia]. reflexivity.
    + intros x X. unfold load. rewrite C, CC. destruct (Z.leb_spec (p - 8) x); cbn [andb]; [|reflexivity]. destruct (Z.ltb_spec x (p - 8 + pages (size + 8))); [lia|reflexivity].
Qed.
Print Assumptions C141_progress_partial.

Definition w0 : world := W [] (fun _ => 0) (fun _ _ => 0) (fun _ => None) (fun _ => None) 0.
(* created, attached twice, stored to through the one, which is then detached, and read through the other *)
Example C141_case : exists w c p q, life 3 100 w c [q] /\ p <> q /\ load w (p + 5) = Fault /\ load w (q + 5) = Ok 77.
Proof.
  assert (L0 : life 3 100 (fst (shmget w0 1 42 100 512 3)) (fun _ => 0) []).
  { eapply (life_get 3 100 w0 _ 1 42 512); [reflexivity|reflexivity|discriminate|reflexivity]. }
  assert (PG : pages (100 + 8) = 4096) by reflexivity.
  destruct (proj1 (C141_progress_partial 3 100 _ _ _ ltac:(lia) L0) 0 8192 eq_refl) as (w1 & p & E1 & P1 & P2 & U1).
  { split; [lia|]. split; [rewrite PG; lia|reflexivity]. }
  assert (L1 : life 3 100 w1 (fun _ => 0) [p]).
  { eapply (life_attach 3 100 _ _ _ 0 8192); [exact L0|reflexivity| |exact E1]. split; [lia|]. split; [rewrite PG; lia|reflexivity]. }
  assert (U2 : unused w1 20480 (pages (100 + 8))).
  { split; [lia|]. rewrite PG. split; [lia|]. intros x X. rewrite U1 by (rewrite PG; lia). reflexivity. }
  destruct (proj1 (C141_progress_partial 3 100 _ _ _ ltac:(lia) L1) 0 20480 eq_refl U2) as (w2 & q & E2 & Q1 & Q2 & _).
  assert (L2 : life 3 100 w2 (fun _ => 0) [q; p]) by (eapply (life_attach 3 100 w1 _ _ 0 20480); [exact L1|reflexivity|exact U2|exact E2]).
  destruct (proj1 (proj2 (C141_progress_partial 3 100 _ _ _ ltac:(lia) L2)) p 5 77 ltac:(right; left; reflexivity) ltac:(lia)) as (w3 & E3).
  assert (L3 : life 3 100 w3 (set_byte (fun _ => 0) 5 77) [q; p]) by (eapply life_store; [exact L2|right; left; reflexivity|lia|exact E3]).
  destruct (proj2 (proj2 (C141_progress_partial 3 100 _ _ _ ltac:(lia) L3)) p ltac:(right; left; reflexivity)) as (w4 & E4 & G & _).
  rewrite PG in P2, Q2. assert (L4 : life 3 100 w4 (set_byte (fun _ => 0) 5 77) [q]).
  { replace [q] with (filter (fun y => negb (y =? p)) [q; p]).
    - eapply life_detach; [exact L3|right; left; reflexivity|exact E4].
    - cbn [filter]. rewrite Z.eqb_refl. destruct (Z.eqb_spec q p); [lia|reflexivity]. }
  exists w4, (set_byte (fun _ => 0) 5 77), p, q. split; [exact L4|]. split; [lia|]. split; [apply G; lia|].
  exact (C141_share_partial 3 100 w4 _ [q] q 5 ltac:(lia) L4 (or_introl eq_refl) ltac:(lia)).
Qed.

(* C141, keys: whatever the key and the flags, a segment got by its key can afterwards not be found by it, and
   creating it gives another segment *)
Theorem C141_key_refuted w pid pid2 key size flg flg2 fd fd2 w1 : key <> 0 -> size + 8 < 2 ^ 63 -> (forall x, In x (names w) -> snd x < objects w) ->
  shmget w pid key size flg fd = (w1, inl fd) ->
  (Z.testbit flg2 9 = false -> shmget w1 pid2 key size flg2 fd2 = (w1, inr 2)) /\
  (Z.testbit flg2 9 = true -> exists w2 o, shmget w1 pid2 key size flg2 fd2 = (w2, inl fd2) /\ fds w2 fd2 = Some o /\ (fd <> fd2 -> fds w2 fd <> Some o)).
Proof.
  intros K SZ B E. destruct (get_gone w pid key size flg fd w1 B E) as (F & o & O1 & O2).
  assert (NM : the_name pid key = the_name pid2 key) by (unfold the_name; destruct (Z.eqb_spec key 0); [contradiction|reflexivity]). rewrite NM in F.
  unfold shmget, IPC_PRIVATE. fold (the_name pid2 key). rewrite (land_bit flg2 9 ltac:(lia) : (Z.land flg2 IPC_CREAT =? 0) = _).
  unfold open. rewrite F. split; intro C; rewrite C; cbn [negb andb]; [reflexivity|]. unfold HEADER.
  destruct (Z.leb_spec (2 ^ 64) (size + 8)); [lia|]. destruct (Z.leb_spec (2 ^ 63) (size + 8)); [lia|]. cbn [fds]. rewrite Z.eqb_refl.
  eexists _, (objects w1). split; [reflexivity|]. cbn. rewrite Z.eqb_refl. split; [reflexivity|]. intros D X.
  destruct (Z.eqb_spec fd fd2); [contradiction|]. rewrite O1 in X. injection X as X. lia.
Qed.
Print Assumptions C141_key_refuted.
Example C141_key_case : exists w1, shmget w0 1 42 100 512 3 = (w1, inl 3) /\ shmget w1 1 42 100 0 4 = (w1, inr 2).
Proof. eexists. split; [reflexivity|]. reflexivity. Qed.

(* C141, IPC_PRIVATE: without IPC_CREAT no segment is created *)
Theorem C141_private_refuted : shmget w0 1 0 100 0 3 = (w0, inr 2).
Proof. reflexivity. Qed.
Print Assumptions C141_private_refuted.

(* C141, SHM_RDONLY: attaching read-only faults, whatever the segment, since shmat stores the size in it *)
Theorem C141_readonly_refuted fd size w c ps flg a : 0 <= size -> life fd size w c ps -> Z.testbit flg 12 = true -> shmat w fd flg a = Fault.
Proof.
  intros S L F. destruct (life_inv fd size w c ps S L) as (o & V). pose proof (pages_one (size + 8) ltac:(lia)) as PO.
  unfold shmat. rewrite (i_fd _ _ _ _ _ _ V), (i_sizes _ _ _ _ _ _ V). destruct (Z.eqb_spec (size + 8) 0); [lia|].
  rewrite (land_bit flg 12 ltac:(lia) : (Z.land flg SHM_RDONLY =? 0) = _), F. cbn [negb]. rewrite pages_up.
  cbn [Word_mem.le_bytes stores]. unfold store. cbn [map space]. destruct (Z.leb_spec a a); [|lia]. destruct (Z.ltb_spec a (a + pages (size + 8))); [|lia]. reflexivity.
Qed.
Print Assumptions C141_readonly_refuted.
Example C141_readonly_case : shmat (fst (shmget w0 1 42 100 512 3)) 3 4096 8192 = Fault.
Proof. reflexivity. Qed.

(* C141, existing names: a name that is there gives its object; without IPC_CREAT its size and bytes stay, with
   IPC_CREAT and IPC_EXCL the call is refused and changes nothing.  Attaching an unknown identifier is refused. *)
Theorem C141_existing w pid key size flg fd o : find (names w) (the_name pid key) = Some o ->
  (Z.testbit flg 9 = false -> exists w', shmget w pid key size flg fd = (w', inl fd) /\ fds w' fd = Some o /\ sizes w' = sizes w /\ contents w' = contents w /\ space w' = space w) /\
  (Z.testbit flg 9 = true -> Z.testbit flg 10 = false -> size + 8 < 2 ^ 63 ->
   exists w', shmget w pid key size flg fd = (w', inl fd) /\ fds w' fd = Some o /\ sizes w' o = size + 8) /\
  (Z.testbit flg 9 = true -> Z.testbit flg 10 = true -> shmget w pid key size flg fd = (w, inr 17)).
Proof.
  intro F. unfold shmget, IPC_PRIVATE. fold (the_name pid key).
  rewrite (land_bit flg 9 ltac:(lia) : (Z.land flg IPC_CREAT =? 0) = _), (land_bit flg 10 ltac:(lia) : (Z.land flg IPC_EXCL =? 0) = _).
  unfold open. rewrite F. split; [|split].
  - intros A. rewrite A. cbn [negb andb fds]. rewrite Z.eqb_refl. eexists. split; [reflexivity|]. cbn. rewrite Z.eqb_refl. repeat split.
  - intros A B S. rewrite A, B. cbn [negb andb fds]. unfold HEADER. destruct (Z.leb_spec (2 ^ 64) (size + 8)); [lia|]. destruct (Z.leb_spec (2 ^ 63) (size + 8)); [lia|].
    rewrite Z.eqb_refl. eexists. split; [reflexivity|]. cbn. rewrite !Z.eqb_refl. split; reflexivity.
  - intros A B. rewrite A, B. reflexivity.
Qed.
Print Assumptions C141_existing.
Definition w1 : world := W [(Key 42, 0)] (fun _ => 108) (fun _ i => i) (fun _ => None) (fun _ => None) 1.
Example C141_existing_case : shmget w1 1 42 100 1536 3 = (w1, inr 17) /\ exists w', shmget w1 1 42 7 0 3 = (w', inl 3) /\ fds w' 3 = Some 0 /\ sizes w' 0 = 108.
Proof.
  split; [apply (C141_existing w1 1 42 100 1536 3 0); reflexivity|].
  destruct (proj1 (C141_existing w1 1 42 7 0 3 0 eq_refl) eq_refl) as (w' & A & B & C & _). exists w'. split; [exact A|]. split; [exact B|]. rewrite C. reflexivity.
Qed.
Theorem C141_unknown w id flg a : fds w id = None -> shmat w id flg a = Ok (w, inr 9).
Proof. intro H. unfold shmat. rewrite H. reflexivity. Qed.
Print Assumptions C141_unknown.
Example C141_unknown_case : shmat w1 5 0 8192 = Ok (w1, inr 9).
Proof. apply C141_unknown. reflexivity. Qed.
