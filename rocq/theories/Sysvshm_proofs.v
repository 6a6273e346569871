From Verif Require Import Base Word_mem Sysvshm_model Sysvshm_spec.

Lemma pages_up n : page_up n = pages n.
Proof. unfold page_up, pages. lia. Qed.
Lemma pages_ge n : 0 <= n -> n <= pages n.
Proof. unfold pages. intro. Z.div_mod_to_equations. lia. Qed.
Lemma pages_one n : 0 < n -> 4096 <= pages n.
Proof. unfold pages. intro. Z.div_mod_to_equations. lia. Qed.
Lemma land_bit f i : 0 <= i -> (Z.land f (2 ^ i) =? 0) = negb (Z.testbit f i).
Proof.
  intro I0. destruct (Z.testbit f i) eqn:B; cbn [negb].
  - apply Z.eqb_neq. intro E. assert (X : Z.testbit (Z.land f (2 ^ i)) i = false) by (rewrite E; apply Z.bits_0).
    rewrite Z.land_spec, B, Z.pow2_bits_true in X by exact I0. discriminate X.
  - apply Z.eqb_eq. apply Z.bits_inj'. intros n N. rewrite Z.land_spec, Z.pow2_bits_eqb, Z.bits_0 by exact I0.
    destruct (Z.eqb_spec i n) as [<-|]; [rewrite B; reflexivity|apply andb_false_r].
Qed.

Definition header_ok (w : world) (o total : Z) : Prop := forall k, (k < 8)%nat -> contents w o (Z.of_nat k) = nth k (le_bytes 8 total) 0.
Record inv (fd size : Z) (w : world) (c : Z -> Z) (ps : list Z) (o : Z) : Prop := Inv {
  i_size : 0 <= size /\ size + 8 < 2 ^ 63;
  i_fd : fds w fd = Some o;
  i_sizes : sizes w o = size + 8;
  i_head : ps <> [] -> header_ok w o (size + 8);
  i_bytes : forall i, 0 <= i < size -> contents w o (8 + i) = c i;
  i_maps : forall p, In p ps -> 8 < p /\ p - 8 + pages (size + 8) < 2 ^ 64 /\
             forall x, p - 8 <= x < p - 8 + pages (size + 8) -> space w x = Some (o, x - (p - 8), true)
}.

Lemma get_inv fd size w0 w pid key flg : 0 <= size -> Z.testbit flg 9 = true -> find (names w0) (the_name pid key) = None ->
  shmget w0 pid key size flg fd = (w, inl fd) -> inv fd size w (fun _ => 0) [] (objects w0).
Proof.
  intros SZ F N E. unfold shmget, IPC_PRIVATE in E. fold (the_name pid key) in E. rewrite (land_bit flg 9 ltac:(lia) : (Z.land flg IPC_CREAT =? 0) = _), F in E.
  cbn [negb andb] in E. unfold open in E. rewrite N in E. cbn [andb fds] in E. unfold HEADER in E.
  destruct (Z.leb_spec (2 ^ 64) (size + 8)); [discriminate E|]. destruct (Z.leb_spec (2 ^ 63) (size + 8)); [discriminate E|].
  rewrite Z.eqb_refl in E. injection E as <-. constructor; cbn.
  - lia.
  - rewrite Z.eqb_refl. reflexivity.
  - rewrite Z.eqb_refl. reflexivity.
  - intros []. reflexivity.
  - intros i I. rewrite !Z.eqb_refl. destruct ((8 + i <? size + 8) && (8 + i <? 0)); reflexivity.
  - intros p [].
Qed.

(* storing within one mapping *)
Lemma stores_ok l : forall w a o k, (forall x, a <= x < a + len l -> space w x = Some (o, x - a + k, true)) ->
  exists w', stores w a l = Ok w' /\ fds w' = fds w /\ sizes w' = sizes w /\ space w' = space w /\
    (forall n, (n < length l)%nat -> contents w' o (k + Z.of_nat n) = nth n l 0) /\
    (forall j, ~ k <= j < k + len l -> contents w' o j = contents w o j).
Proof.
  induction l as [|v l IH]; intros w a o k M.
  - exists w. cbn. repeat split; auto. intros n N. lia.
  - rewrite len_cons in M. pose proof (len_nonneg l) as LN. cbn [stores]. unfold store. rewrite (M a) by lia. cbn [bind].
    replace (a - a + k) with k by lia.
    set (w1 := W _ _ _ _ _ _).
    destruct (IH w1 (a + 1) o (k + 1)) as (w' & E & F1 & F2 & F3 & R & C).
    { intros x X. cbn. rewrite M by lia. f_equal. f_equal. f_equal. lia. }
    exists w'. split; [exact E|]. rewrite F1, F2, F3. split; [reflexivity|]. split; [reflexivity|]. split; [reflexivity|]. split.
    + intros [|n] N; cbn [length] in N.
      * rewrite Z.add_0_r. rewrite C by lia. cbn. rewrite !Z.eqb_refl. reflexivity.
      * cbn [nth]. replace (k + Z.of_nat (S n)) with (k + 1 + Z.of_nat n) by lia. apply R. lia.
    + intros j J. rewrite len_cons in J. rewrite C by lia. cbn. rewrite Z.eqb_refl. destruct (Z.eqb_spec j k); [lia|reflexivity].
Qed.

Lemma attach_ok fd size w c ps o flg a : inv fd size w c ps o -> Z.testbit flg 12 = false -> unused w a (pages (size + 8)) ->
  exists w', shmat w fd flg a = Ok (w', inl (a + 8)) /\ inv fd size w' c (a + 8 :: ps) o /\
    (forall x, ~ a <= x < a + pages (size + 8) -> space w' x = space w x) /\ fds w' = fds w.
Proof.
  intros [SZ FD SI HE BY MA] FL (A0 & A1 & U). unfold shmat. rewrite FD, SI. destruct (Z.eqb_spec (size + 8) 0); [lia|].
  rewrite (land_bit flg 12 ltac:(lia) : (Z.land flg SHM_RDONLY =? 0) = _), FL. cbn [negb]. rewrite pages_up. pose proof (pages_ge (size + 8) ltac:(lia)) as PG.
  assert (L8 : len (le_bytes 8 (size + 8)) = 8) by apply le_bytes_len.
  destruct (stores_ok (le_bytes 8 (size + 8)) (map w a (pages (size + 8)) o true) a o 0) as (w' & E & F1 & F2 & F3 & R & C).
  { intros x X. rewrite L8 in X. cbn. destruct (Z.leb_spec a x); [|lia]. destruct (Z.ltb_spec x (a + pages (size + 8))); [|lia]. cbn [andb].
    rewrite Z.add_0_r. reflexivity. }
  rewrite E. cbn [bind]. exists w'. split; [reflexivity|]. rewrite L8 in C. rewrite le_bytes_length in R. split; [|split].
  - constructor.
    + exact SZ.
    + rewrite F1. exact FD.
    + rewrite F2. exact SI.
    + intros _ k K. exact (R k K).
    + intros i I. rewrite C by lia. apply BY. exact I.
    + intros p [<-|P].
      * replace (a + 8 - 8) with a by lia. split; [lia|]. split; [lia|]. intros x X. rewrite F3. cbn.
        destruct (Z.leb_spec a x); [|lia]. destruct (Z.ltb_spec x (a + pages (size + 8))); [|lia]. reflexivity.
      * destruct (MA p P) as (M1 & M2 & M3). split; [exact M1|]. split; [exact M2|]. intros x X. rewrite F3. cbn.
        destruct (Z.leb_spec a x); cbn [andb]; [|apply M3; exact X]. destruct (Z.ltb_spec x (a + pages (size + 8))); [|apply M3; exact X].
        specialize (M3 x X). rewrite U in M3 by lia. discriminate M3.
  - intros x X. rewrite F3. cbn. destruct (Z.leb_spec a x); cbn [andb]; [|reflexivity]. destruct (Z.ltb_spec x (a + pages (size + 8))); [lia|reflexivity].
  - exact F1.
Qed.

Lemma store_inv fd size w c ps o p i v : inv fd size w c ps o -> In p ps -> 0 <= i < size ->
  exists w', store w (p + i) v = Ok w' /\ inv fd size w' (set_byte c i v) ps o.
Proof.
  intros [SZ FD SI HE BY MA] P I. destruct (MA p P) as (M1 & M2 & M3). pose proof (pages_ge (size + 8) ltac:(lia)) as PG.
  unfold store. rewrite M3 by lia. replace (p + i - (p - 8)) with (8 + i) by lia. eexists. split; [reflexivity|].
  constructor; cbn; try assumption.
  - intros NE k K. cbn [contents]. rewrite Z.eqb_refl. destruct (Z.eqb_spec (Z.of_nat k) (8 + i)); [lia|]. exact (HE NE k K).
  - intros j J. rewrite Z.eqb_refl. unfold set_byte. destruct (Z.eqb_spec (8 + j) (8 + i)), (Z.eqb_spec j i); try lia; apply BY; exact J.
Qed.

Lemma load_le_ok k : forall w a v, (forall n, (n < k)%nat -> load w (a + Z.of_nat n) = Ok (nth n (le_bytes k v) 0)) -> 0 <= v < 256 ^ Z.of_nat k -> load_le k w a = Ok v.
Proof.
  induction k as [|k IH]; intros w a v L V; cbn [load_le].
  - change (256 ^ Z.of_nat 0) with 1 in V. f_equal. lia.
  - pose proof (L 0%nat ltac:(lia)) as L0. rewrite Z.add_0_r in L0. rewrite L0. cbn [bind le_bytes nth].
    rewrite (IH w (a + 1) (v / 256)).
    + cbn [bind]. f_equal. pose proof (Z.div_mod v 256 ltac:(lia)). lia.
    + intros n N. replace (a + 1 + Z.of_nat n) with (a + Z.of_nat (S n)) by lia. rewrite L by lia. reflexivity.
    + replace (Z.of_nat (S k)) with (Z.of_nat k + 1) in V by lia. rewrite Z.pow_add_r in V by lia.
      change (256 ^ 1) with 256 in V. split; [apply Z.div_pos; lia|]. apply Z.div_lt_upper_bound; lia.
Qed.
Lemma detach_ok fd size w c ps o p : inv fd size w c ps o -> In p ps ->
  exists w', shmdt w p = Ok (w', inl 0) /\ inv fd size w' c (filter (fun q => negb (q =? p)) ps) o /\
    forall x, space w' x = if (p - 8 <=? x) && (x <? p - 8 + pages (size + 8)) then None else space w x.
Proof.
  intros [SZ FD SI HE BY MA] P. destruct (MA p P) as (M1 & M2 & M3). pose proof (pages_ge (size + 8) ltac:(lia)) as PG.
  pose proof (pages_one (size + 8) ltac:(lia)) as PO. assert (NE : ps <> []) by (intros ->; destruct P). specialize (HE NE).
  unfold shmdt. destruct (Z.eqb_spec p 0); [lia|]. destruct (Z.eqb_spec p (2 ^ 64 - 1)); [lia|]. cbn [orb]. unfold HEADER.
  rewrite (load_le_ok 8 w (p - 8) (size + 8)).
  - cbn [bind]. destruct (Z.eqb_spec (size + 8) 0); [lia|]. eexists. split; [reflexivity|]. rewrite pages_up. split; [|intro x; reflexivity].
    constructor; cbn; try assumption.
    + intros _. exact HE.
    + intros q Q. apply filter_In in Q. destruct Q as (Q & D). destruct (Z.eqb_spec q p) as [|NQ]; [discriminate D|].
      destruct (MA q Q) as (N1 & N2 & N3). split; [exact N1|]. split; [exact N2|]. intros x X.
      destruct (Z.leb_spec (p - 8) x); cbn [andb]; [|apply N3; exact X]. destruct (Z.ltb_spec x (p - 8 + pages (size + 8))); [|apply N3; exact X].
      specialize (N3 x X). rewrite M3 in N3 by lia. injection N3 as N3. lia.
  - intros k K. unfold load. rewrite M3 by lia. replace (p - 8 + Z.of_nat k - (p - 8)) with (Z.of_nat k) by lia. f_equal. exact (HE k K).
  - change (256 ^ Z.of_nat 8) with (2 ^ 64). lia.
Qed.

Lemma life_inv fd size w c ps : 0 <= size -> life fd size w c ps -> exists o, inv fd size w c ps o.
Proof.
  intros SZ L. induction L as [w0 w pid key flg F N U E|w c ps flg a w' p L (o & IH) F U E|w c ps p i v w' L (o & IH) P I E|w c ps p w' L (o & IH) P E].
  - exists (objects w0). eapply get_inv; eassumption.
  - exists o. destruct (attach_ok fd size w c ps o flg a IH F U) as (w2 & E2 & R & _). rewrite E in E2. injection E2 as <- ->. exact R.
  - exists o. destruct (store_inv fd size w c ps o p i v IH P I) as (w2 & E2 & R). rewrite E in E2. injection E2 as <-. exact R.
  - exists o. destruct (detach_ok fd size w c ps o p IH P) as (w2 & E2 & R & _). rewrite E in E2. injection E2 as <-. exact R.
Qed.
Lemma inv_load fd size w c ps o p i : inv fd size w c ps o -> In p ps -> 0 <= i < size -> load w (p + i) = Ok (c i).
Proof.
  intros [SZ FD SI HE BY MA] P I. destruct (MA p P) as (M1 & M2 & M3). pose proof (pages_ge (size + 8) ltac:(lia)) as PG.
  unfold load. rewrite M3 by lia. replace (p + i - (p - 8)) with (8 + i) by lia. f_equal. apply BY. exact I.
Qed.

(* keys *)
Lemma same_refl n : same_name n n = true.
Proof. destruct n; cbn; apply Z.eqb_refl. Qed.
Lemma find_unlinked l n : find (filter (fun x => negb (same_name (fst x) n)) l) n = None.
Proof.
  unfold find. induction l as [|x l IH]; [reflexivity|]. cbn [filter]. destruct (same_name (fst x) n) eqn:E; cbn [negb]; [exact IH|].
  cbn [List.find]. rewrite E. exact IH.
Qed.
Lemma find_below l n o k : (forall x, In x l -> snd x < k) -> find l n = Some o -> o < k.
Proof.
  unfold find. intros B F. destruct (List.find (fun x => same_name (fst x) n) l) as [x|] eqn:E; [|discriminate F]. injection F as <-.
  apply find_some in E. apply B. exact (proj1 E).
Qed.
Lemma get_gone w pid key size flg fd w1 : (forall x, In x (names w) -> snd x < objects w) -> shmget w pid key size flg fd = (w1, inl fd) ->
  find (names w1) (the_name pid key) = None /\ exists o, fds w1 fd = Some o /\ o < objects w1.
Proof.
  intros B E. unfold shmget, IPC_PRIVATE in E. fold (the_name pid key) in E.
  destruct (open w (the_name pid key) _ _ fd) as [w2|e] eqn:O; [|discriminate E].
  assert (R : exists o, fds w2 fd = Some o /\ o < objects w2).
  { unfold open in O. destruct (find (names w) (the_name pid key)) as [o|] eqn:F.
    - destruct (_ && _); [discriminate O|]. injection O as <-. exists o. cbn. rewrite Z.eqb_refl. split; [reflexivity|]. exact (find_below _ _ _ _ B F).
    - destruct (negb (Z.land flg IPC_CREAT =? 0)); [|discriminate O]. injection O as <-. exists (objects w). cbn. rewrite Z.eqb_refl. split; [reflexivity|lia]. }
  destruct R as (o & R1 & R2). rewrite R1 in E.
  destruct (negb (Z.land flg IPC_CREAT =? 0)); cbn [andb] in E.
  1: destruct (Z.leb_spec (2 ^ 64) (size + HEADER)); [discriminate E|]; destruct (Z.leb_spec (2 ^ 63) (size + HEADER)); [discriminate E|].
  all: injection E as <-; (split; [apply find_unlinked|]); exists o; cbn; split; assumption.
Qed.
