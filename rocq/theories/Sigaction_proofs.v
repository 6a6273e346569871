(* Proofs for C60-C62. *)
From Verif Require Import Base Signal_model Signal_spec Signal_proofs Sigaction_model Sigaction_spec.
Opaque Z.pow.

(* ---- packing a handler and flags into a word ---- *)
Lemma stored_bit i : 0 <= i -> Z.testbit STORED_FLAGS i = (25 <=? i) && (i <? 32).
Proof.
  intro I. change STORED_FLAGS with (Z.shiftl (Z.ones 7) 25). rewrite Z.shiftl_spec by exact I. destruct (Z.leb_spec 25 i); cbn [andb].
  - destruct (Z.ltb_spec i 32); [apply Z.ones_spec_low; lia|apply Z.ones_spec_high; lia].
  - apply Z.testbit_neg_r. lia.
Qed.
Definition pack (h f : Z) : Z := Z.lor h (Z.shiftl (Z.land f STORED_FLAGS) 32).
Lemma pack_handler h f : address h -> Z.land (pack h f) (not64 (Z.shiftl STORED_FLAGS 32)) = h.
Proof.
  intro A. apply Z.bits_inj'. intros i I. unfold pack. rewrite Z.land_spec, Z.lor_spec. destruct (Z.lt_ge_cases i 57) as [L|G].
  - rewrite not64_bit, !Z.shiftl_spec by lia. destruct (Z.lt_ge_cases i 32).
    + rewrite !(Z.testbit_neg_r _ (i - 32)) by lia. cbn [negb]. rewrite orb_false_r, andb_true_r. reflexivity.
    + rewrite Z.land_spec, stored_bit by lia. replace (25 <=? i - 32) with false by lia. cbn [andb negb]. rewrite andb_false_r, orb_false_r, andb_true_r. reflexivity.
  - rewrite (bits_range 57 h i A G). destruct (Z.lt_ge_cases i 64) as [L|G'].
    + rewrite not64_bit, !Z.shiftl_spec, stored_bit by lia. replace (25 <=? i - 32) with true by lia. replace (i - 32 <? 32) with true by lia. cbn [andb negb]. apply andb_false_r.
    + rewrite (bits_range 64 (not64 _) i) by (try exact G'; apply not64_range; split; vm_compute; congruence). apply andb_false_r.
Qed.
Lemma pack_flags h f : address h -> Z.land (Z.shiftr (pack h f) 32) STORED_FLAGS = Z.land f STORED_FLAGS.
Proof.
  intro A. apply Z.bits_inj'. intros i I. unfold pack. rewrite !Z.land_spec, Z.shiftr_spec, Z.lor_spec, Z.shiftl_spec, Z.land_spec by lia. replace (i + 32 - 32) with i by lia.
  rewrite !stored_bit by exact I. destruct (Z.leb_spec 25 i); cbn [andb]; [|rewrite !andb_false_r; reflexivity].
  rewrite (bits_range 57 h (i + 32) A) by lia. cbn [orb]. destruct (Z.testbit f i); [apply andb_diag|reflexivity].
Qed.
Lemma flags_stored f : Z.land f FLAGS = f -> Z.land f STORED_FLAGS = f /\ Z.land f IGNORED = 0.
Proof.
  intro F. split.
  - rewrite <- F at 1. rewrite <- Z.land_assoc. change (Z.land FLAGS STORED_FLAGS) with FLAGS. exact F.
  - rewrite <- F. rewrite <- Z.land_assoc. change (Z.land FLAGS IGNORED) with 0. apply Z.land_0_r.
Qed.

Lemma convert_pack DH h f mask : address h ->
  convert_old DH (pack h f, mask) = (if h =? DH then KDefault else if negb (Z.land (Z.land f STORED_FLAGS) IGNORED =? 0) then KIgnore else KHandled h, Z.land f STORED_FLAGS, mask).
Proof. intro A. unfold convert_old. cbn [fst snd]. rewrite pack_handler, pack_flags by exact A. reflexivity. Qed.

(* ---- discarding ---- *)
Lemma clear_bit w k i : 0 <= k < 32 -> 0 <= i < 64 -> Z.testbit (Z.land w (not64 (Z.shiftl 1 k))) i = Z.testbit w i && negb (i =? k).
Proof. intros K I. rewrite Z.land_spec, not64_bit, bit1 by lia. reflexivity. Qed.
Lemma clear_ok sig s : good s -> signal sig -> good (clear_word sig s) /\ forall n, signal n -> blocked (clear_word sig s) n = blocked s n /\ pending (clear_word sig s) n = pending s n && negb (n =? sig).
Proof.
  intros (A & B) SG. unfold signal in SG. unfold clear_word. pose proof (Z.mod_pos_bound (sig - 1) 32 ltac:(lia)) as K. pose proof (Z.div_mod (sig - 1) 32 ltac:(lia)) as D.
  set (idx := (sig - 1) mod 32) in *. set (q := (sig - 1) / 32) in *. destruct (Z.eqb_spec q 0) as [Q|Q].
  - split; [split; [apply land_range; [lia|exact A]|exact B]|]. intros n N. unfold signal in N. unfold blocked, pending. cbn [w0 w1]. destruct (Z.leb_spec n 32).
    + rewrite !clear_bit by lia. replace (n + 31 =? idx) with false by lia. cbn [negb]. rewrite andb_true_r. split; [reflexivity|]. f_equal. f_equal. destruct (Z.eqb_spec (n - 1) idx), (Z.eqb_spec n sig); try reflexivity; lia.
    + replace (n =? sig) with false by lia. cbn [negb]. rewrite andb_true_r. auto.
  - assert (q = 1) by lia. split; [split; [exact A|apply land_range; [lia|exact B]]|]. intros n N. unfold signal in N. unfold blocked, pending. cbn [w0 w1]. destruct (Z.leb_spec n 32).
    + replace (n =? sig) with false by lia. cbn [negb]. rewrite andb_true_r. auto.
    + rewrite !clear_bit by lia. replace (n - 1 =? idx) with false by lia. cbn [negb]. rewrite andb_true_r. split; [reflexivity|]. f_equal. f_equal. destruct (Z.eqb_spec (n - 33) idx), (Z.eqb_spec n sig); try reflexivity; lia.
Qed.
Lemma kept_discard sig st : good (wd st) -> signal sig -> kept sig true st (discard sig st).
Proof.
  intros G S. destruct (clear_ok sig (wd st) G S) as (G' & R). split; [exact G'|]. intros n N. destruct (R n N) as (R1 & R2). split; [exact R1|]. split; [exact R2|].
  unfold discard. cbn [pp]. rewrite member_land, member_not, sigbit_member by assumption. reflexivity.
Qed.
Lemma kept_same sig st : good (wd st) -> kept sig false st st.
Proof. intro G. split; [exact G|]. intros n N. cbn [andb negb]. rewrite !andb_true_r. auto. Qed.
Lemma kept_store sig b st st' m f h : kept sig b st st' -> kept sig b st (store sig m f h st').
Proof. intros K. exact K. Qed.

(* ---- sigaction ---- *)
Lemma some_inj {A B} (a b : A) (x y : B) : Some (a, x) = Some (b, y) -> a = b.
Proof. intro H. injection H as H _. exact H. Qed.
Lemma some_inj2 {A B} (a b : A) (x y : B) : Some (a, x) = Some (b, y) -> x = y.
Proof. intro H. injection H as _ H. exact H. Qed.
Lemma inner_query DH n st : valid n -> sigaction_inner DH n None st = Some (if unblockable n then (KDefault, 0, 0) else convert_old DH (acts st n), st).
Proof.
  intros (S & N). unfold signal in S. unfold sigaction_inner, unblockable. replace ((n <? 0) || (255 <? n)) with false by lia. replace ((n =? 0) || (n =? 32) || (65 <=? n)) with false by lia.
  destruct ((n =? 9) || (n =? 19)); reflexivity.
Qed.
Lemma query_eq DH n st : valid n -> sigaction DH n None st = Some (of_kind (if unblockable n then (KDefault, 0, 0) else convert_old DH (acts st n)), st).
Proof. intro V. unfold sigaction. rewrite inner_query by exact V. reflexivity. Qed.

(* what sigaction_inner stores for a kind *)
Lemma inner_set DH sig k f m st : settable sig -> address DH -> 0 < DH ->
  (forall h, k = KHandled h -> address h /\ h <> DH /\ Z.land f FLAGS = f) -> good (wd st) ->
  exists st', sigaction_inner DH sig (Some (k, f, m)) st = Some (convert_old DH (acts st sig), st') /\
    (of_kind (convert_old DH (acts st' sig)) = of_kind (k, f, m) /\ fst (fst (convert_old DH (acts st' sig))) = k) /\ (forall n, n <> sig -> acts st' n = acts st n) /\
    kept sig (match k with KIgnore => true | KDefault => (sig =? 17) || (sig =? 23) || (sig =? 28) | _ => false end) st st'.
Proof.
  intros ((S & N) & U) A AP HK G. pose proof S as S'. unfold signal in S'. unfold sigaction_inner, unblockable in *. replace ((sig <? 0) || (255 <? sig)) with false by lia. replace ((sig =? 0) || (sig =? 32) || (65 <=? sig)) with false by lia.
  rewrite U. cbv zeta.
  assert (AC : forall x mm ff hh, acts (store sig mm ff hh x) sig = (pack hh ff, mm)) by (intros; unfold store; cbn [acts]; rewrite Z.eqb_refl; reflexivity).
  assert (AN : forall x mm ff hh n, n <> sig -> acts x n = acts st n -> acts (store sig mm ff hh x) n = acts st n) by (intros x mm ff hh n NE E; unfold store; cbn [acts]; destruct (Z.eqb_spec n sig); [contradiction|exact E]).
  assert (DF : forall x mm ff, of_kind (convert_old DH (acts (store sig mm ff DH x) sig)) = Act SIG_DFL 0 0 /\ fst (fst (convert_old DH (acts (store sig mm ff DH x) sig))) = KDefault).
  { intros x mm ff. rewrite AC, convert_pack by exact A. rewrite Z.eqb_refl. split; reflexivity. }
  destruct k as [| |h].
  - eexists. split; [reflexivity|]. split; [|split; [intros n NE; apply AN; auto|apply kept_store, kept_discard; assumption]].
    rewrite AC, convert_pack by (split; vm_compute; congruence). replace (0 =? DH) with false by lia. split; reflexivity.
  - destruct ((sig =? 23) || (sig =? 28)) eqn:E1.
    { eexists. split; [reflexivity|]. split; [apply DF|split; [intros n NE; apply AN; auto|]]. rewrite <- orb_assoc, E1, orb_true_r. apply kept_store, kept_discard; assumption. }
    destruct ((sig =? 20) || (sig =? 22) || (sig =? 21)) eqn:E2.
    { eexists. split; [reflexivity|]. split; [apply DF|split; [intros n NE; apply AN; auto|]]. replace ((sig =? 17) || (sig =? 23) || (sig =? 28)) with false by lia. apply kept_store, kept_same; assumption. }
    destruct (sig =? 17) eqn:E3.
    { eexists. split; [reflexivity|]. split; [apply DF|split; [intros n NE; apply AN; auto|]]. cbn [orb]. apply kept_store, kept_discard; assumption. }
    eexists. split; [reflexivity|]. split; [apply DF|split; [intros n NE; apply AN; auto|]]. cbn [orb]. rewrite E1. apply kept_store, kept_same; assumption.
  - destruct (HK h eq_refl) as (H1 & H2 & H3). destruct (flags_stored f H3) as (F1 & F2). eexists. split; [reflexivity|]. split; [|split; [intros n NE; apply AN; auto|apply kept_store, kept_same; assumption]].
    rewrite AC, convert_pack by exact H1. replace (h =? DH) with false by lia. rewrite F1, F2. split; reflexivity.
Qed.

Lemma sigaction_ok DH sig a st d : address DH -> 0 < DH -> settable sig -> an_act DH a -> good (wd st) -> disposition DH st d ->
  exists st', sigaction DH sig (Some a) st = Some (d sig, st') /\ disposition DH st' (update d sig (installed a)) /\
    kept sig (discards sig (sa_handler a)) st st'.
Proof.
  intros A AP SE (H1 & H2 & H3) G D. pose proof SE as (V & U). unfold sigaction at 1. set (nk := to_kind a).
  destruct (inner_set DH sig (fst (fst nk)) (snd (fst nk)) (snd nk) st SE A AP) as (st' & E & (Q & _) & O & K); [| exact G|].
  { intros h Hh. unfold nk, to_kind in *. cbn [fst snd] in *. destruct (sa_handler a =? SIG_DFL); [discriminate|]. destruct (sa_handler a =? SIG_IGN); [discriminate|]. inversion Hh; subst h. auto. }
  destruct nk as ((k, f), m) eqn:EN. cbn [fst snd] in *. exists st'. rewrite E. split; [|split].
  - pose proof (D sig V) as X. rewrite query_eq, U in X by exact V. rewrite (some_inj _ _ _ _ X); reflexivity.
  - intros n VN. rewrite query_eq by exact VN. f_equal. f_equal. unfold update. destruct (Z.eqb_spec n sig) as [->|NE].
    + rewrite U, Q, <- EN. unfold nk, to_kind, installed, of_kind. destruct (Z.eqb_spec (sa_handler a) SIG_DFL) as [X|X]; [rewrite X; reflexivity|].
      destruct (Z.eqb_spec (sa_handler a) SIG_IGN) as [Y|Y]; [rewrite Y; reflexivity|]. destruct a; reflexivity.
    + rewrite O by exact NE. pose proof (D n VN) as X. rewrite query_eq in X by exact VN. rewrite (some_inj _ _ _ _ X); reflexivity.
  - unfold nk, to_kind in EN. inversion EN as [[E1 E2 E3]]. rewrite <- E1 in K. unfold discards. destruct (sa_handler a =? SIG_DFL) eqn:X.
    + replace (sa_handler a =? SIG_IGN) with false by (unfold SIG_DFL, SIG_IGN in *; lia). exact K.
    + cbn [andb]. rewrite orb_false_r. destruct (sa_handler a =? SIG_IGN); exact K.
Qed.
Lemma sigaction_errors DH sig new st : sigaction DH sig new st = None <-> ~ valid sig \/ (unblockable sig = true /\ new <> None).
Proof.
  unfold sigaction, sigaction_inner, valid, signal, unblockable.
  destruct ((sig <? 0) || (255 <? sig)) eqn:E1; [split; [left; lia|reflexivity]|].
  destruct ((sig =? 0) || (sig =? 32) || (65 <=? sig)) eqn:E2; [split; [left; lia|reflexivity]|].
  assert (V : (1 <= sig <= 64) /\ sig <> 32) by lia.
  destruct ((sig =? 9) || (sig =? 19)) eqn:E3.
  - destruct new; [split; [intros _; right; split; [reflexivity|discriminate]|reflexivity]|]. split; [discriminate|]. intros [X|(_ & X)]; [contradiction|congruence].
  - cbv zeta. destruct new as [a|].
    + split; [|intros [X|(X & _)]; [contradiction|discriminate]]. unfold to_kind. intro X. exfalso. revert X.
      destruct (sa_handler a =? SIG_DFL); [|destruct (sa_handler a =? SIG_IGN); discriminate].
      repeat match goal with |- context [if ?b then Some _ else _] => destruct b end; discriminate.
    + split; [discriminate|intros [X|(X & _)]; [contradiction|discriminate]].
Qed.
Lemma setup_pack DH n : setup_actions DH n = (pack DH (if (n =? 20) || (n =? 21) || (n =? 22) then SIG_SPECIFIC else if (n =? 17) || (n =? 23) || (n =? 28) then IGNORED else 0), 0).
Proof.
  unfold setup_actions, pack. rewrite Z.lor_comm. destruct ((n =? 20) || (n =? 21) || (n =? 22)); [reflexivity|]. destruct ((n =? 17) || (n =? 23) || (n =? 28)); reflexivity.
Qed.
Lemma initial_ok DH w q : address DH -> disposition DH (P (setup_actions DH) w q) (fun _ => Act SIG_DFL 0 0).
Proof.
  intros A n V. rewrite query_eq by exact V. f_equal. f_equal. destruct (unblockable n); [reflexivity|]. cbn [acts]. rewrite setup_pack, convert_pack by exact A. rewrite Z.eqb_refl. reflexivity.
Qed.

Lemma signal_ok DH sig func st d : address DH -> 0 < DH -> address func -> func <> DH -> good (wd st) -> disposition DH st d ->
  (settable sig -> exists st', signal_fn DH sig func st = (sa_handler (d sig), st') /\ disposition DH st' (update d sig (installed (Act func SA_RESTART 0))) /\ kept sig (discards sig func) st st') /\
  (~ settable sig -> signal_fn DH sig func st = (SIG_ERR, st)).
Proof.
  intros A AP F1 F2 G D. split.
  - intro SE. destruct (sigaction_ok DH sig (Act func SA_RESTART 0) st d A AP SE ltac:(split; [exact F1|split; [exact F2|reflexivity]]) G D) as (st' & E & D' & K).
    exists st'. unfold signal_fn. rewrite E. auto.
  - intro NS. unfold signal_fn. replace (sigaction DH sig (Some (Act func SA_RESTART 0)) st) with (@None (act * pst)); [reflexivity|]. symmetry. apply sigaction_errors.
    destruct (unblockable sig) eqn:U; [right; split; [reflexivity|discriminate]|left]. intro V. apply NS. split; assumption.
Qed.
Lemma take_ok DH sig st d : address DH -> 0 < DH -> settable sig -> good (wd st) -> disposition DH st d ->
  let '(k, st') := take_action DH sig st in
  of_kind k = d sig /\ disposition DH st' (if Z.land (snd (fst k)) SA_RESETHAND =? 0 then d else update d sig (Act SIG_DFL 0 0)).
Proof.
  intros A AP SE G D. pose proof SE as (V & U). unfold take_action. destruct (convert_old DH (acts st sig)) as ((k, f), m) eqn:E. cbn [fst snd].
  split; [pose proof (D sig V) as X; rewrite query_eq, U, E in X by exact V; rewrite (some_inj _ _ _ _ X); reflexivity|].
  destruct (Z.land f SA_RESETHAND =? 0); cbn [negb]; [exact D|].
  destruct (inner_set DH sig KDefault 0 0 st SE A AP ltac:(discriminate) G) as (st' & E' & (Q & _) & O & K). rewrite E'.
  intros n VN. rewrite query_eq by exact VN. f_equal. f_equal. unfold update. destruct (Z.eqb_spec n sig) as [->|NE]; [rewrite U, Q; reflexivity|].
  rewrite O by exact NE. pose proof (D n VN) as X. rewrite query_eq in X by exact VN. rewrite (some_inj _ _ _ _ X); reflexivity.
Qed.
Lemma siginterrupt_panics DH sig flag st : flag <> 0 -> siginterrupt DH sig flag st = Panic.
Proof.
  intro F. unfold siginterrupt. replace (flag =? 0) with false by lia. cbn [negb]. replace (not64 SA_RESTART <=? 2147483647) with false by reflexivity.
  destruct (sigaction DH sig None st) as [(sa, st')|]; reflexivity.
Qed.

(* ---- System V functions ---- *)
Lemma add_empty sig : signal sig -> sigaddset (fst (sigemptyset 0)) sig = (sig_bit sig, 0).
Proof. intro S. unfold signal in S. unfold sigaddset, bad_signo. replace ((sig <=? 0) || (64 <? sig)) with false by lia. reflexivity. Qed.
Lemma add_bad sig : ~ signal sig -> sigaddset (fst (sigemptyset 0)) sig = (0, -1).
Proof. intro S. unfold signal in S. unfold sigaddset, bad_signo. replace ((sig <=? 0) || (64 <? sig)) with true by lia. reflexivity. Qed.
Lemma sigbit_set sig : signal sig -> sigset (sig_bit sig).
Proof. intro S. unfold signal in S. unfold sigset, sig_bit. rewrite Z.shiftl_1_l. split; [apply Z.pow_nonneg; lia|apply Z.pow_lt_mono_r; lia]. Qed.
Lemma ismember_eq set sig : signal sig -> (sigismember set sig =? 1) = member set sig.
Proof. intro S. unfold signal in S. unfold sigismember, bad_signo, member. replace ((sig <=? 0) || (64 <? sig)) with false by lia. destruct (Z.testbit set (sig - 1)); reflexivity. Qed.

Lemma disp_words DH st d w : disposition DH st d -> disposition DH (P (acts st) w (pp st)) d.
Proof. intros D n V. pose proof (D n V) as X. rewrite query_eq in X |- * by exact V. cbn [acts]. rewrite (some_inj _ _ _ _ X); reflexivity. Qed.

Lemma hold_ok env how sig st : how = SIG_BLOCK \/ how = SIG_UNBLOCK -> signal sig -> reserved sig = false -> unblockable sig = false -> good (wd st) ->
  exists st', hold_with env how sig st = (0, st') /\ acts st' = acts st /\ pp st' = pp st /\ good (wd st') /\
  forall n, signal n -> pending (wd st') n = pending (wd st) n || arrives_in env 0 4 n /\
    (unblockable n = false -> blocked (wd st') n = if n =? sig then how =? SIG_BLOCK else blocked (wd st) n).
Proof.
  intros HOW S RS UB G. unfold hold_with. rewrite add_empty by exact S. cbn [Z.ltb Z.compare].
  destruct (sigprocmask_set env (pp st) how (sig_bit sig) (wd st) G (sigbit_set sig S) ltac:(tauto)) as (old & s' & t & E & G' & _ & _ & R). rewrite E.
  eexists. split; [reflexivity|]. split; [reflexivity|]. split; [reflexivity|]. split; [exact G'|]. intros n N. cbn [wd]. destruct (R n N) as (_ & R2 & R3). split; [exact R3|].
  intro U. rewrite R2. unfold new_mask. rewrite U, sigbit_member by assumption. destruct (Z.eqb_spec n sig) as [->|NE]; [rewrite RS|].
  - destruct HOW as [-> | ->]; cbn; [apply orb_true_r|apply andb_false_r].
  - destruct HOW as [-> | ->]; cbn; [apply orb_false_r|apply andb_true_r].
Qed.
Lemma hold_bad env how sig st : ~ signal sig -> hold_with env how sig st = (-1, st).
Proof. intro S. unfold hold_with. rewrite add_bad by exact S. reflexivity. Qed.

Lemma sigset_ok DH env sig func st d : address DH -> 0 < DH -> address func -> func <> DH -> settable sig -> reserved sig = false -> good (wd st) -> disposition DH st d ->
  exists st', sigset_fn DH env sig func st = (if blocked (wd st) sig then SIG_HOLD else sa_handler (d sig), st') /\ good (wd st') /\
  disposition DH st' (if func =? SIG_HOLD then d else update d sig (installed (Act func 0 0))) /\
  forall n, signal n -> unblockable n = false -> blocked (wd st') n = if n =? sig then func =? SIG_HOLD else blocked (wd st) n.
Proof.
  intros A AP F1 F2 SE RS G D. pose proof SE as ((S & N32) & U). unfold sigset_fn. rewrite add_empty by exact S. cbn [Z.ltb Z.compare]. cbv zeta.
  destruct (Z.eqb_spec func SIG_HOLD) as [FH|FH].
  - rewrite (D sig (proj1 SE)). destruct (sigprocmask_set env (pp st) SIG_BLOCK (sig_bit sig) (wd st) G (sigbit_set sig S) ltac:(tauto)) as (old & s' & t & E & G' & _ & _ & R). rewrite E.
    eexists. split; [f_equal; rewrite ismember_eq by exact S; destruct (R sig S) as (-> & _); rewrite RS; cbn [negb]; rewrite andb_true_r; reflexivity|].
    split; [exact G'|]. split; [apply disp_words; exact D|]. intros n N UN. cbn [wd]. destruct (R n N) as (_ & R2 & _). rewrite R2. unfold new_mask. rewrite UN, sigbit_member by assumption.
    destruct (Z.eqb_spec n sig) as [->|NE]; [rewrite RS|]; cbn; [apply orb_true_r|apply orb_false_r].
  - destruct (sigaction_ok DH sig (Act func 0 0) st d A AP SE ltac:(split; [exact F1|split; [exact F2|reflexivity]]) G D) as (st1 & E1 & D1 & G1 & K1). rewrite E1.
    destruct (sigprocmask_set env (pp st1) SIG_UNBLOCK (sig_bit sig) (wd st1) G1 (sigbit_set sig S) ltac:(tauto)) as (old & s' & t & E & G' & _ & _ & R). rewrite E.
    eexists. split; [f_equal; rewrite ismember_eq by exact S; destruct (R sig S) as (-> & _); rewrite RS; cbn [negb]; rewrite andb_true_r; destruct (K1 sig S) as (-> & _); reflexivity|].
    split; [exact G'|]. split; [apply disp_words; exact D1|]. intros n N UN. cbn [wd]. destruct (R n N) as (_ & R2 & _). rewrite R2. unfold new_mask. rewrite UN, sigbit_member by assumption.
    destruct (K1 n N) as (-> & _). destruct (Z.eqb_spec n sig) as [->|NE]; [rewrite RS|]; cbn; [apply andb_false_r|apply andb_true_r].
Qed.

(* ---- inheritance across exec ---- *)
Lemma inherit_loop_ok DH st d k : address DH -> (k <= 64)%nat -> disposition DH st d -> (forall n, valid n -> d n = of_kind (if unblockable n then (KDefault, 0, 0) else convert_old DH (acts st n))) ->
  0 <= inherit_loop DH k st < 2 ^ Z.of_nat k /\
  forall n, 1 <= n <= Z.of_nat k -> Z.testbit (inherit_loop DH k st) (n - 1) = true <-> n <> 32 /\ unblockable n = false /\ fst (fst (convert_old DH (acts st n))) = KIgnore.
Proof.
  intros A K D DD. induction k as [|k IH]; [split; [vm_compute; split; congruence|intros; lia]|]. destruct (IH ltac:(lia)) as (R & B). cbn [inherit_loop]. cbv zeta.
  set (m := inherit_loop DH k st) in *. set (j := Z.of_nat k) in *.
  assert (P : 2 ^ Z.of_nat (S k) = 2 * 2 ^ j) by (unfold j; rewrite Nat2Z.inj_succ, Z.pow_succ_r by lia; reflexivity).
  assert (PP : 0 < 2 ^ j) by (apply Z.pow_pos_nonneg; lia).
  assert (SET : forall c, (c = true <-> j + 1 <> 32 /\ unblockable (j + 1) = false /\ fst (fst (convert_old DH (acts st (j + 1)))) = KIgnore) ->
     let v := if c then Z.lor m (Z.shiftl 1 j) else m in 0 <= v < 2 ^ Z.of_nat (S k) /\
     forall n, 1 <= n <= Z.of_nat (S k) -> Z.testbit v (n - 1) = true <-> n <> 32 /\ unblockable n = false /\ fst (fst (convert_old DH (acts st n))) = KIgnore).
  { intros c C. cbv zeta. assert (MB : Z.testbit m j = false) by (apply (bits_range j); [exact R|lia]). destruct c.
    - split; [apply lor_range; [lia|lia|rewrite Z.shiftl_1_l; lia]|]. intros n N. rewrite Z.lor_spec, bit1 by lia. destruct (Z.eqb_spec (n - 1) j) as [E|E].
      + rewrite orb_true_r. replace n with (j + 1) by lia. split; [intros _; apply C; reflexivity|reflexivity].
      + rewrite orb_false_r. apply B. lia.
    - split; [lia|]. intros n N. destruct (Z.eq_dec (n - 1) j) as [E|E]; [|apply B; lia]. rewrite E, MB. replace n with (j + 1) by lia. split; [discriminate|intro X; apply C in X; discriminate]. }
  destruct (Z.eq_dec (j + 1) 32) as [E32|E32].
  - replace (sigaction_inner DH (j + 1) None st) with (@None ((kind * Z * Z) * pst)) by (rewrite E32; reflexivity). apply (SET false). split; [discriminate|intros (X & _); contradiction].
  - rewrite inner_query by (split; [unfold signal; lia|exact E32]). destruct (unblockable (j + 1)) eqn:U.
    + apply (SET false). split; [discriminate|intros (_ & X & _); discriminate].
    + destruct (convert_old DH (acts st (j + 1))) as [[[| |h] f] mm] eqn:EC; cbn [fst snd] in *.
      * apply (SET true). split; auto.
      * apply (SET false). split; [discriminate|intros (_ & _ & X); discriminate].
      * apply (SET false). split; [discriminate|intros (_ & _ & X); discriminate].
Qed.
Lemma apply_loop_ok DH inh k st : address DH -> 0 < DH -> (k <= 64)%nat -> good (wd st) ->
  good (wd (apply_loop DH inh k st)) /\
  forall d, disposition DH st d -> disposition DH (apply_loop DH inh k st) (fun n => if (n <=? Z.of_nat k) && Z.testbit inh (n - 1) && negb (unblockable n) then Act SIG_IGN 0 0 else d n).
Proof.
  intros A AP K G. induction k as [|k IH].
  - split; [exact G|]. intros d D n V. cbn [apply_loop]. rewrite (D n V). destruct V as (S & _). unfold signal in S. replace (n <=? Z.of_nat 0) with false by lia. reflexivity.
  - destruct (IH ltac:(lia)) as (G1 & D1). cbn [apply_loop]. cbv zeta. set (st1 := apply_loop DH inh k st) in *. set (j := Z.of_nat k) in *.
    assert (SAME : (Z.testbit inh j = false \/ ~ settable (j + 1)) -> forall d, disposition DH st d -> disposition DH st1 (fun n => if (n <=? Z.of_nat (S k)) && Z.testbit inh (n - 1) && negb (unblockable n) then Act SIG_IGN 0 0 else d n)).
    { intros C d D n V. rewrite (D1 d D n V). f_equal. f_equal. destruct (Z.eq_dec n (j + 1)) as [->|NE].
      - replace (j + 1 <=? j) with false by lia. replace (j + 1 <=? Z.of_nat (S k)) with true by lia. replace (j + 1 - 1) with j by lia. cbn [andb]. destruct C as [-> |C]; [reflexivity|].
        destruct (unblockable (j + 1)) eqn:U; [rewrite andb_false_r; reflexivity|]. exfalso. apply C. split; [exact V|exact U].
      - replace (n <=? Z.of_nat (S k)) with (n <=? j) by lia. reflexivity. }
    destruct (Z.testbit inh j) eqn:T; [|split; [exact G1|apply SAME; left; reflexivity]].
    destruct (Z.eq_dec (j + 1) 32) as [E32|E32].
    { replace (sigaction_inner DH (j + 1) (Some (KIgnore, IGNORED, 0)) st1) with (@None ((kind * Z * Z) * pst)) by (rewrite E32; reflexivity). split; [exact G1|]. apply SAME. right. intros ((_ & X) & _). contradiction. }
    assert (V : valid (j + 1)) by (split; [unfold signal; lia|exact E32]).
    destruct (unblockable (j + 1)) eqn:U.
    { replace (sigaction_inner DH (j + 1) (Some (KIgnore, IGNORED, 0)) st1) with (@None ((kind * Z * Z) * pst)).
      - split; [exact G1|]. apply SAME. right. intros (_ & X). congruence.
      - pose proof V as (S & _). unfold signal in S. unfold sigaction_inner. unfold unblockable in U. rewrite U. replace ((j + 1 <? 0) || (255 <? j + 1)) with false by lia. replace ((j + 1 =? 0) || (j + 1 =? 32) || (65 <=? j + 1)) with false by lia. reflexivity. }
    destruct (inner_set DH (j + 1) KIgnore IGNORED 0 st1 ltac:(split; assumption) A AP ltac:(discriminate) G1) as (st2 & E & (Q & _) & O & K2). rewrite E. split; [apply K2|].
    intros d D n VN. rewrite query_eq by exact VN. f_equal. f_equal. destruct (Z.eq_dec n (j + 1)) as [->|NE].
    + rewrite U, Q. replace (j + 1 <=? Z.of_nat (S k)) with true by lia. replace (j + 1 - 1) with j by lia. rewrite T. reflexivity.
    + rewrite O by exact NE. replace (n <=? Z.of_nat (S k)) with (n <=? j) by lia. pose proof (D1 d D n VN) as X. rewrite query_eq in X by exact VN. rewrite (some_inj _ _ _ _ X); reflexivity.
Qed.
(* No handler with the value SIG_DFL or SIG_IGN is ever stored. *)
Lemma reached_kind DH st : address DH -> 0 < DH -> reached DH st -> good (wd st) /\ forall n h, settable n -> fst (fst (convert_old DH (acts st n))) = KHandled h -> h <> SIG_DFL /\ h <> SIG_IGN.
Proof.
  intros A AP H. induction H as [w q G|st w q H IH G|st sig a old st' H IH HA E].
  - split; [exact G|]. intros n h _. cbn [acts]. rewrite setup_pack, convert_pack, Z.eqb_refl by exact A. discriminate.
  - split; [exact G|]. cbn [acts]. apply IH.
  - destruct IH as (G & I). assert (SE : settable sig).
    { assert (NE : sigaction DH sig (Some a) st <> None) by congruence. destruct (unblockable sig) eqn:U; [exfalso; apply NE, sigaction_errors; right; split; [exact U|discriminate]|].
      unfold settable, valid. rewrite U. assert (X : ~ ~ valid sig) by (intro X; apply NE, sigaction_errors; left; exact X). unfold valid, signal in *. lia. }
    destruct HA as (H1 & H2 & H3). unfold sigaction in E. destruct (to_kind a) as ((k, f), m) eqn:EN.
    assert (KH : forall h, k = KHandled h -> h <> SIG_DFL /\ h <> SIG_IGN /\ h = sa_handler a /\ f = sa_flags a).
    { intros h X. unfold to_kind in EN. destruct (Z.eqb_spec (sa_handler a) SIG_DFL); [injection EN; intros; congruence|]. destruct (Z.eqb_spec (sa_handler a) SIG_IGN); [injection EN; intros; congruence|]. injection EN as E1 E2 E3. rewrite <- E1 in X. injection X as X. subst h. auto. }
    destruct (inner_set DH sig k f m st SE A AP) as (st2 & E2 & (_ & QK) & O & K2); [|exact G|].
    { intros h X. destruct (KH h X) as (_ & _ & -> & ->). auto. }
    rewrite E2 in E. apply some_inj2 in E. subst st2. split; [apply K2|]. intros n h SN. destruct (Z.eq_dec n sig) as [->|NE]; [|rewrite O by exact NE; apply I; exact SN].
    rewrite QK. intro X. destruct (KH h X) as (X1 & X2 & _). auto.
Qed.
Lemma exec_ok DH DH' st d w q : address DH -> 0 < DH -> address DH' -> 0 < DH' -> reached DH st ->
  good w -> disposition DH st d ->
  disposition DH' (apply_loop DH' (sigignmask_to_inherit DH st) 64 (P (setup_actions DH') w q))
    (fun n => if sa_handler (d n) =? SIG_IGN then Act SIG_IGN 0 0 else Act SIG_DFL 0 0).
Proof.
  intros A AP A' AP' RE G D. pose proof (proj2 (reached_kind DH st A AP RE)) as HI.
  assert (DD : forall n, valid n -> d n = of_kind (if unblockable n then (KDefault, 0, 0) else convert_old DH (acts st n))) by (intros m VM; pose proof (D m VM) as Y; rewrite query_eq in Y by exact VM; rewrite <- (some_inj _ _ _ _ Y); reflexivity).
  pose proof (proj2 (inherit_loop_ok DH st d 64 A ltac:(lia) D DD)) as B. unfold sigignmask_to_inherit. revert B. generalize (inherit_loop DH 64 st) as inh. intros inh B.
  destruct (apply_loop_ok DH' inh 64 (P (setup_actions DH') w q) A' AP' ltac:(lia) G) as (_ & D').
  pose proof (D' _ (initial_ok DH' w q A')) as X. intros n V. rewrite (X n V). f_equal. f_equal. pose proof V as (S & N32). unfold signal in S. replace (n <=? Z.of_nat 64) with true by lia. cbn [andb].
  specialize (B n ltac:(lia)).
  destruct (unblockable n) eqn:U.
  - cbn [negb]. rewrite andb_false_r. rewrite (DD n V), U. reflexivity.
  - cbn [negb]. rewrite andb_true_r. destruct (Z.testbit inh (n - 1)) eqn:T.
    + destruct (proj1 B eq_refl) as (_ & _ & C). rewrite (DD n V), U. destruct (convert_old DH (acts st n)) as ((k, f), m). cbn [fst] in C. subst k. reflexivity.
    + destruct (Z.eqb_spec (sa_handler (d n)) SIG_IGN) as [E|E]; [|reflexivity]. exfalso. assert (false = true); [|discriminate]. apply B. split; [exact N32|]. split; [reflexivity|]. specialize (HI n). rewrite (DD n V), U in E.
      destruct (convert_old DH (acts st n)) as [[[| |h] f] m]; [reflexivity|discriminate|]. exfalso. apply (proj2 (HI h ltac:(split; [exact V|exact U]) eq_refl)). exact E.
Qed.
