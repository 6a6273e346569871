From Coq Require Import ZArith String List Bool Lia.
From Verif Require Import Base Ctype_spec Numeral Syslog_model Syslog_spec.
Import ListNotations.
Open Scope list_scope.
Open Scope Z_scope.

Definition nz (l : list Z) : list Z := filter (fun c => negb (c =? 0)) l.
Lemma nz_app a b : nz (a ++ b) = nz a ++ nz b.
Proof. apply filter_app. Qed.
Lemma nz_id l : ~ In 0 l -> nz l = l.
Proof.
  induction l as [|c l IH]; intros N; [reflexivity|]. cbn. destruct (Z.eqb_spec c 0); [subst; exfalso; apply N; left; reflexivity|].
  cbn [negb]. f_equal. apply IH. intros I0. apply N. right. exact I0.
Qed.
Lemma upto_app l r : ~ In 0 l -> upto_nul (l ++ 0 :: r) = l.
Proof.
  induction l as [|c l IH]; intros N; [reflexivity|]. cbn. destruct (Z.eqb_spec c 0); [subst; exfalso; apply N; left; reflexivity|].
  f_equal. apply IH. intros I0. apply N. right. exact I0.
Qed.

(* the settings a history leaves, the values setlogmask returns, the records and the text on standard error *)
Definition sets (s : settings) (o : op) : settings :=
  match o with
  | Openlog i op f => openlog_sets s i op f
  | Setlogmask m => setlogmask_sets s m
  | _ => s
  end.
Fixpoint returned (s : settings) (ops : list op) : list Z :=
  match ops with
  | [] => []
  | o :: ops => (match o with Setlogmask _ => s_mask s | _ => 0 end) :: returned (sets s o) ops
  end.
Fixpoint records (progname pid : list Z) (s : settings) (ops : list op) : list Z :=
  match ops with
  | [] => []
  | o :: ops =>
      (match o with Syslog p _ text date => if passes s p then record_of progname pid s p text date else [] | _ => [] end) ++
      records progname pid (sets s o) ops
  end.
Fixpoint on_stderr (progname : list Z) (s : settings) (ops : list op) : list Z :=
  match ops with
  | [] => []
  | o :: ops =>
      (match o with Syslog p _ text _ => if passes s p then stderr_of progname s text else [] | _ => [] end) ++
      on_stderr progname (sets s o) ops
  end.

(* masks and facilities *)
Definition mask_ok (o : op) : Prop :=
  match o with Setlogmask m => 0 <= m < 1024 | Openlog _ _ f => 0 <= f < 1024 | _ => True end.
Lemma land_low m : 0 <= m < 1024 -> Z.land m 1023 = m.
Proof. intros M. change 1023 with (Z.ones 10). rewrite Z.land_ones by lia. apply Z.mod_small. exact M. Qed.
Lemma land_high m : 0 <= m < 1024 -> Z.land m PriorityMask = 0.
Proof.
  intros M. unfold PriorityMask, FacilityMask. rewrite <- (land_low m M), <- Z.land_assoc.
  change (Z.land 1023 (Z.lnot 1023)) with 0. apply Z.land_0_r.
Qed.
Lemma with_mask_ok s m : 0 <= s < 1024 -> 0 <= m < 1024 -> with_mask s m = m.
Proof. intros A B. unfold with_mask. rewrite land_high by exact A. unfold FacilityMask. rewrite land_low by exact B. apply Z.lor_0_r. Qed.
Lemma with_facility_ok s f : 0 <= s < 1024 -> 0 <= f < 1024 -> with_facility s f = s.
Proof. intros A B. unfold with_facility. rewrite (land_high f B). unfold FacilityMask. rewrite land_low by exact A. apply Z.lor_0_r. Qed.
Definition unsent (l : logger) : list Z := match writer l with Some p => p | None => [] end.
Lemma buf_write_all p d x : let (p', d') := buf_write p d x in d' ++ p' = (d ++ p) ++ x.
Proof.
  unfold buf_write. destruct (CAP <? len p + len x) eqn:E2; destruct (CAP <=? len x) eqn:E; cbn [app]; rewrite ?app_nil_r, <- ?app_assoc; try reflexivity.
  apply Z.ltb_ge in E2. apply Z.leb_le in E. pose proof (len_nonneg p).
  assert (len p = 0) by lia. destruct p; [|rewrite len_cons in *; pose proof (len_nonneg p); lia]. rewrite app_nil_r. reflexivity.
Qed.
Definition ident_used (g : option (list Z)) (l : logger) : list Z := match ident l with [] => identity g None | i => i end.
Definition raw_record (g : option (list Z)) (pid : list Z) (l : logger) (p : Z) (text date : list Z) : list Z :=
  (codes "<" ++ map (fun d => 48 + d) (to_digits 10 p) ++ codes ">" ++ date ++ codes " " ++ ident_used g l ++
     (if Z.testbit (opt l) 0 then pid else []) ++ codes ": ") ++ text ++ [10; 0].
Lemma write_log_eq g pid ok l p fmt text date : fmt <> [] ->
  exists w d, write_log g pid ok l p fmt text date =
    {| ident := ident_used g l; opt := opt l; mask := mask l; writer := w; device := d;
       stderr := stderr l ++ (if Z.testbit (opt l) 5 then upto_nul (ident_used g l) ++ codes ": " ++ upto_nul (text ++ [10; 0]) else []) |} /\
    (ok = true -> d ++ match w with Some x => x | None => [] end = (device l ++ unsent l) ++ raw_record g pid l p text date).
Proof.
  intros NE. destruct fmt as [|c fmt]; [congruence|]. unfold write_log.
  set (l1 := match ident l with [] => set_ident l (identity g None) | _ => l end).
  assert (E1 : l1 = {| ident := ident_used g l; opt := opt l; mask := mask l; writer := writer l; device := device l; stderr := stderr l |}).
  { unfold l1, ident_used. destruct l as [[|x i] o m w d e]; reflexivity. }
  rewrite E1. clear E1 l1. cbn [ident opt]. fold (raw_record g pid l p text date).
  unfold maybe_open_logger, open_logger. cbn [writer]. unfold unsent.
  destruct (writer l) as [w|].
  - cbn [writer device]. pose proof (buf_write_all w (device l) (raw_record g pid l p text date)) as B. destruct (buf_write w (device l) _) as [w' d'].
    exists (Some w'), d'. split; [|auto]. cbn [set_writer opt ident mask writer device stderr]. destruct (Z.testbit (opt l) 5); [reflexivity|rewrite app_nil_r; reflexivity].
  - destruct ok.
    + cbn [set_writer writer device]. pose proof (buf_write_all [] (device l) (raw_record g pid l p text date)) as B. destruct (buf_write [] (device l) _) as [w' d'].
      exists (Some w'), d'. split; [|auto]. cbn [set_writer opt ident mask writer device stderr]. destruct (Z.testbit (opt l) 5); [reflexivity|rewrite app_nil_r; reflexivity].
    + exists None, (device l). split; [|discriminate]. cbn [opt ident mask writer device stderr]. destruct (Z.testbit (opt l) 5); [reflexivity|rewrite app_nil_r; reflexivity].
Qed.
Lemma write_log_mask g pid ok l p fmt text date : mask (write_log g pid ok l p fmt text date) = mask l.
Proof. destruct fmt as [|c fmt]; [reflexivity|]. destruct (write_log_eq g pid ok l p (c :: fmt) text date) as (w & d & -> & _); [discriminate|reflexivity]. Qed.
Lemma run_mask g pid ok : forall ops l s, Forall mask_ok ops -> mask l = s_mask s -> 0 <= s_mask s < 1024 -> snd (run g pid ok l ops) = returned s ops.
Proof.
  induction ops as [|o ops IH]; intros l s F M R; [reflexivity|]. inversion F as [|? ? G F']; subst. cbn [run returned].
  destruct (step g pid ok l o) as [l' r] eqn:ST.
  assert (ME : mask l' = s_mask (sets s o) /\ 0 <= s_mask (sets s o) < 1024 /\ r = match o with Setlogmask _ => s_mask s | _ => 0 end).
  { destruct o as [i op f| |m|p fmt text date]; cbn [step] in ST; cbn [mask_ok] in G.
    - injection ST as <- <-. cbn [sets openlog_sets s_mask]. split; [|auto]. 
      assert (X : forall b l0, mask (if b : bool then fst (open_logger ok l0) else l0) = mask l0) by (intros [] l0; unfold open_logger; destruct ok; reflexivity).
      rewrite X. cbn [mask]. rewrite M. apply with_facility_ok; assumption.
    - injection ST as <- <-. cbn. auto.
    - injection ST as <- <-. cbn [sets]. unfold setlogmask_sets. rewrite <- M. destruct (m =? 0); [rewrite M; auto|]. cbn [s_mask mask].
      split; [|auto]. apply with_mask_ok; [rewrite M; exact R|exact G].
    - injection ST as <- <-. cbn [sets]. destruct (should_log (mask l) p); [rewrite write_log_mask|]; auto. }
  destruct ME as (M' & R' & ->). specialize (IH l' (sets s o) F' M' R'). destruct (run g pid ok l' ops) as [l2 rs]. cbn [snd] in *. congruence.
Qed.

(* the filter *)
Lemma should_ok m p : 0 <= m < 1024 -> p mod 32 < 8 -> 0 <= p -> should_log m p = Z.testbit m (severity p).
Proof.
  intros M P P0. unfold should_log, LOG_MASK, FacilityMask, severity. rewrite land_low by exact M.
  assert (K : p mod 8 = p mod 32). { pose proof (Z.div_mod p 32 ltac:(lia)). pose proof (Z.mod_pos_bound p 32 ltac:(lia)).
    symmetry. apply Z.mod_unique with (q := 4 * (p / 32)); lia. }
  rewrite K. pose proof (Z.mod_pos_bound p 32 ltac:(lia)) as B. set (k := p mod 32) in *. clearbody k. clear K P0 p.
  assert (X : (2 ^ k =? 2147483648) = false).
  { apply Z.eqb_neq. intros E. assert (2 ^ k <= 2 ^ 7) by (apply Z.pow_le_mono_r; lia). change (2 ^ 7) with 128 in *. lia. }
  rewrite X. destruct (Z.testbit m k) eqn:T.
  - apply Z.eqb_eq. apply Z.bits_inj'. intros n N. rewrite Z.land_spec, Z.pow2_bits_eqb by lia. destruct (Z.eqb_spec k n); [subst; rewrite T; reflexivity|apply andb_false_r].
  - apply Z.eqb_neq. intros E. apply (f_equal (fun x => Z.testbit x k)) in E. rewrite Z.land_spec, Z.pow2_bits_true, T in E by lia. discriminate E.
Qed.

(* the records *)
Definition name_of (g : option (list Z)) : list Z := match g with Some n => n | None => [] end.
Definition clean (l : list Z) : Prop := ~ In 0 l.
Definition op_ok (o : op) : Prop :=
  mask_ok o /\
  match o with
  | Syslog p fmt text date => 0 <= p /\ p mod 32 < 8 /\ fmt <> [] /\ clean text /\ clean date
  | Openlog (Some i) _ _ => clean i
  | _ => True
  end.
(* the identity in the logger: with its NUL, or not yet set *)
Definition ident_rel (g : option (list Z)) (l : logger) (s : settings) : Prop :=
  ident l = named (name_of g) s ++ [0] \/ (ident l = [] /\ s_ident s = None).
Record agree (g : option (list Z)) (l : logger) (s : settings) : Prop := {
  a_mask : mask l = s_mask s; a_range : 0 <= s_mask s < 1024; a_ident : ident_rel g l s; a_clean : clean (named (name_of g) s);
  a_pid : Z.testbit (opt l) 0 = Z.testbit (s_opt s) 0; a_perror : Z.testbit (opt l) 5 = Z.testbit (s_opt s) 5 }.

Lemma identity_named g : identity g None = name_of g ++ [0].
Proof. destruct g; reflexivity. Qed.
Lemma used_named g l s : agree g l s -> ident_used g l = named (name_of g) s ++ [0].
Proof.
  intros A. unfold ident_used. destruct (a_ident _ _ _ A) as [E|[E N]].
  - rewrite E. destruct (named (name_of g) s ++ [0]) eqn:X; [destruct (named (name_of g) s); discriminate|reflexivity].
  - rewrite E, identity_named. unfold named. rewrite N. reflexivity.
Qed.
Lemma clean_digits n : 0 <= n -> clean (map (fun d => 48 + d) (to_digits 10 n)).
Proof.
  intros N I0. apply in_map_iff in I0. destruct I0 as (d & E & I0). pose proof (to_digits_numeral 10 n ltac:(lia) N) as X. apply numeral_digits in X.
  rewrite Forall_forall in X. specialize (X d I0). lia.
Qed.
Lemma clean_app a b : clean a -> clean b -> clean (a ++ b).
Proof. unfold clean. intros A B I0. apply in_app_or in I0. tauto. Qed.
(* an operation that keeps what is in the buffer *)
Definition keeps (o : op) : Prop := match o with Closelog => False | Openlog _ op _ => Z.testbit op 3 = false | _ => True end.
(* a priority that names a facility *)
Definition facility_named (o : op) : Prop := match o with Syslog p _ _ _ => 8 <= p | _ => True end.

Lemma step_ok g pid ok l s o : clean (name_of g) -> clean pid -> agree g l s -> op_ok o ->
  let l' := fst (step g pid ok l o) in
  agree g l' (sets s o) /\
  stderr l' = stderr l ++ (match o with Syslog p _ text _ => if passes s p then stderr_of (name_of g) s text else [] | _ => [] end) /\
  (ok = true -> keeps o -> facility_named o -> nz (device l' ++ unsent l') = nz (device l ++ unsent l) ++
     (match o with Syslog p _ text date => if passes s p then record_of (name_of g) pid s p text date else [] | _ => [] end)).
Proof.
  intros CG CP A [MO OK]. destruct A as [AM AR AI AC A0 A5]. destruct o as [i op f| |m|p fmt text date]; cbn [step fst].
  - set (l1 := {| ident := identity_cstr g i; opt := Z.land op 63; mask := with_facility (mask l) f; writer := writer l; device := device l; stderr := stderr l |}).
    assert (AG : agree g l1 (sets s (Openlog i op f))).
    { constructor; cbn [sets openlog_sets s_mask s_opt mask opt l1].
      - rewrite AM. apply with_facility_ok; [exact AR|exact MO].
      - exact AR.
      - left. unfold named. cbn [ident s_ident l1]. unfold identity_cstr. destruct i as [[|x i]|]; [apply identity_named|reflexivity|apply identity_named].
      - unfold named. cbn [s_ident]. destruct i as [[|x i]|]; [exact CG|exact OK|exact CG].
      - rewrite Z.land_spec. change (Z.testbit 63 0) with true. apply andb_true_r.
      - rewrite Z.land_spec. change (Z.testbit 63 5) with true. apply andb_true_r. }
    assert (X : let l2 := if Z.testbit (opt l1) 3 then fst (open_logger ok l1) else l1 in
                ident l2 = ident l1 /\ opt l2 = opt l1 /\ mask l2 = mask l1 /\ stderr l2 = stderr l1 /\ device l2 = device l1).
    { unfold open_logger. destruct (Z.testbit (opt l1) 3), ok; cbn; auto. }
    cbn zeta in X. destruct X as (X1 & X2 & X3 & X4 & X5). split; [|split].
    + destruct AG as [G1 G2 G3 G4 G5 G6]. constructor; rewrite ?X2, ?X3; try assumption. unfold ident_rel in *. rewrite X1. exact G3.
    + rewrite X4. cbn. rewrite app_nil_r. reflexivity.
    + intros _ K _. cbn [keeps] in K. cbn [opt l1]. rewrite Z.land_spec, K. cbn. rewrite app_nil_r. reflexivity.
  - split; [|split; [cbn; rewrite app_nil_r; reflexivity|intros _ []]]. constructor; assumption.
  - cbn [sets]. unfold setlogmask_sets. destruct (m =? 0); [split; [constructor; assumption|cbn; rewrite !app_nil_r; auto]|].
    split; [|cbn; rewrite !app_nil_r; auto]. constructor; cbn [s_mask s_opt mask opt]; try assumption.
    rewrite AM. apply with_mask_ok; [exact AR|exact MO].
  - destruct OK as (P0 & P8 & NE & CT & CD). cbn [sets]. rewrite should_ok by (rewrite ?AM; assumption). rewrite AM. fold (passes s p).
    destruct (passes s p); [|split; [constructor; assumption|rewrite !app_nil_r; auto]].
    destruct (write_log_eq g pid ok l p fmt text date NE) as (w & d & -> & D).
    pose proof (used_named g l s (Build_agree g l s AM AR AI AC A0 A5)) as U. split; [|split].
    + constructor; cbn [mask opt]; try assumption. left. exact U.
    + cbn [stderr]. f_equal. rewrite A5. unfold stderr_of. destruct (Z.testbit (s_opt s) 5); [|reflexivity]. rewrite U, upto_app by exact AC. do 2 f_equal.
      change (text ++ [10; 0]) with (text ++ [10] ++ [0]). rewrite app_assoc. apply upto_app. apply clean_app; [exact CT|cbv; intuition discriminate].
    + intros OT _ FN. cbn [device]. unfold unsent at 1. cbn [writer]. rewrite (D OT), nz_app. f_equal. cbn [facility_named] in FN.
      unfold raw_record, record_of. destruct (Z.ltb_spec p 8); [lia|]. rewrite U, A0. rewrite !nz_app. rewrite <- !app_assoc.
      rewrite !(nz_id date), !(nz_id text), !(nz_id (named _ _)), !(nz_id (map _ _)) by (try assumption; apply clean_digits; lia).
      change (nz [0]) with (@nil Z). change (nz [10; 0]) with [10]. change (nz (codes "<")) with (codes "<"). change (nz (codes ">")) with (codes ">").
      change (nz (codes " ")) with (codes " "). change (nz (codes ": ")) with (codes ": "). cbn [app].
      destruct (Z.testbit (s_opt s) 0); [rewrite (nz_id pid CP)|]; reflexivity.
Qed.
Lemma run_ok g pid ok : clean (name_of g) -> clean pid -> forall ops l s, agree g l s -> Forall op_ok ops ->
  stderr (fst (run g pid ok l ops)) = stderr l ++ on_stderr (name_of g) s ops /\
  (ok = true -> Forall keeps ops -> Forall facility_named ops ->
   nz (device (fst (run g pid ok l ops)) ++ unsent (fst (run g pid ok l ops))) = nz (device l ++ unsent l) ++ records (name_of g) pid s ops).
Proof.
  intros CG CP. induction ops as [|o ops IH]; intros l s A F; [cbn; rewrite !app_nil_r; auto|]. inversion F as [|? ? O F']; subst.
  destruct (step_ok g pid ok l s o CG CP A O) as (A' & S' & D'). cbn [run]. destruct (step g pid ok l o) as [l' r]. cbn [fst] in *.
  destruct (IH l' (sets s o) A' F') as [S2 D2]. destruct (run g pid ok l' ops) as [l2 rs]. cbn [fst] in *. cbn [on_stderr records]. split.
  - rewrite S2, S', <- app_assoc. reflexivity.
  - intros OT K FN. inversion K; subst. inversion FN; subst. rewrite D2 by (first [assumption|reflexivity]). rewrite D' by (first [assumption|reflexivity]). rewrite <- app_assoc. reflexivity.
Qed.
Lemma agree_init g : clean (name_of g) -> agree g init at_start.
Proof. intros C. constructor; try reflexivity; [cbn; lia|right; split; reflexivity|exact C]. Qed.
