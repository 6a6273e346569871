(* C134: syslog. *)
From Coq Require Import ZArith String List Bool Lia.
From Verif Require Import Base Ctype_spec Numeral Syslog_model Syslog_spec Syslog_proofs.
Import ListNotations.
Open Scope string_scope.
Open Scope list_scope.
Open Scope Z_scope.

(* C134 full: whatever openlog, setlogmask and closelog were called before, syslog sends the message to the log, with
   its priority (the facility of openlog, or LOG_USER, when it names none), the identity and the text, and with
   LOG_PERROR to standard error, when its severity is in the mask, and only then; setlogmask returns the mask that was.
   Missing: the log (what is proved is said of what was written to it or is in the buffer on its way: that it gets there
   is refuted), NUL bytes in the records (refuted), priorities whose facility is not a multiple of 32 (refuted) or that
   name none (refuted). *)
Theorem C134_setlogmask : forall progname pid ok ops, Forall mask_ok ops ->
  snd (run progname pid ok init ops) = returned at_start ops.
Proof. intros g pid ok ops F. apply run_mask; [exact F|reflexivity|cbn; lia]. Qed.
Print Assumptions C134_setlogmask.
Example C134_setlogmask_case : snd (run None [] true init [Setlogmask 7; Openlog None 0 24; Setlogmask 0; Setlogmask 255; Setlogmask 1]) = [255; 0; 7; 7; 255].
Proof. reflexivity. Qed.

Theorem C134_stderr_partial : forall progname pid ok ops, clean (name_of progname) -> clean pid -> Forall op_ok ops ->
  stderr (fst (run progname pid ok init ops)) = on_stderr (name_of progname) at_start ops.
Proof. intros g pid ok ops CG CP F. exact (proj1 (run_ok g pid ok CG CP ops init at_start (agree_init g CG) F)). Qed.
Print Assumptions C134_stderr_partial.
(* the bytes sent, NULs apart, are the records in their order *)
Theorem C134_records_partial : forall progname pid ops, clean (name_of progname) -> clean pid -> Forall op_ok ops ->
  Forall keeps ops -> Forall facility_named ops ->
  let l := fst (run progname pid true init ops) in
  nz (device l ++ unsent l) = records (name_of progname) pid at_start ops.
Proof. intros g pid ops CG CP F K FN. exact (proj2 (run_ok g pid true CG CP ops init at_start (agree_init g CG) F) eq_refl K FN). Qed.
Print Assumptions C134_records_partial.
Definition a_session : list op :=
  [Openlog (Some (codes "cron")) 33 8; Syslog 35 (codes "%s") (codes "disk full") (codes "T"); Setlogmask 8; Syslog 38 (codes "x") (codes "x") (codes "T");
   Openlog None 0 8; Syslog 131 (codes "y") (codes "y") (codes "T")].
Example C134_records_case : Forall op_ok a_session /\ Forall keeps a_session /\ Forall facility_named a_session /\
  records (codes "prog") (codes "17") at_start a_session = codes "<35>T cron17: disk full" ++ [10] ++ codes "<131>T prog: y" ++ [10] /\
  on_stderr (codes "prog") at_start a_session = codes "cron: disk full" ++ [10].
Proof.
  split; [|split; [|split; [|split; reflexivity]]].
  - unfold a_session, op_ok, mask_ok, clean. repeat apply Forall_cons; try apply Forall_nil; repeat split; try lia; try discriminate; cbn; intuition discriminate.
  - repeat constructor.
  - unfold facility_named. repeat apply Forall_cons; try apply Forall_nil; try exact I; lia.
Qed.

(* a message is not in the log when closelog has returned: records shorter than the buffer are lost *)
Theorem C134_lost_refuted :
  (forall progname pid p fmt text date, fmt <> [] ->
    len (raw_record progname pid init p text date) < 8192 ->
    let l := fst (run progname pid true init [Syslog p fmt text date; Closelog]) in device l = [] /\ unsent l = []) /\
  ~ (forall progname pid ops, Forall op_ok ops -> Forall facility_named ops ->
       nz (device (fst (run progname pid true init (ops ++ [Closelog])))) = records (name_of progname) pid at_start ops).
Proof.
  split.
  - intros g pid p fmt text date NE L. destruct fmt as [|c fmt]; [congruence|]. cbn [run step fst]. destruct (should_log (mask init) p); [|split; reflexivity].
    unfold write_log. cbn [ident init]. change (ident (set_ident init (identity g None))) with (ident_used g init).
    change (opt (set_ident init (identity g None))) with (opt init). fold (raw_record g pid init p text date).
    cbn [maybe_open_logger writer set_ident init open_logger fst set_writer device opt]. unfold buf_write. change (len []) with 0.
    destruct (Z.ltb_spec CAP (0 + len (raw_record g pid init p text date))); [unfold CAP in *; lia|].
    destruct (Z.leb_spec CAP (len (raw_record g pid init p text date))); [unfold CAP in *; lia|]. split; reflexivity.
  - intros H. specialize (H None [] [Syslog 35 (codes "x") (codes "x") []]).
    assert (X : nz (device (fst (run None [] true init ([Syslog 35 (codes "x") (codes "x") []] ++ [Closelog])))) = codes "<35> : x" ++ [10]).
    { apply H.
      - repeat apply Forall_cons; try apply Forall_nil. unfold op_ok, mask_ok, clean. repeat split; try lia; try discriminate; cbn; intuition discriminate.
      - unfold facility_named. repeat apply Forall_cons; try apply Forall_nil; lia. }
    vm_compute in X. discriminate X.
Qed.
Print Assumptions C134_lost_refuted.
(* LOG_USER | LOG_ERR is dropped under every mask of severities; LOG_MAIL, LOG_DAEMON as well *)
Theorem C134_facility_filter_refuted : ~ (forall s p, 0 <= s < 256 -> 0 <= p < 192 -> should_log s p = Z.testbit s (severity p)) /\
  (forall s p, 0 <= s < 256 -> 8 <= p < 32 -> should_log s p = false).
Proof.
  assert (Q : forall s p, 0 <= s < 256 -> 8 <= p < 32 -> should_log s p = false).
  { intros s p B P. unfold should_log, LOG_MASK, FacilityMask. rewrite land_low by lia. rewrite (Z.mod_small p 32) by lia.
    assert (SB : Z.testbit s p = false).
    { rewrite <- (Z.mod_small s (2 ^ 8)) by (change (2 ^ 8) with 256; lia). apply Z.mod_pow2_bits_high. lia. }
    destruct (Z.eqb_spec (2 ^ p) 2147483648) as [E|E].
    - apply Z.eqb_neq. intros C. assert (0 <= Z.land s (-2147483648)) by (apply Z.land_nonneg; lia). lia.
    - apply Z.eqb_neq. intros C. apply (f_equal (fun x => Z.testbit x p)) in C. rewrite Z.land_spec, SB, Z.pow2_bits_true in C by lia. discriminate C. }
  split; [|exact Q]. intros H. specialize (H 255 11 ltac:(lia) ltac:(lia)). rewrite Q in H by lia. discriminate H.
Qed.
Print Assumptions C134_facility_filter_refuted.
(* the facility given to openlog is never used: the records say what syslog was given *)
Theorem C134_default_facility_refuted : ~ (forall progname pid ops, Forall op_ok ops -> Forall keeps ops ->
  let l := fst (run progname pid true init ops) in nz (device l ++ unsent l) = records (name_of progname) pid at_start ops).
Proof.
  intros H. specialize (H None [] [Openlog None 0 16; Syslog 3 (codes "x") (codes "x") []]). cbn zeta in H.
  assert (X : nz (device (fst (run None [] true init [Openlog None 0 16; Syslog 3 (codes "x") (codes "x") []])) ++ unsent (fst (run None [] true init [Openlog None 0 16; Syslog 3 (codes "x") (codes "x") []]))) = codes "<19> : x" ++ [10]).
  { apply H; [|repeat constructor]. unfold op_ok, mask_ok, clean. repeat apply Forall_cons; try apply Forall_nil; repeat split; try lia; try discriminate; cbn; intuition discriminate. }
  vm_compute in X. discriminate X.
Qed.
Print Assumptions C134_default_facility_refuted.
(* every record has a NUL between the identity and the text, so that what reads it as a string misses the text *)
Theorem C134_nul_refuted : forall progname pid p text date, clean (name_of progname) -> clean date -> 0 <= p ->
  upto_nul (raw_record progname pid init p text date) =
  codes "<" ++ map (fun d => 48 + d) (to_digits 10 p) ++ codes ">" ++ date ++ codes " " ++ name_of progname.
Proof.
  intros g pid p text date CG CD P. unfold raw_record, ident_used. cbn [ident init]. rewrite identity_named.
  set (r := (if Z.testbit (opt init) 0 then pid else []) ++ codes ": ").
  replace ((codes "<" ++ map (fun d : Z => 48 + d) (to_digits 10 p) ++ codes ">" ++ date ++ codes " " ++ (name_of g ++ [0]) ++ r) ++ text ++ [10; 0])
    with ((codes "<" ++ map (fun d : Z => 48 + d) (to_digits 10 p) ++ codes ">" ++ date ++ codes " " ++ name_of g) ++ 0 :: (r ++ text ++ [10; 0]))
    by (rewrite <- ?app_assoc; cbn [app]; rewrite <- ?app_assoc; reflexivity).
  apply upto_app. repeat apply clean_app; try assumption; try (apply clean_digits; exact P); cbv; intuition discriminate.
Qed.
Print Assumptions C134_nul_refuted.
