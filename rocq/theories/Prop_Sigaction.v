(* C60-C62: signal dispositions. *)
From Verif Require Import Base Signal_model Signal_spec Signal_proofs Sigaction_model Sigaction_spec Sigaction_proofs.

(* Missing from C60: SA_NOCLDWAIT, the flags and mask given with SIG_DFL or SIG_IGN, and
   siginterrupt (refuted below). *)
Theorem C60_sigaction_partial : forall DH sig a st d, address DH -> 0 < DH -> settable sig -> an_act DH a -> good (wd st) -> disposition DH st d ->
  exists st', sigaction DH sig (Some a) st = Some (d sig, st') /\ disposition DH st' (update d sig (installed a)) /\
    kept sig (discards sig (sa_handler a)) st st'.
Proof. exact sigaction_ok. Qed.
Print Assumptions C60_sigaction_partial.
(* Every state has dispositions; they begin as SIG_DFL; EINVAL exactly for the numbers that
   are no signals and for changing SIGKILL or SIGSTOP. *)
Theorem C60_query : forall DH, address DH ->
  (forall w q, disposition DH (P (setup_actions DH) w q) (fun _ => Act SIG_DFL 0 0)) /\
  (forall st, exists d, disposition DH st d /\ forall n, unblockable n = true -> d n = Act SIG_DFL 0 0) /\
  (forall sig new st, sigaction DH sig new st = None <-> ~ valid sig \/ (unblockable sig = true /\ new <> None)).
Proof.
  intros DH A. split; [intros w q; apply initial_ok; exact A|]. split; [|intros; apply sigaction_errors].
  intro st. exists (fun n => of_kind (if unblockable n then (KDefault, 0, 0) else convert_old DH (acts st n))). split; [intros n V; apply query_eq; exact V|].
  intros n U. rewrite U. reflexivity.
Qed.
Print Assumptions C60_query.
(* signal(): returns the previous handler and installs the new one. *)
Theorem C60_signal : forall DH sig func st d, address DH -> 0 < DH -> address func -> func <> DH -> good (wd st) -> disposition DH st d ->
  (settable sig -> exists st', signal_fn DH sig func st = (sa_handler (d sig), st') /\ disposition DH st' (update d sig (installed (Act func SA_RESTART 0))) /\ kept sig (discards sig func) st st') /\
  (~ settable sig -> signal_fn DH sig func st = (SIG_ERR, st)).
Proof. exact signal_ok. Qed.
Print Assumptions C60_signal.
(* On delivery the installed action is taken; SA_RESETHAND resets it, nothing else does. *)
Theorem C60_resethand : forall DH sig st d, address DH -> 0 < DH -> settable sig -> good (wd st) -> disposition DH st d ->
  let '(k, st') := take_action DH sig st in
  of_kind k = d sig /\ disposition DH st' (if Z.land (snd (fst k)) SA_RESETHAND =? 0 then d else update d sig (Act SIG_DFL 0 0)).
Proof. exact take_ok. Qed.
Print Assumptions C60_resethand.

Definition dh : Z := 65536.
Definition calm : words := W (Z.shiftl (2 ^ 32 - 1) 32) (Z.shiftl (2 ^ 32 - 1) 32).
Definition start_state : pst := P (setup_actions dh) calm 0.
(* the full statement: what was set is reported back *)
Definition reports_back (flags_ok : Z -> Prop) (handler_ok : Z -> Prop) : Prop :=
  forall DH sig a st old st', address DH -> 0 < DH -> settable sig -> address (sa_handler a) -> sa_handler a <> DH -> flags_ok (sa_flags a) -> handler_ok (sa_handler a) ->
  sigaction DH sig (Some a) st = Some (old, st') -> sigaction DH sig None st' = Some (a, st').
Theorem C60_nocldwait_refuted : ~ reports_back (fun f => Z.land f (Z.lor FLAGS SA_NOCLDWAIT) = f) (fun h => h <> SIG_DFL /\ h <> SIG_IGN).
Proof.
  intro H. destruct (sigaction dh 17 (Some (Act 131072 SA_NOCLDWAIT 0)) start_state) as [(old, st')|] eqn:E; [|vm_compute in E; discriminate].
  assert (X : sigaction dh 17 None st' = Some (Act 131072 SA_NOCLDWAIT 0, st')).
  { apply (H dh 17 (Act 131072 SA_NOCLDWAIT 0) start_state old st'); try exact E; try reflexivity; try (split; vm_compute; congruence); try (vm_compute; congruence).
    split; [split; [split; vm_compute; congruence|vm_compute; congruence]|reflexivity]. }
  assert (Y : st' = snd (match sigaction dh 17 (Some (Act 131072 SA_NOCLDWAIT 0)) start_state with Some r => r | None => (Act 0 0 0, start_state) end)) by (rewrite E; reflexivity).
  assert (Z0 : option_map (fun r => sa_flags (fst r)) (sigaction dh 17 None st') = Some SA_NOCLDWAIT) by (rewrite X; reflexivity). rewrite Y in Z0. vm_compute in Z0. discriminate.
Qed.
Print Assumptions C60_nocldwait_refuted.
Theorem C60_default_refuted : ~ reports_back (fun f => Z.land f FLAGS = f) (fun h => h = SIG_DFL).
Proof.
  intro H. destruct (sigaction dh 17 (Some (Act SIG_DFL SIG_SPECIFIC 0)) start_state) as [(old, st')|] eqn:E; [|vm_compute in E; discriminate].
  assert (X : sigaction dh 17 None st' = Some (Act SIG_DFL SIG_SPECIFIC 0, st')).
  { apply (H dh 17 (Act SIG_DFL SIG_SPECIFIC 0) start_state old st'); try exact E; try reflexivity; try (split; vm_compute; congruence); try (vm_compute; congruence).
    split; [split; [split; vm_compute; congruence|vm_compute; congruence]|reflexivity]. }
  assert (Y : st' = snd (match sigaction dh 17 (Some (Act SIG_DFL SIG_SPECIFIC 0)) start_state with Some r => r | None => (Act 0 0 0, start_state) end)) by (rewrite E; reflexivity).
  assert (Z0 : option_map (fun r => sa_flags (fst r)) (sigaction dh 17 None st') = Some SIG_SPECIFIC) by (rewrite X; reflexivity). rewrite Y in Z0. vm_compute in Z0. discriminate.
Qed.
Print Assumptions C60_default_refuted.
(* siginterrupt(sig, 1) aborts the program, whatever the signal and the state. *)
Theorem C60_siginterrupt_refuted : forall DH sig flag st, flag <> 0 -> siginterrupt DH sig flag st = Panic.
Proof. exact siginterrupt_panics. Qed.
Print Assumptions C60_siginterrupt_refuted.
(* SIGUSR1 pending and blocked; a handler with SA_SIGINFO|SA_RESETHAND and a mask. *)
Definition usr1 : pst := P (setup_actions dh) (W (Z.shiftl (2 ^ 32 - 1 - 2 ^ 9) 32 + 2 ^ 9) (Z.shiftl (2 ^ 32 - 1) 32)) (2 ^ 9).
Example C60_case : let a := Act 131072 (SA_SIGINFO + SA_RESETHAND) 7 in
  address dh /\ settable 10 /\ an_act dh a /\ good (wd usr1) /\
  exists st', sigaction dh 10 (Some a) usr1 = Some (Act 0 0 0, st') /\
  option_map fst (sigaction dh 10 None st') = Some a /\ pending (wd st') 10 = true /\
  option_map fst (sigaction dh 10 None (snd (take_action dh 10 st'))) = Some (Act 0 0 0) /\
  exists st2, sigaction dh 10 (Some (Act SIG_IGN 0 0)) st' = Some (a, st2) /\ pending (wd st2) 10 = false /\ blocked (wd st2) 10 = true /\ pp st2 = 0.
Proof.
  cbv zeta. split; [split; vm_compute; congruence|]. split; [split; [split; [split; vm_compute; congruence|vm_compute; congruence]|reflexivity]|].
  split; [split; [split; vm_compute; congruence|split; [vm_compute; congruence|reflexivity]]|]. split; [split; split; vm_compute; congruence|].
  eexists. split; [reflexivity|]. split; [vm_compute; reflexivity|]. split; [vm_compute; reflexivity|]. split; [vm_compute; reflexivity|].
  eexists. split; [vm_compute; reflexivity|]. vm_compute. auto.
Qed.

(* ---- C61: sighold, sigrelse, sigset ---- *)
Theorem C61_hold : forall env sig st, signal sig -> reserved sig = false -> unblockable sig = false -> good (wd st) ->
  (exists st', sighold env sig st = (0, st') /\ acts st' = acts st /\ pp st' = pp st /\
   forall n, signal n -> pending (wd st') n = pending (wd st) n || arrives_in env 0 4 n /\
     (unblockable n = false -> blocked (wd st') n = if n =? sig then true else blocked (wd st) n)) /\
  (exists st', sigrelse env sig st = (0, st') /\ acts st' = acts st /\ pp st' = pp st /\
   forall n, signal n -> pending (wd st') n = pending (wd st) n || arrives_in env 0 4 n /\
     (unblockable n = false -> blocked (wd st') n = if n =? sig then false else blocked (wd st) n)).
Proof.
  intros env sig st S R U G. split.
  - destruct (hold_ok env SIG_BLOCK sig st ltac:(tauto) S R U G) as (st' & E & A & P & _ & Q). exists st'. auto.
  - destruct (hold_ok env SIG_UNBLOCK sig st ltac:(tauto) S R U G) as (st' & E & A & P & _ & Q). exists st'. auto.
Qed.
Print Assumptions C61_hold.
Theorem C61_errors : forall DH env sig func st, ~ signal sig -> sighold env sig st = (-1, st) /\ sigrelse env sig st = (-1, st) /\ sigset_fn DH env sig func st = (SIG_ERR, st).
Proof.
  intros DH env sig func st S. split; [apply hold_bad; exact S|]. split; [apply hold_bad; exact S|]. unfold sigset_fn. rewrite add_bad by exact S. reflexivity.
Qed.
Print Assumptions C61_errors.
Theorem C61_sigset : forall DH env sig func st d, address DH -> 0 < DH -> address func -> func <> DH -> settable sig -> reserved sig = false -> good (wd st) -> disposition DH st d ->
  exists st', sigset_fn DH env sig func st = (if blocked (wd st) sig then SIG_HOLD else sa_handler (d sig), st') /\ good (wd st') /\
  disposition DH st' (if func =? SIG_HOLD then d else update d sig (installed (Act func 0 0))) /\
  forall n, signal n -> unblockable n = false -> blocked (wd st') n = if n =? sig then func =? SIG_HOLD else blocked (wd st) n.
Proof. exact sigset_ok. Qed.
Print Assumptions C61_sigset.
Definition still : nat -> Z * Z := fun _ => (0, 0).
Example C61_case :
  let '(r1, s1) := sigset_fn dh still 15 131072 start_state in
  let '(r2, s2) := sigset_fn dh still 15 SIG_HOLD s1 in
  let '(r3, s3) := sigset_fn dh still 15 SIG_DFL s2 in
  (r1, r2, r3) = (SIG_DFL, 131072, SIG_HOLD) /\ blocked (wd s2) 15 = true /\ blocked (wd s3) 15 = false.
Proof. vm_compute. auto. Qed.

(* ---- C62: exec ---- *)
(* The mask passed to the new program makes it start with the ignored signals ignored and
   all others at their default. *)
Theorem C62_exec : forall DH DH' st d w q, address DH -> 0 < DH -> address DH' -> 0 < DH' -> reached DH st -> good w -> disposition DH st d ->
  disposition DH' (apply_loop DH' (sigignmask_to_inherit DH st) 64 (P (setup_actions DH') w q))
    (fun n => if sa_handler (d n) =? SIG_IGN then Act SIG_IGN 0 0 else Act SIG_DFL 0 0).
Proof. exact exec_ok. Qed.
Print Assumptions C62_exec.
Definition ignoring : pst := snd (sigignore dh 1 (snd (signal_fn dh 2 131072 start_state))).
Example C62_case : reached dh ignoring /\ sigignmask_to_inherit dh ignoring = 1 /\
  option_map fst (sigaction dh 1 None ignoring) = Some (Act SIG_IGN 0 0) /\ option_map fst (sigaction dh 2 None ignoring) = Some (Act 131072 SA_RESTART 0) /\
  let st := apply_loop dh (sigignmask_to_inherit dh ignoring) 64 start_state in
  option_map fst (sigaction dh 1 None st) = Some (Act SIG_IGN 0 0) /\ option_map fst (sigaction dh 2 None st) = Some (Act SIG_DFL 0 0).
Proof.
  split; [|split; [vm_compute; reflexivity|split; [vm_compute; reflexivity|split; [vm_compute; reflexivity|vm_compute; auto]]]].
  apply (r_action dh (snd (signal_fn dh 2 131072 start_state)) 1 (Act SIG_IGN 0 0) (Act SIG_DFL 0 0)).
  - apply (r_action dh start_state 2 (Act 131072 SA_RESTART 0) (Act SIG_DFL 0 0)).
    + apply r_setup. split; split; vm_compute; congruence.
    + split; [split; vm_compute; congruence|split; [vm_compute; congruence|reflexivity]].
    + reflexivity.
  - split; [split; vm_compute; congruence|split; [vm_compute; congruence|reflexivity]].
  - reflexivity.
Qed.
