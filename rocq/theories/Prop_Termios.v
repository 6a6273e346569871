(* C148: terminals. *)
From Verif Require Import Base Termios_model Termios_spec Termios_proofs.

(* C148 full: cfmakeraw switches off processing of input and output, echo, canonical mode, signals and parity, sets eight bits
   and reading byte by byte, and nothing else; tcsetattr sets the attributes tcgetattr then gives, with TCSADRAIN after the output has
   gone and with TCSAFLUSH also discarding input; the speeds set are those got; tcsetpgrp returns 0 and sets the process group
   tcgetpgrp gives; tcflush, tcflow, tcdrain and tcsendbreak do what they are asked; unknown arguments are refused with EINVAL, and what
   the terminal refuses changes nothing; FIONBIO changes O_NONBLOCK alone.
   Missing: TCSADRAIN and TCSAFLUSH, the speeds, the result of tcsetpgrp: refuted. *)
Theorem C148_raw : forall t, proper t -> raw t (cfmakeraw t).
Proof. exact raw_ok. Qed.
Print Assumptions C148_raw.
Example C148_raw_case : proper (Tio 1280 5 191 35387 (repeat 7 32)) /\ let t := cfmakeraw (Tio 1280 5 191 35387 (repeat 7 32)) in (iflag t, oflag t, cflag t, lflag t) = (1024, 4, 959, 35363).
Proof. split; [repeat split; cbn; lia|]. vm_compute. reflexivity. Qed.

(* attributes, process group and size: what is set is got, nothing else changes; what is refused changes nothing *)
Theorem C148_attr_partial : forall refuse k actions t, 0 <= actions <= 2 ->
  match refuse Termios with
  | Some e => tcsetattr refuse k actions t = (k, inr e) /\ tcgetattr refuse k = inr e
  | None => exists k', tcsetattr refuse k actions t = (k', inl 0) /\ tcgetattr refuse k' = inl (Attr t) /\ pgrp k' = pgrp k /\ size k' = size k
  end.
Proof.
  intros refuse k a t A. assert (a = 0 \/ a = 1 \/ a = 2) as [->|[->| ->]] by lia; unfold tcsetattr, tcgetattr, ioctl_read, ioctl_write;
    [change (verb_of (TCSETS + 0)) with (Some Termios)|change (verb_of (TCSETS + 1)) with (Some Termios)|change (verb_of (TCSETS + 2)) with (Some Termios)]; cbn;
    destruct (refuse Termios); (split; reflexivity) || (eexists; split; [reflexivity|]; repeat split).
Qed.
Print Assumptions C148_attr_partial.
Theorem C148_size : forall refuse k w,
  match refuse Winsize with
  | Some e => tcsetwinsize refuse k w = (k, inr e) /\ tcgetwinsize refuse k = inr e
  | None => exists k', tcsetwinsize refuse k w = (k', inl 0) /\ tcgetwinsize refuse k' = inl (Size w) /\ attr k' = attr k /\ pgrp k' = pgrp k
  end.
Proof.
  intros refuse k w. unfold tcsetwinsize, tcgetwinsize, ioctl_read, ioctl_write. change (verb_of TIOCSWINSZ) with (Some Winsize). cbn. destruct (refuse Winsize); [split; reflexivity|]. eexists. split; [reflexivity|]. repeat split.
Qed.
Print Assumptions C148_size.
Theorem C148_pgrp_partial : forall refuse k g,
  match refuse Pgrp with
  | Some e => tcsetpgrp refuse k g = (k, inr e) /\ tcgetpgrp refuse k = inr e
  | None => exists k' r, tcsetpgrp refuse k g = (k', inl r) /\ tcgetpgrp refuse k' = inl (Int g) /\ attr k' = attr k /\ size k' = size k
  end.
Proof.
  intros refuse k g. unfold tcsetpgrp, tcgetpgrp, ioctl_read, ioctl_write. change (verb_of TIOCSPGRP) with (Some Pgrp). cbn. destruct (refuse Pgrp); [split; reflexivity|]. eexists. eexists. split; [reflexivity|]. repeat split.
Qed.
Print Assumptions C148_pgrp_partial.
Definition tty0 : tty := Tty (Tio 1280 5 191 35387 (repeat 7 32)) 12 (Win 24 80 0 0) [].
Example C148_attr_case : exists k', tcsetattr (fun _ => None) tty0 2 (cfmakeraw (attr tty0)) = (k', inl 0) /\ tcgetattr (fun _ => None) k' = inl (Attr (cfmakeraw (attr tty0))).
Proof. destruct (C148_attr_partial (fun _ => None) tty0 2 (cfmakeraw (attr tty0)) ltac:(lia)) as (k' & A & B & _). exists k'. split; assumption. Qed.
Example C148_size_case : exists k', tcsetwinsize (fun _ => None) tty0 (Win 50 132 0 0) = (k', inl 0) /\ tcgetwinsize (fun _ => None) k' = inl (Size (Win 50 132 0 0)) /\ size tty0 = Win 24 80 0 0.
Proof. destruct (C148_size (fun _ => None) tty0 (Win 50 132 0 0)) as (k' & A & B & _). exists k'. split; [exact A|]. split; [exact B|reflexivity]. Qed.
Example C148_pgrp_case : exists k' r, tcsetpgrp (fun _ => None) tty0 77 = (k', inl r) /\ pgrp tty0 = 12 /\ tcgetpgrp (fun _ => None) k' = inl (Int 77).
Proof. destruct (C148_pgrp_partial (fun _ => None) tty0 77) as (k' & r & A & B & _). exists k', r. split; [exact A|]. split; [reflexivity|exact B]. Qed.

(* the other functions: the terminal is told once, with the queue or action asked for; draining and break are told apart *)
Theorem C148_told : forall refuse k,
  (forall queue, 0 <= queue <= 2 -> refuse Flush = None -> exists k', tcflush refuse k queue = (k', inl 0) /\ written k' = written k ++ [(Flush, Int queue)] /\ attr k' = attr k) /\
  (forall action, 0 <= action <= 3 -> refuse Flow = None -> exists k', tcflow refuse k action = (k', inl 0) /\ written k' = written k ++ [(Flow, Int action)] /\ attr k' = attr k) /\
  (refuse SendBreak = None -> exists k' n, tcdrain refuse k = (k', inl 0) /\ written k' = written k ++ [(SendBreak, Int n)] /\ n <> 0) /\
  (forall d, refuse SendBreak = None -> exists k', tcsendbreak refuse k d = (k', inl 0) /\ written k' = written k ++ [(SendBreak, Int 0)]) /\
  (forall e, refuse SendBreak = Some e -> tcdrain refuse k = (k, inr e) /\ forall d, tcsendbreak refuse k d = (k, inr e)) /\
  (forall e queue, 0 <= queue <= 2 -> refuse Flush = Some e -> tcflush refuse k queue = (k, inr e)) /\
  (forall e action, 0 <= action <= 3 -> refuse Flow = Some e -> tcflow refuse k action = (k, inr e)).
Proof.
  intros refuse k. unfold tcflush, tcflow, tcdrain, tcsendbreak, ioctl_write.
  change (verb_of TCFLSH) with (Some Flush). change (verb_of TCXONC) with (Some Flow). change (verb_of TCSBRK) with (Some SendBreak). cbn. split; [|split; [|split; [|split; [|split; [|split]]]]].
  - intros q Q R. rewrite R. assert (q = 0 \/ q = 1 \/ q = 2) as [->|[->| ->]] by lia; (eexists; split; [reflexivity|]; split; reflexivity).
  - intros q Q R. rewrite R. assert (q = 0 \/ q = 1 \/ q = 2 \/ q = 3) as [->|[->|[->| ->]]] by lia; (eexists; split; [reflexivity|]; split; reflexivity).
  - intro R. rewrite R. eexists. exists 1. split; [reflexivity|]. split; [reflexivity|discriminate].
  - intros _ R. rewrite R. eexists. split; reflexivity.
  - intros e R. rewrite R. split; reflexivity.
  - intros e q Q R. rewrite R. assert (q = 0 \/ q = 1 \/ q = 2) as [->|[->| ->]] by lia; reflexivity.
  - intros e q Q R. rewrite R. assert (q = 0 \/ q = 1 \/ q = 2 \/ q = 3) as [->|[->|[->| ->]]] by lia; reflexivity.
Qed.
Print Assumptions C148_told.
Example C148_told_case : exists k', tcflush (fun _ => None) tty0 1 = (k', inl 0) /\ written k' = [(Flush, Int 1)].
Proof. destruct (proj1 (C148_told (fun _ => None) tty0) 1 ltac:(lia) eq_refl) as (k' & A & B & _). exists k'. split; [exact A|exact B]. Qed.

Theorem C148_arguments : forall refuse k x t, x < 0 \/ 3 < x -> tcsetattr refuse k x t = (k, inr 22) /\ tcflush refuse k x = (k, inr 22) /\ tcflow refuse k x = (k, inr 22) /\
  tcsetattr refuse k 3 t = (k, inr 22) /\ tcflush refuse k 3 = (k, inr 22).
Proof.
  intros refuse k x t X. unfold tcsetattr, tcflush, tcflow. destruct (Z.eqb_spec x 0); [lia|]. destruct (Z.eqb_spec x 1); [lia|]. destruct (Z.eqb_spec x 2); [lia|]. destruct (Z.eqb_spec x 3); [lia|].
  repeat split.
Qed.
Print Assumptions C148_arguments.
Example C148_arguments_case : tcflow (fun _ => None) tty0 4 = (tty0, inr 22).
Proof. apply (C148_arguments (fun _ => None) tty0 4 (attr tty0)). lia. Qed.

Theorem C148_nonblock : forall b flags arg, 0 <= b -> 0 <= flags ->
  Z.testbit (fionbio (2 ^ b) flags arg) b = negb (arg =? 0) /\ forall i, 0 <= i -> i <> b -> Z.testbit (fionbio (2 ^ b) flags arg) i = Z.testbit flags i.
Proof.
  intros b flags arg B F. unfold fionbio. destruct (Z.eqb_spec arg 0); cbn [negb].
  - split; [|intros i I0 N]; rewrite Z.land_spec, Z.lnot_spec by assumption; [rewrite Z.pow2_bits_true by exact B; apply andb_false_r|].
    rewrite Z.pow2_bits_false by lia. apply andb_true_r.
  - split; [|intros i I0 N]; rewrite Z.lor_spec; [rewrite Z.pow2_bits_true by exact B; apply orb_true_r|]. rewrite Z.pow2_bits_false by lia. apply orb_false_r.
Qed.
Print Assumptions C148_nonblock.
Example C148_nonblock_case : fionbio (2 ^ 18) (2 ^ 18 + 3) 0 = 3 /\ fionbio (2 ^ 18) 3 1 = 2 ^ 18 + 3.
Proof. split; reflexivity. Qed.

(* TCSADRAIN and TCSAFLUSH: for every terminal the same as TCSANOW, so no terminal can wait or discard for them *)
Theorem C148_actions_refuted : forall refuse k t, tcsetattr refuse k 1 t = tcsetattr refuse k 0 t /\ tcsetattr refuse k 2 t = tcsetattr refuse k 0 t.
Proof. intros. split; reflexivity. Qed.
Print Assumptions C148_actions_refuted.
(* no speed can be set, and 0, hang up, is got *)
Theorem C148_speed_refuted : forall t speed, cfsetospeed t speed = (t, inr 22) /\ cfsetispeed t speed = (t, inr 22) /\ cfgetospeed t = 0.
Proof. intros. repeat split. Qed.
Print Assumptions C148_speed_refuted.
(* tcsetpgrp returns the group, not 0 *)
Theorem C148_pgrp_refuted : forall refuse k g, refuse Pgrp = None -> snd (tcsetpgrp refuse k g) = inl g.
Proof. intros refuse k g R. unfold tcsetpgrp, ioctl_write. change (verb_of TIOCSPGRP) with (Some Pgrp). cbn. rewrite R. reflexivity. Qed.
Print Assumptions C148_pgrp_refuted.
