(* C149: diagnostics. *)
From Coq Require Import String.
From Verif Require Import Base Numeral Ctype_spec Diag_model Diag_spec Diag_proofs.
Open Scope string_scope.
Open Scope list_scope.
Open Scope Z_scope.

(* C149 full: strerror has a text for every int: that of the error, or one with the number in it; strerror_r by one thread does not disturb
   another's; strsignal the text of the signal.  perror and psignal write one line to standard error: the prefix if there is one and it is
   not empty, and strerror's or strsignal's text; errno is kept.  err, errc, errx, warn, warnc, warnx write to the file chosen, or standard
   error, one line of the program's name, the message if any, and, except for those in x, the text of the error errno held at the call;
   the err functions then call the function set, with the exit status, and exit with it.
   Missing: threads, psignal with an empty prefix, perror for unknown errors and prefixes not UTF-8, the argument of the function set: refuted. *)
Theorem C149_strerror : forall n s, In (n, s) meanings -> strerror n = codes s.
Proof.
  assert (A : forallb (fun p => if list_eq_dec Z.eq_dec (strerror (fst p)) (codes (snd p)) then true else false) meanings = true) by (vm_compute; reflexivity).
  intros n s I0. pose proof (proj1 (forallb_forall _ _) A (n, s) I0) as B. cbn [fst snd] in B. destruct (list_eq_dec Z.eq_dec (strerror n) (codes s)); [assumption|discriminate].
Qed.
Print Assumptions C149_strerror.
Theorem C149_strerror_known : forall n, 0 <= n < 132 -> 0 < len (strerror n) < STRERROR_MAX /\ Forall (fun c => 32 <= c < 127) (strerror n).
Proof. exact known_ok. Qed.
Print Assumptions C149_strerror_known.
Theorem C149_strerror_unknown : forall n, - 2 ^ 31 <= n < 2 ^ 31 -> n < 0 \/ 132 <= n ->
  exists ds, numeral 10 ds (Z.abs n) /\ strerror n = codes "Unknown error " ++ (if n <? 0 then codes "-" else []) ++ digits_of ds.
Proof. exact unknown_ok. Qed.
Print Assumptions C149_strerror_unknown.
Example C149_strerror_case : strerror (- 2 ^ 31) = codes "Unknown error -2147483648" /\ strerror 132 = codes "Unknown error 132" /\ strerror 0 = codes "Success".
Proof. vm_compute. repeat split. Qed.
Example C149_strerror_max : exists ds, numeral 10 ds (2 ^ 31) /\ strerror (- 2 ^ 31) = codes "Unknown error -" ++ digits_of ds.
Proof. destruct (C149_strerror_unknown (- 2 ^ 31) ltac:(lia) ltac:(lia)) as (ds & A & B). exists ds. split; [exact A|exact B]. Qed.

(* the two threads t and u call strerror_r at the same time: t gets the text u asked for *)
Theorem C149_threads_refuted : forall t u n m s, t <> u ->
  let s' := fold_left do_step [Fill t n; Fill u m; Copy t; Copy u] s in snd s' t = strerror m /\ snd s' u = strerror m.
Proof. intros t u n m s N. cbn. rewrite !Z.eqb_refl. rewrite (proj2 (Z.eqb_neq t u) N). split; reflexivity. Qed.
Print Assumptions C149_threads_refuted.
Example C149_threads_case : strerror 2 <> strerror 13.
Proof. rewrite (C149_strerror 2 "No such file or directory"), (C149_strerror 13 "Permission denied"); [discriminate|cbn; tauto|cbn; tauto]. Qed.

Theorem C149_strsignal : (forall n s, In (n, s) signals -> strsignal n = codes s) /\ forall n, - 2 ^ 31 <= n < 2 ^ 31 -> n <= 0 \/ 32 <= n -> strsignal n = codes "Unknown signal".
Proof.
  split.
  - assert (A : forallb (fun p => if list_eq_dec Z.eq_dec (strsignal (fst p)) (codes (snd p)) then true else false) signals = true) by (vm_compute; reflexivity).
    intros n s I0. pose proof (proj1 (forallb_forall _ _) A (n, s) I0) as B. cbn [fst snd] in B. destruct (list_eq_dec Z.eq_dec (strsignal n) (codes s)); [assumption|discriminate].
  - intros n R N. destruct (Z.eqb_spec n 0) as [->|Z0]; [reflexivity|]. unfold strsignal, get. change (len SIGNAL_STRINGS) with 32.
    destruct (Z.ltb_spec n 0); [rewrite as_usize_neg by lia|rewrite as_usize_small by lia]; rewrite (proj2 (Z.ltb_ge _ 32)) by lia; reflexivity.
Qed.
Print Assumptions C149_strsignal.
Example C149_strsignal_case : strsignal 11 = codes "Segmentation fault" /\ strsignal 34 = codes "Unknown signal".
Proof. split; [apply C149_strsignal; cbn; tauto|apply C149_strsignal; lia]. Qed.

Theorem C149_psignal_partial : forall errs w sig prefix, - 2 ^ 31 <= sig < 2 ^ 31 -> prefix <> Some [] ->
  told w (psignal errs w sig prefix) 2 (joined (opt prefix ++ [strsignal sig])) /\ errno (psignal errs w sig prefix) = errno w.
Proof.
  intros errs w sig prefix R N. split; [|reflexivity]. unfold psignal.
  assert (D : match (if sig <? 0 then None else get SIGNAL_STRINGS sig) with Some s => s | None => codes (nth 0 SIGNAL_STRINGS "") end = strsignal sig).
  { unfold strsignal. destruct (Z.ltb_spec sig 0).
    - rewrite as_usize_neg by lia. unfold get. change (len SIGNAL_STRINGS) with 32. rewrite (proj2 (Z.ltb_ge _ 32)) by lia. reflexivity.
    - rewrite as_usize_small by lia. reflexivity. }
  cbv zeta. rewrite D. set (d := strsignal sig) in *. unfold told. destruct prefix as [p|]; cbn [opt app joined]; split; intros; cbn [with_errno file].
  - rewrite fprint_told, <- !app_assoc. reflexivity.
  - apply fprint_other. assumption.
  - rewrite fprint_told, <- ?app_assoc. reflexivity.
  - apply fprint_other. assumption.
Qed.
Print Assumptions C149_psignal_partial.
Theorem C149_psignal_refuted : forall errs w sig, exists d, file (psignal errs w sig (Some [])) 2 = file w 2 ++ codes ": " ++ d.
Proof. intros. eexists. unfold psignal. cbn [with_errno file]. rewrite fprint_told. reflexivity. Qed.
Print Assumptions C149_psignal_refuted.
Definition world0 : world := World 2 None (Some 70) (fun _ => []) [].
Example C149_psignal_case : file (psignal (fun _ => 9) world0 15 (Some (codes "job"))) 2 = codes "job: Terminated" ++ [10].
Proof. destruct (C149_psignal_partial (fun _ => 9) world0 15 (Some (codes "job")) ltac:(lia) ltac:(discriminate)) as [[A _] _]. rewrite A. vm_compute. reflexivity. Qed.

Theorem C149_perror_partial : forall utf8 takes w s, (forall b, takes b = List.length b) -> 0 <= errno w < 132 -> (forall p, s = Some p -> utf8 p = true) ->
  told w (perror utf8 takes w s) 2 (joined (match s with Some [] => [] | _ => opt s end ++ [strerror (errno w)])) /\ errno (perror utf8 takes w s) = errno w.
Proof.
  intros utf8 takes w s T E U.
  assert (W : forall w b, write_str takes w b = print w 2 b) by (intros; unfold write_str; rewrite T, firstn_all; reflexivity).
  unfold perror. change (len STR_ERROR) with 132. rewrite (proj2 (Z.leb_le 0 (errno w))) by lia. rewrite (proj2 (Z.ltb_lt (errno w) 132)) by lia. cbv zeta. cbn [andb].
  rewrite <- known_eq by exact E. set (e := strerror (errno w)) in *. rewrite !W. unfold told. destruct s as [[|c p]|].
  - rewrite andb_false_r. cbn [app joined]. split; [split; intros|reflexivity]; [rewrite !print_told, <- app_assoc; reflexivity|rewrite !print_other by assumption; reflexivity].
  - rewrite (U _ eq_refl). replace (len (c :: p) =? 0) with false by (symmetry; apply Z.eqb_neq; unfold len; cbn [List.length]; lia). cbn [andb negb].
    change (opt (Some (c :: p)) ++ [e]) with [c :: p; e]. cbn [joined]. rewrite !W.
    split; [split; intros|reflexivity]; [rewrite !print_told, <- ?app_assoc; reflexivity|rewrite !print_other by assumption; reflexivity].
  - cbn [opt app joined]. split; [split; intros|reflexivity]; [rewrite !print_told, <- app_assoc; reflexivity|rewrite !print_other by assumption; reflexivity].
Qed.
Print Assumptions C149_perror_partial.
Example C149_perror_case : file (perror (fun _ => true) (fun b => List.length b) world0 (Some (codes "cat"))) 2 = codes "cat: No such file or directory" ++ [10].
Proof. destruct (C149_perror_partial (fun _ => true) (fun b => List.length b) world0 (Some (codes "cat"))) as [[A _] _]; [reflexivity|cbn; lia|reflexivity|]. rewrite A. vm_compute. reflexivity. Qed.
(* an unknown error: not strerror's text *)
Theorem C149_perror_unknown_refuted : forall utf8 takes w, (forall b, takes b = List.length b) -> - 2 ^ 31 <= errno w < 2 ^ 31 -> errno w < 0 \/ 132 <= errno w ->
  told w (perror utf8 takes w None) 2 (codes "Unknown error") /\ strerror (errno w) <> codes "Unknown error".
Proof.
  intros utf8 takes w T R E.
  assert (W : forall w b, write_str takes w b = print w 2 b) by (intros; unfold write_str; rewrite T, firstn_all; reflexivity).
  split.
  - unfold perror. change (len STR_ERROR) with 132.
    replace ((0 <=? errno w) && (errno w <? 132)) with false by (symmetry; destruct E; [rewrite (proj2 (Z.leb_gt 0 (errno w))) by lia; reflexivity|rewrite (proj2 (Z.ltb_ge (errno w) 132)) by lia; apply andb_false_r]).
    cbv zeta iota. rewrite !W. split; intros; [rewrite !print_told, <- app_assoc; reflexivity|rewrite !print_other by assumption; reflexivity].
  - destruct (unknown_ok (errno w) R E) as (ds & _ & D). rewrite D. discriminate.
Qed.
Print Assumptions C149_perror_unknown_refuted.
(* a prefix that is not UTF-8, such as a file's name in Latin-1, is left out *)
Theorem C149_perror_prefix_refuted : forall utf8 takes w p, utf8 p = false -> perror utf8 takes w (Some p) = perror utf8 takes w None.
Proof. intros utf8 takes w p U. unfold perror. rewrite U. reflexivity. Qed.
Print Assumptions C149_perror_prefix_refuted.

(* err.h *)
Theorem C149_warn : forall errs prog w message,
  let line := prog :: opt message in
  (told w (warn errs prog w message) (chosen w) (joined (line ++ [strerror (errno w)])) /\ events (warn errs prog w message) = events w) /\
  (forall code, told w (warnc errs prog w code message) (chosen w) (joined (line ++ [strerror code])) /\ events (warnc errs prog w code message) = events w) /\
  (told w (warnx errs prog w message) (chosen w) (joined line) /\ events (warnx errs prog w message) = events w).
Proof.
  intros errs prog w message line. unfold warn, warnc, warnx.
  split; [|split]; [destruct (message_ok errs prog w (Some (errno w)) message) as (A & B & _)|intro code; destruct (message_ok errs prog w (Some code) message) as (A & B & _)|
    destruct (message_ok errs prog w None message) as (A & B & _)]; (split; [|exact B]); cbn [opt map] in A; unfold line; rewrite ?app_nil_r in A; exact A.
Qed.
Print Assumptions C149_warn.
(* the message, then the function set, then the exit with the status asked for *)
Theorem C149_err_partial : forall errs prog w eval message,
  let line := prog :: opt message in
  let called w' := exists args, events w' = events w ++ args ++ [Exit eval] /\ Forall2 (fun a f => exists x, a = Callback f x) args (opt (on_exit w)) in
  (told w (err errs prog w eval message) (chosen w) (joined (line ++ [strerror (errno w)])) /\ called (err errs prog w eval message)) /\
  (forall code, told w (errc errs prog w eval code message) (chosen w) (joined (line ++ [strerror code])) /\ called (errc errs prog w eval code message)) /\
  (told w (errx errs prog w eval message) (chosen w) (joined line) /\ called (errx errs prog w eval message)).
Proof.
  intros errs prog w eval message line called.
  assert (G : forall code, told w (err_exit errs prog w eval code message) (chosen w) (joined (line ++ map strerror (opt code))) /\ called (err_exit errs prog w eval code message)).
  { intro code. destruct (message_ok errs prog w code message) as (A & B & C). unfold err_exit, called. rewrite C. cbv zeta. destruct (on_exit w) as [f|]; cbn [events opt].
    - split; [exact A|]. rewrite B. eexists [_]. split; [rewrite <- app_assoc; reflexivity|]. constructor; [eexists; reflexivity|constructor].
    - split; [exact A|]. rewrite B. exists []. split; [reflexivity|constructor]. }
  split; [exact (G (Some (errno w)))|]. split; [intro code; exact (G (Some code))|]. pose proof (G None) as K. cbn [opt map] in K. rewrite app_nil_r in K. exact K.
Qed.
Print Assumptions C149_err_partial.
Theorem C149_file : forall errs prog w f message, told w (warnx errs prog (err_set_file w (Some f)) message) f (joined (prog :: opt message)) /\
  told w (warnx errs prog (err_set_file w None) message) 2 (joined (prog :: opt message)) /\ file (err_set_file w (Some f)) = file w /\ file (err_set_file w None) = file w.
Proof.
  intros errs prog w f message. destruct (C149_warn errs prog (err_set_file w (Some f)) message) as (_ & _ & A & _).
  destruct (C149_warn errs prog (err_set_file w None) message) as (_ & _ & B & _). split; [exact A|]. split; [exact B|]. split; reflexivity.
Qed.
Print Assumptions C149_file.
Example C149_warn_case : file (warn (fun _ => 5) (codes "ls") world0 (Some (codes "x"))) 2 = codes "ls: x: No such file or directory" ++ [10].
Proof. destruct (C149_warn (fun _ => 5) (codes "ls") world0 (Some (codes "x"))) as ((A & _) & _). cbv zeta in A. destruct A as [A _]. change (chosen world0) with 2 in A. rewrite A. vm_compute. reflexivity. Qed.
(* the function set is told the error, not the status *)
Theorem C149_callback_refuted : forall errs prog w eval code message f, on_exit w = Some f ->
  events (errc errs prog w eval code message) = events w ++ [Callback f code; Exit eval].
Proof.
  intros errs prog w eval code message f F. destruct (message_ok errs prog w (Some code) message) as (_ & B & C). unfold errc, err_exit. rewrite C, F. cbv zeta. cbn [events]. rewrite B, <- app_assoc. reflexivity.
Qed.
Print Assumptions C149_callback_refuted.
Example C149_callback_case : events (errc (fun e => e) (codes "ls") world0 1 2 None) = [Callback 70 2; Exit 1].
Proof. apply (C149_callback_refuted (fun e => e) (codes "ls") world0 1 2 None 70). reflexivity. Qed.
