(* C146: popen, pclose and system. *)
From Verif Require Import Base Waitpid_model Waitpid_spec Waitpid_proofs Popen_model Popen_spec Popen_proofs Prop_Waitpid.

(* C146 full: popen takes the modes "r", "w" and these with "e"; the command's standard output or input is a pipe whose
   other end is the stream, the command gets the caller's other descriptors that are not close-on-exec and are not
   streams of popen, the caller keeps its descriptors as they were; when it fails nothing is left behind.  pclose
   closes the stream, waits for the command and returns how it ended, whatever handlers run; system likewise; output the
   caller has not written is written once.
   Missing: a caller that has closed its standard input or output, streams of earlier calls, fork failing, handlers
   without SA_RESTART, unwritten output when the shell cannot be run: all refuted. *)
Theorem C146_mode : forall t mode pipe fork, popen t mode pipe fork = Invalid <-> ~ exists write cloexec, good_mode mode write cloexec.
Proof.
  intros t mode pipe fork. unfold popen. split.
  - intros E (w & e & G). apply parse_iff in G. rewrite G in E. destruct pipe as [[[[r w'] fr] fw]|]; [destruct fork|]; discriminate E.
  - intro N. destruct (parse_mode mode None false) as [[w e]|] eqn:P; [|reflexivity]. destruct N. exists w, e. apply parse_iff. exact P.
Qed.
Print Assumptions C146_mode.
Example C146_mode_case : popen (fun _ => None) [114; 119] None None = Invalid /\ good_mode [101; 119; 101] true true.
Proof. split; [reflexivity|]. exists 1%nat, 1%nat. split; reflexivity. Qed.

Theorem C146_open_partial : forall t mode write cloexec r w fr fw pid, good_mode mode write cloexec -> new_pipe t r w fr fw -> t 0 <> None -> t 1 <> None ->
  exists t' tc, popen t mode (Some (r, w, fr, fw)) (Some pid) = Opened t' (Stream (if write then w else r) (Some pid) write) (Some tc) /\
    callers t (if write then w else r) (if write then fw else fr) cloexec t' /\ commands t (if write then 0 else 1) (if write then fr else fw) tc.
Proof. exact popen_ok. Qed.
Print Assumptions C146_open_partial.
(* a caller with its three descriptors, and a close-on-exec one *)
Definition std : tab := fun k => if k =? 0 then Some (10, false) else if k =? 1 then Some (11, false) else if k =? 2 then Some (11, false) else if k =? 3 then Some (12, true) else None.
Lemma std_pipe : new_pipe std 4 5 20 21.
Proof.
  assert (S4 : forall k, 0 <= k < 4 -> std k <> None).
  { intros k K. assert (k = 0 \/ k = 1 \/ k = 2 \/ k = 3) as [->|[->|[->| ->]]] by lia; discriminate. }
  split; [split; [lia|split; [reflexivity|exact S4]]|]. split.
  - split; [lia|]. split; [reflexivity|]. intros k K. destruct (Z.eq_dec k 4) as [->|]; [discriminate|]. rewrite put_other by assumption. apply S4. lia.
  - split; [lia|]. intros k f c. unfold std. repeat (destruct (_ =? _); [intro E; injection E as <- <-; lia|]). discriminate.
Qed.
Example C146_open_case : exists t' tc, popen std [114; 101] (Some (4, 5, 20, 21)) (Some 77) = Opened t' (Stream 4 (Some 77) false) (Some tc) /\
  t' 4 = Some (20, true) /\ t' 5 = None /\ t' 3 = Some (12, true) /\ tc 1 = Some (21, false) /\ tc 0 = Some (10, false) /\ tc 3 = None /\ tc 4 = None /\ tc 5 = None.
Proof.
  destruct (C146_open_partial std [114; 101] false true 4 5 20 21 77) as (t' & tc & E & [A B] & [C D]).
  - exists O, 1%nat. split; reflexivity.
  - exact std_pipe.
  - discriminate.
  - discriminate.
  - exists t', tc. split; [exact E|]. split; [exact A|]. rewrite (B 5), (B 3) by lia. split; [reflexivity|]. split; [reflexivity|]. split; [exact C|].
    rewrite !D by lia. repeat split.
Qed.

Theorem C146_pclose_partial : forall fuel own t s w tr p, child_pid s = Some p -> 0 < p < 2 ^ 31 -> good state_ok w tr ->
  match pclose fuel own t s w tr with
  | Closed t' w' tr' r => t' (fd s) = None /\ (forall k, k <> fd s -> t' k = t k) /\
      match r with
      | inl status => exists done c e, tr = done ++ tr' /\ In c w /\ pid c = p /\ ended e = true /\ latest p (report c) done = Some e /\ status = encode e
      | inr e => e = 4 \/ e = 10 /\ forall c, In c w' -> pid c <> p
      end
  | Waiting t' => t' (fd s) = None
  | NotOurs => False
  | Fuel => True
  end.
Proof.
  intros fuel own t s w tr p C P G. unfold pclose. rewrite C. cbv zeta. destruct (waitpid fuel own false w tr p 0) as [w' tr' [q|e] st| |] eqn:E; [| |apply put_same|exact I].
  - split; [apply put_same|]. split; [intros k K; apply put_other; exact K|]. destruct (status_ok _ _ _ _ _ _ _ _ _ P G E) as (_ & d & c & x & A1 & A2 & A3 & A4 & A5 & A6).
    exists d, c, x. repeat split; assumption.
  - split; [apply put_same|]. split; [intros k K; apply put_other; exact K|]. exact (error_ok _ _ _ _ _ _ _ _ _ P E).
Qed.
Print Assumptions C146_pclose_partial.
(* another child ends meanwhile, a handler runs, the command stops, goes on and ends *)
Example C146_pclose_case : let w := [Child 76 3 None; Child 77 3 None] in
  let tr := [Change 76 (Exited 0); Interrupt true; Change 77 (Stopped 19); Change 77 Continued; Change 77 (Exited 3)] in
  good state_ok w tr /\ match pclose 9 3 std (Stream 4 (Some 77) false) w tr with Closed _ w' _ r => r = inl 768 /\ w' = [Child 76 3 (Some (Exited 0))] | _ => False end.
Proof.
  cbn zeta. split; [|vm_compute; split; reflexivity]. split.
  - intros c s [<-|[<-|[]]] R; discriminate R.
  - intros p s H. repeat (destruct H as [X|H]; [try discriminate X; injection X as <- <-; cbn; lia|]). destruct H.
Qed.
(* it does return once the command has ended *)
Theorem C146_pclose_returns : forall own t s w tr p c e, child_pid s = Some p -> 0 < p < 2 ^ 31 -> good state_ok w tr -> In c w -> pid c = p -> ended e = true ->
  report c = Some e \/ In (Change p e) tr -> exists n, forall fuel, (n <= fuel)%nat -> exists t' w' tr' r, pclose fuel own t s w tr = Closed t' w' tr' r.
Proof.
  intros own t s w tr p c e C P G I0 PC E H. destruct (C145_returns own w tr p 0 c valid0 ltac:(lia)) as [n N]; auto.
  - discriminate.
  - right. right. right. split; [lia|exact PC].
  - exists e. rewrite PC. split; assumption.
  - exists n. intros fuel L. destruct (N fuel L) as (w' & tr' & r & st & R). unfold pclose. rewrite C. cbv zeta. rewrite R. destruct r; eexists; eexists; eexists; eexists; reflexivity.
Qed.
Print Assumptions C146_pclose_returns.
Theorem C146_pclose_other : forall fuel own t s w tr, child_pid s = None -> pclose fuel own t s w tr = NotOurs.
Proof. intros fuel own t s w tr E. unfold pclose. rewrite E. reflexivity. Qed.
Print Assumptions C146_pclose_other.

(* system: the status of the shell; the shell that could not be run is a child that exits with 127 *)
Theorem C146_system_partial : forall fuel own w tr p, 0 < p < 2 ^ 31 -> good state_ok w tr ->
  match system fuel own (Some p) w tr with
  | Ret w' tr' (inl status) _ => exists done c e, tr = done ++ tr' /\ In c w /\ pid c = p /\ ended e = true /\ latest p (report c) done = Some e /\ status = encode e
  | Ret w' tr' (inr e) _ => e = 4 \/ e = 10 /\ forall c, In c w' -> pid c <> p
  | _ => True
  end /\
  match system_null fuel own (Some p) w tr with
  | Some v => v <> 0 -> exists done c, (exists tr', tr = done ++ tr') /\ In c w /\ pid c = p /\ latest p (report c) done = Some (Exited 0)
  | None => True
  end.
Proof.
  intros fuel own w tr p P G. unfold system_null, system. destruct (waitpid fuel own false w tr p 0) as [w' tr' [q|e] st| |] eqn:E; [| |split; exact I|split; exact I].
  - destruct (status_ok _ _ _ _ _ _ _ _ _ P G E) as (_ & d & c & x & A1 & A2 & A3 & A4 & A5 & A6). split; [exists d, c, x; repeat split; assumption|].
    intro V. exists d, c. split; [exists tr'; exact A1|]. split; [exact A2|]. split; [exact A3|]. rewrite A6. destruct (Z.eqb_spec st 0) as [S0|]; [|congruence].
    assert (OK : state_ok x).
    { destruct G as [G1 G2]. assert (LQ : forall l s0, (forall r, s0 = Some r -> state_ok r) -> (forall q r, In (Change q r) l -> state_ok r) -> latest p s0 l = Some x -> state_ok x).
      { clear. induction l as [|[q r|r] l IH]; intros s0 H0 HT L; cbn [latest] in L; [auto| |].
        - eapply (IH _); [|intros q' r' D; apply (HT q' r'); right; exact D|exact L]. intros y Q. destruct (q =? p); [|auto].
          destruct s0 as [z|]; [destruct (ended z); [auto|]|]; injection Q as <-; apply (HT q r); left; reflexivity.
        - apply (IH s0 H0); [intros q' r' D; apply (HT q' r'); right; exact D|exact L]. }
      apply (LQ d (report c)); [intros r R; apply (G1 c r A2 R)| |exact A6]. intros q' r D. apply (G2 q' r). rewrite A1. apply in_or_app. left. exact D. }
    destruct x as [k|k core|k|]; try discriminate A4; cbn [state_ok] in OK; rewrite A5 in S0; cbn [encode] in S0.
    + rewrite Z.mod_small in S0 by lia. f_equal. f_equal. lia.
    + destruct core; lia.
  - split; [|intro V; congruence]. exact (error_ok _ _ _ _ _ _ _ _ _ P E).
Qed.
Print Assumptions C146_system_partial.
Example C146_system_case : system 9 3 (Some 77) [Child 77 3 None] [Change 77 (Exited 127)] = Ret [] [] (inl 32512) 32512 /\ WEXITSTATUS 32512 = 127 /\
  system_null 9 3 (Some 77) [Child 77 3 None] [Change 77 (Exited 0)] = Some 1.
Proof. repeat split. Qed.

(* the command of a caller without standard input or output does not get the pipe: dup2 of a descriptor onto itself does
   nothing, and the descriptor is then closed *)
Theorem C146_closed_refuted :
  (forall t mode cloexec w fr fw pid, good_mode mode true cloexec -> new_pipe t 0 w fr fw -> exists t' s tc, popen t mode (Some (0, w, fr, fw)) (Some pid) = Opened t' s (Some tc) /\ tc 0 = None) /\
  (forall t mode cloexec r fr fw pid, good_mode mode false cloexec -> new_pipe t r 1 fr fw -> exists t' s tc, popen t mode (Some (r, 1, fr, fw)) (Some pid) = Opened t' s (Some tc) /\ tc 1 = None).
Proof.
  split.
  - intros t mode ce w fr fw p G (_ & (_ & W & _) & _). apply parse_iff in G. unfold popen. rewrite G. cbv zeta.
    assert (N : w <> 0) by (intros ->; rewrite put_same in W; discriminate W). unfold child_table, dup2. rewrite put_other, put_same by lia.
    rewrite Z.eqb_refl. eexists. eexists. eexists. split; [reflexivity|]. unfold exec, close. rewrite put_other, put_same by lia. reflexivity.
  - intros t mode ce r fr fw p G _. apply parse_iff in G. unfold popen. rewrite G. cbv zeta. unfold child_table, dup2. rewrite put_same, Z.eqb_refl.
    eexists. eexists. eexists. split; [reflexivity|]. unfold exec, close. rewrite put_same. reflexivity.
Qed.
Print Assumptions C146_closed_refuted.
Example C146_closed_case : new_pipe (fun k => if k =? 1 then Some (10, false) else None) 0 2 20 21.
Proof.
  split; [split; [lia|split; [reflexivity|intros; lia]]|]. split.
  - split; [lia|]. split; [reflexivity|]. intros k K. assert (k = 0 \/ k = 1) as [->| ->] by lia; discriminate.
  - split; [lia|]. intros k f c. destruct (_ =? _); [intro E; injection E as <- <-; lia|discriminate].
Qed.

(* the stream of an earlier call stays open in the next command: a reader of the first pipe does not see its end *)
Theorem C146_earlier_refuted : exists t1 c1 t2 c2, popen std [119] (Some (4, 5, 20, 21)) (Some 77) = Opened t1 (Stream 5 (Some 77) true) c1 /\
  new_pipe t1 4 6 22 23 /\ popen t1 [119] (Some (4, 6, 22, 23)) (Some 78) = Opened t2 (Stream 6 (Some 78) true) (Some c2) /\ c2 5 = Some (21, false).
Proof.
  do 4 eexists. split; [reflexivity|]. split; [|split; [reflexivity|reflexivity]]. split; [|split; [|split; [lia|]]].
  - split; [lia|]. split; [reflexivity|]. intros k K. assert (k = 0 \/ k = 1 \/ k = 2 \/ k = 3) as [->|[->|[->| ->]]] by lia; discriminate.
  - split; [lia|]. split; [reflexivity|]. intros k K. assert (k = 0 \/ k = 1 \/ k = 2 \/ k = 3 \/ k = 4 \/ k = 5) as [->|[->|[->|[->|[->| ->]]]]] by lia; discriminate.
  - intros k f c. unfold close, put, std. repeat (destruct (_ =? _); [intro E; try discriminate E; injection E as <- <-; lia|]). discriminate.
Qed.
Print Assumptions C146_earlier_refuted.

(* when fork fails, both ends of the pipe stay open *)
Theorem C146_leak_refuted : forall t mode write cloexec r w fr fw, good_mode mode write cloexec -> r <> w ->
  exists t', popen t mode (Some (r, w, fr, fw)) None = ForkFails t' /\ t' r = Some (fr, false) /\ t' w = Some (fw, false).
Proof.
  intros t mode write ce r w fr fw G N. apply parse_iff in G. unfold popen. rewrite G. cbv zeta. eexists. split; [reflexivity|].
  split; [rewrite put_other by exact N|]; apply put_same.
Qed.
Print Assumptions C146_leak_refuted.

(* a handler without SA_RESTART: pclose and system give up, and the status of the command is lost to the caller *)
Theorem C146_eintr_refuted : forall fuel own t s w tr p c, child_pid s = Some p -> 0 < p < 2 ^ 31 -> In c w -> pid c = p -> (forall c, In c w -> report c = None) ->
  pclose (S fuel) own t s w (Interrupt false :: tr) = Closed (close t (fd s)) w tr (inr 4) /\ exists st, system (S fuel) own (Some p) w (Interrupt false :: tr) = Ret w tr (inr 4) st.
Proof.
  intros fuel own t s w tr p c C P I0 PC N.
  assert (W : waitpid (S fuel) own false w (Interrupt false :: tr) p 0 = Ret w tr (inr 4) 0).
  { unfold waitpid. change ((0 <? 0) || negb (Z.land 0 (Z.lnot 11) =? 0)) with false. cbn iota. cbn [loop sys_waitpid call].
    assert (PN : forall f l, (forall c, In c l -> report c = None) -> pick own (target_of p) f l = None).
    { intro f. induction l as [|d l IH]; intro H; [reflexivity|]. cbn [pick]. rewrite (H d (or_introl eq_refl)), IH by (intros; apply H; right; assumption). destruct (hits _ _ _); reflexivity. }
    rewrite PN by exact N.
    assert (H : existsb (hits own (target_of p)) w = true).
    { apply existsb_exists. exists c. split; [exact I0|]. unfold target_of. destruct (Z.eqb_spec p 0); [lia|]. destruct (Z.eqb_spec p (-1)); [lia|]. destruct (Z.leb_spec 1 p); [|lia].
      cbn [hits]. rewrite PC, Z.eqb_refl. apply orb_true_r. }
    rewrite H. reflexivity. }
  split; [unfold pclose; rewrite C; cbv zeta; rewrite W; reflexivity|]. exists 0. unfold system. rewrite W. reflexivity.
Qed.
Print Assumptions C146_eintr_refuted.
Example C146_eintr_case : exists c, In c [Child 77 3 None] /\ pid c = 77 /\ forall c, In c [Child 77 3 None] -> report c = None.
Proof. eexists. split; [left; reflexivity|]. split; [reflexivity|]. intros c [<-|[]]. reflexivity. Qed.

(* when the shell cannot be run, exit in the child writes the caller's unwritten output, and the caller writes it again *)
Theorem C146_twice_refuted : exists unwritten, flush std unwritten (child_fails std unwritten []) = [(11, [104; 105]); (11, [104; 105])].
Proof. exists [(1, [104; 105])]. reflexivity. Qed.
Print Assumptions C146_twice_refuted.
