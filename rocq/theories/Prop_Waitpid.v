(* C145: waitpid. *)
From Verif Require Import Base Waitpid_model Waitpid_spec Waitpid_proofs.

(* C145 full: waitpid reports the last change of state of a child its first argument means, of a kind the options ask
   for, and of no other; the macros tell what the change was; the end of a child is reported once; a call with WNOHANG
   returns at once, with 0 when there is nothing to report; otherwise the call waits until there is something, no child
   is left (ECHILD) or a handler without SA_RESTART has run (EINTR); what is not reported stays to be reported.
   Missing: children that stop when WUNTRACED is not given (for these WNOHANG spins, EINTR is lost and the report is lost:
   all refuted), tracing. *)
Theorem C145_macros : forall s, state_ok s ->
  (WIFEXITED (encode s), WIFSIGNALED (encode s), WIFSTOPPED (encode s), WIFCONTINUED (encode s),
   match s with Killed _ _ => WTERMSIG (encode s) | Stopped _ => WSTOPSIG (encode s) | Exited _ => WEXITSTATUS (encode s) | Continued => 0 end) = told s /\
  match s with Killed _ core => WCOREDUMP (encode s) = core | _ => True end.
Proof.
  intros s K. destruct s as [c|n core|n|]; [| | |split; reflexivity].
  - assert (A : forall n, (n < 256)%nat -> let s := Exited (Z.of_nat n) in (WIFEXITED (encode s), WIFSIGNALED (encode s), WIFSTOPPED (encode s), WIFCONTINUED (encode s), WEXITSTATUS (encode s)) = told s).
    { intros n L. do 256 (destruct n as [|n]; [reflexivity|]). lia. }
    cbn [state_ok] in K. specialize (A (Z.to_nat c) ltac:(lia)). cbn zeta in A. rewrite Z2Nat.id in A by lia. split; [exact A|exact I].
  - assert (A : forall n, (n < 127)%nat -> (0 < n)%nat -> let s := Killed (Z.of_nat n) core in
      (WIFEXITED (encode s), WIFSIGNALED (encode s), WIFSTOPPED (encode s), WIFCONTINUED (encode s), WTERMSIG (encode s)) = told s /\ WCOREDUMP (encode s) = core).
    { intros m L P. destruct core; do 127 (destruct m as [|m]; [first [lia|split; reflexivity]|]); lia. }
    cbn [state_ok] in K. specialize (A (Z.to_nat n) ltac:(lia) ltac:(lia)). cbn zeta in A. rewrite Z2Nat.id in A by lia. exact A.
  - assert (A : forall n, (n < 127)%nat -> let s := Stopped (Z.of_nat n) in (WIFEXITED (encode s), WIFSIGNALED (encode s), WIFSTOPPED (encode s), WIFCONTINUED (encode s), WSTOPSIG (encode s)) = told s).
    { intros m L. do 127 (destruct m as [|m]; [reflexivity|]). lia. }
    cbn [state_ok] in K. specialize (A (Z.to_nat n) ltac:(lia)). cbn zeta in A. rewrite Z2Nat.id in A by lia. split; [exact A|exact I].
Qed.
Print Assumptions C145_macros.
Example C145_macros_case : state_ok (Killed 11 true) /\ encode (Killed 11 true) = 139 /\ told (Killed 11 true) = (false, true, false, false, 11).
Proof. split; [cbn; lia|split; reflexivity]. Qed.

(* what is reported is true, asked for and of a child meant *)
Theorem C145_reported : forall fuel own w tr arg options w' tr' p status, valid_options options -> - 2 ^ 31 <= arg < 2 ^ 31 ->
  good state_ok w tr -> waitpid fuel own false w tr arg options = Ret w' tr' (inl p) status -> p <> 0 ->
  exists t c s, tr = t ++ tr' /\ In c w /\ pid c = p /\ meant own arg c /\ wanted options s /\ status = encode s /\ latest p (report c) t = Some s.
Proof.
  intros fuel own w tr arg o w' tr' p st V B [G1 G2] E NZ. unfold waitpid in E. destruct V as (a & b & c & ->). destruct (bits a b c) as (_ & _ & _ & _ & _ & _ & X). rewrite X in E.
  assert (V : valid_options ((if a then 1 else 0) + (if b then 2 else 0) + (if c then 8 else 0))) by (exists a, b, c; reflexivity).
  pose proof (loop_ok own arg _ w fuel tr w [] 0 V (from_refl w)) as L. rewrite E in L. destruct L as (t & -> & _ & R).
  - intros d s t I0 LT [t' ET]. cbn [app] in ET. assert (LQ : forall t s0, (forall r, s0 = Some r -> state_ok r) -> (forall q r, In (Change q r) t -> state_ok r) -> latest (pid d) s0 t = Some s -> state_ok s).
    { clear. induction t as [|[q r|r] t IH]; intros s0 H0 HT L; cbn [latest] in L; [auto| |].
      - eapply (IH _); [|intros q' r' D; apply (HT q' r'); right; exact D|exact L]. intros x Q. destruct (q =? pid d); [|auto].
        destruct s0 as [y|]; [destruct (ended y); [auto|]|]; injection Q as <-; apply (HT q r); left; reflexivity.
      - apply (IH s0 H0); [intros q' r' D; apply (HT q' r'); right; exact D|exact L]. }
    apply (LQ t (report d)); [intros r R0; apply (G1 d r I0 R0)| |exact LT]. intros q r D. apply (G2 q r). rewrite ET. apply in_or_app. left. exact D.
  - destruct R as [[R|[e R]]|(d & s & R & -> & I0 & H & W & LT)]; [congruence|discriminate R|]. injection R as ->. exists t, d, s. repeat split; auto. apply hits_meant; auto.
Qed.
Print Assumptions C145_reported.
Example C145_reported_case :
  let w := [Child 5 3 None; Child 6 4 (Some Continued); Child 7 4 None] in let tr := [Change 5 (Exited 1); Interrupt true; Change 7 (Stopped 19); Change 7 (Killed 9 false); Change 6 (Exited 2)] in
  valid_options 0 /\ good state_ok w tr /\
  waitpid 9 3 false w tr (-4) 0 = Ret [Child 5 3 (Some (Exited 1)); Child 6 4 (Some Continued)] [Change 6 (Exited 2)] (inl 7) 9 /\ WTERMSIG 9 = 9.
Proof.
  cbn zeta. split; [exists false, false, false; reflexivity|]. split; [|split; vm_compute; reflexivity]. split.
  - intros c s [<-|[<-|[<-|[]]]] R; try discriminate R. injection R as <-. exact I.
  - intros p s [X|[X|[X|[X|[X|[]]]]]]; try discriminate X; injection X as <- <-; cbn; lia.
Qed.

(* the other results *)
Theorem C145_results : forall fuel own w tr arg options w' tr' r status, valid_options options -> - 2 ^ 31 <= arg < 2 ^ 31 ->
  waitpid fuel own false w tr arg options = Ret w' tr' r status ->
  match r with
  | inl p => p = 0 /\ nohang options \/ exists c, pid c = p /\ meant own arg c
  | inr e => e = EINTR \/ e = ECHILD /\ forall c, In c w' -> ~ meant own arg c
  end.
Proof.
  intros fuel own w tr arg o w' tr' r st V B E. unfold waitpid in E. destruct V as (a & b & c & ->). destruct (bits a b c) as (_ & _ & _ & _ & _ & _ & X). rewrite X in E.
  exact (loop_results _ _ _ _ _ _ _ _ _ _ _ (ex_intro _ a (ex_intro _ b (ex_intro _ c eq_refl))) B E).
Qed.
Print Assumptions C145_results.
Theorem C145_options : forall fuel own w tr arg options, ~ valid_options options -> - 2 ^ 31 <= options < 2 ^ 31 ->
  waitpid fuel own false w tr arg options = Ret w tr (inr EINVAL) 0.
Proof.
  intros fuel own w tr arg o NV B. unfold waitpid. destruct (Z.ltb_spec o 0); [reflexivity|]. cbn [orb]. destruct (Z.eqb_spec (Z.land o (Z.lnot 11)) 0) as [E|]; [|reflexivity]. destruct NV.
  exists (Z.testbit o 0), (Z.testbit o 1), (Z.testbit o 3).
  assert (L : Z.land o 11 = o).
  { apply Z.bits_inj'. intros i I0. apply (f_equal (fun x => Z.testbit x i)) in E. rewrite Z.land_spec, Z.lnot_spec, Z.bits_0 in E by lia. rewrite Z.land_spec.
    destruct (Z.testbit o i), (Z.testbit 11 i); auto. }
  assert (O : 0 <= o < 16).
  { split; [lia|]. rewrite <- L. assert (H1 : Z.land (Z.land o 11) 15 = Z.land o 11) by (rewrite <- Z.land_assoc; reflexivity).
    rewrite <- H1. change 15 with (Z.ones 4). rewrite Z.land_ones by lia. apply Z.mod_pos_bound. reflexivity. }
  assert (C : forall n, (n < 16)%nat -> Z.land (Z.of_nat n) 11 = Z.of_nat n -> Z.of_nat n = (if Z.testbit (Z.of_nat n) 0 then 1 else 0) + (if Z.testbit (Z.of_nat n) 1 then 2 else 0) + (if Z.testbit (Z.of_nat n) 3 then 8 else 0)).
  { intros n LT. do 16 (destruct n as [|n]; [cbn; intros; solve [reflexivity|discriminate]|]). lia. }
  specialize (C (Z.to_nat o) ltac:(lia)). rewrite Z2Nat.id in C by lia. exact (C L).
Qed.
Print Assumptions C145_options.
Example C145_options_case : ~ valid_options 4 /\ waitpid 5 3 false [] [] 0 4 = Ret [] [] (inr EINVAL) 0.
Proof. split; [intros ([] & [] & [] & E); discriminate E|reflexivity]. Qed.

(* WNOHANG *)
Theorem C145_nohang_partial : forall fuel own w tr arg options, valid_options options -> - 2 ^ 31 <= arg < 2 ^ 31 -> nohang options ->
  Z.testbit options 1 = true \/ (forall c, In c w -> meant own arg c -> ~ stop_pending c) -> good state_ok w [] ->
  exists w' r status, waitpid (S fuel) own false w tr arg options = Ret w' tr r status /\
    ((exists c s, In c w /\ meant own arg c /\ report c = Some s /\ wanted options s /\ r = inl (pid c) /\ status = encode s) \/
     ((forall c s, In c w -> meant own arg c -> report c = Some s -> ~ wanted options s) /\ w' = w /\
      (r = inl 0 /\ (exists c, In c w /\ meant own arg c) \/ r = inr ECHILD /\ forall c, In c w -> ~ meant own arg c))).
Proof.
  intros fuel own w tr arg o V B N H [G _]. pose proof V as (a & b & c & E). unfold waitpid. destruct (bits a b c) as (_ & _ & _ & _ & _ & _ & X). rewrite <- E in X. rewrite X.
  exact (nohang_ok own arg o w tr fuel 0 V B N eq_refl H G).
Qed.
Print Assumptions C145_nohang_partial.
Example C145_nohang_case : valid_options 3 /\ nohang 3 /\ waitpid 1 3 false [Child 5 3 None; Child 6 3 (Some (Stopped 19))] [] 0 3 = Ret [Child 5 3 None; Child 6 3 None] [] (inl 6) 4991 /\
  waitpid 1 3 false [Child 5 3 None] [Change 5 (Exited 0)] 5 1 = Ret [Child 5 3 None] [Change 5 (Exited 0)] (inl 0) 0.
Proof. split; [exists true, true, false; reflexivity|]. repeat split. Qed.

(* the call returns when a child meant has ended *)
Theorem C145_returns : forall own w tr arg options c, valid_options options -> - 2 ^ 31 <= arg < 2 ^ 31 -> ~ nohang options -> good state_ok w tr ->
  In c w -> meant own arg c -> (exists s, ended s = true /\ (report c = Some s \/ In (Change (pid c) s) tr)) ->
  exists n, forall fuel, (n <= fuel)%nat -> exists w' tr' r status, waitpid fuel own false w tr arg options = Ret w' tr' r status.
Proof.
  intros own w tr arg o c V B N G I0 M (s & E & X). pose proof V as (a & b & d & EO). destruct (lor_bits o V) as (B0 & _).
  destruct (loop_ends own arg o) with (a := length tr) (b := pending w) (tr := tr) (w := w) as [n L]; auto.
  - rewrite B0. unfold nohang in N. destruct (Z.testbit o 0); congruence.
  - exists c. split; [exact I0|]. split; [apply hits_meant; auto|]. destruct X as [X|X]; [left|right]; eauto.
  - exists n. intros fuel LE. unfold waitpid. destruct (bits a b d) as (_ & _ & _ & _ & _ & _ & Y). rewrite <- EO in Y. rewrite Y. apply L. exact LE.
Qed.
Print Assumptions C145_returns.
Example C145_returns_case : let w := [Child 5 3 None] in let tr := [Change 5 (Stopped 19); Change 5 Continued; Interrupt true; Change 5 (Exited 7)] in
  good state_ok w tr /\ meant 3 5 (Child 5 3 None) /\ waitpid 9 3 false w tr 5 0 = Ret [] [] (inl 5) 1792 /\ WEXITSTATUS 1792 = 7.
Proof.
  cbn zeta. split; [|split; [right; right; right; cbn; lia|split; vm_compute; reflexivity]]. split.
  - intros c s [<-|[]] R. discriminate R.
  - intros p s [X|[X|[X|[X|[]]]]]; try discriminate X; injection X as <- <-; cbn; lia.
Qed.

(* the other children keep their reports *)
Theorem C145_others_partial : forall fuel own w tr arg options w' tr' r status, valid_options options -> - 2 ^ 31 <= arg < 2 ^ 31 ->
  Z.testbit options 1 = true \/ good (fun s => state_ok s /\ ~ exists n, s = Stopped n) w tr ->
  waitpid fuel own false w tr arg options = Ret w' tr' r status ->
  exists t, tr = t ++ tr' /\ forall c, In c (after w t) -> r <> inl (pid c) -> In c w'.
Proof.
  intros fuel own w tr arg o w' tr' r st V B G E. unfold waitpid in E. destruct V as (a & b & c & ->). destruct (bits a b c) as (_ & _ & _ & _ & _ & _ & X). rewrite X in E.
  refine (loop_keeps _ _ _ _ _ _ 0 _ _ _ _ _ G E). reflexivity.
Qed.
Print Assumptions C145_others_partial.
Example C145_others_case : let w := [Child 5 3 (Some (Stopped 19)); Child 6 3 None] in let tr := [Change 6 (Exited 1)] in
  waitpid 9 3 false w tr 6 2 = Ret [Child 5 3 (Some (Stopped 19))] [] (inl 6) 256 /\ Z.testbit 2 1 = true.
Proof. split; vm_compute; reflexivity. Qed.

(* WNOHANG does not return when the child has stopped *)
Theorem C145_nohang_refuted : ~ (forall own w tr arg options, valid_options options -> - 2 ^ 31 <= arg < 2 ^ 31 -> nohang options -> good state_ok w tr ->
    exists fuel w' r status, waitpid fuel own false w tr arg options = Ret w' tr r status) /\
  forall fuel own p g n tr, 1 <= n <= 126 -> 0 < p < 2 ^ 31 -> waitpid fuel own false [Child p g (Some (Stopped n))] tr p WNOHANG = NoFuel.
Proof.
  assert (Q : forall fuel own p g n tr, 1 <= n <= 126 -> 0 < p < 2 ^ 31 -> waitpid fuel own false [Child p g (Some (Stopped n))] tr p WNOHANG = NoFuel).
  { intros fuel own p g n tr N B. unfold waitpid. change ((WNOHANG <? 0) || negb (Z.land WNOHANG (Z.lnot 11) =? 0)) with false. cbn iota.
    destruct fuel as [|f]; [reflexivity|]. unfold loop. fold loop.
    assert (T : target_of p = Proc p).
    { unfold target_of. destruct (Z.eqb_spec p 0); [lia|]. destruct (Z.eqb_spec p (-1)); [lia|]. destruct (Z.leb_spec 1 p); [reflexivity|lia]. }
    rewrite T. change (Z.lor WNOHANG WUNTRACED) with 3.
    assert (C : call own (Proc p) 3 [Child p g (Some (Stopped n))] tr = Reported [Child p g None] tr p (Stopped n)).
    { assert (P : pick own (Proc p) 3 [Child p g (Some (Stopped n))] = Some ([Child p g None], p, Stopped n)).
      { cbn [pick]. replace (hits own (Proc p) (Child p g (Some (Stopped n)))) with true by (cbn; rewrite Z.eqb_refl, orb_true_r; reflexivity). reflexivity. }
      destruct tr; unfold call; fold call; rewrite P; reflexivity. }
    cbn [sys_waitpid]. rewrite C. cbn [encode].
    assert (WS : wifstopped (n * 256 + 127) = true).
    { unfold wifstopped. change 255 with (Z.ones 8). rewrite Z.land_ones by lia. change (2 ^ 8) with 256. rewrite Z.add_comm, Z.mod_add by lia. reflexivity. }
    rewrite WS. change (Z.testbit WNOHANG 1) with false. cbn [negb orb]. change WNOHANG with 1. exact (spins f own _ p g n N tr eq_refl B). }
  split; [|exact Q]. intros H. destruct (H 3 [Child 5 3 (Some (Stopped 19))] [] 5 1) as (fuel & w' & r & st & E).
  - exists true, false, false. reflexivity.
  - lia.
  - reflexivity.
  - split; [|intros p s []]. intros c s [<-|[]] R. injection R as <-. cbn. lia.
  - pose proof (Q fuel 3 5 3 19 [] ltac:(lia) ltac:(lia)) as X. change WNOHANG with 1 in X. rewrite X in E. discriminate E.
Qed.
Print Assumptions C145_nohang_refuted.
(* waiting for the end of any child takes the report that another has stopped, which a shell asks for afterwards *)
Theorem C145_stop_lost_refuted : ~ (forall own w tr arg w' tr' r status, good state_ok w tr ->
    waitpid 9 own false w tr arg 0 = Ret w' tr' r status -> exists t, tr = t ++ tr' /\ forall c, In c (after w t) -> r <> inl (pid c) -> In c w').
Proof.
  intros H. destruct (H 3 [Child 5 3 (Some (Stopped 19)); Child 6 3 None] [Change 6 (Exited 1)] (-1) [Child 5 3 None] [] (inl 6) 256) as (t & E & X).
  - split; [intros c s [<-|[<-|[]]] R; [injection R as <-; cbn; lia|discriminate R]|]. intros p s [R|[]]. injection R as <- <-. cbn. lia.
  - vm_compute. reflexivity.
  - rewrite app_nil_r in E. subst t. destruct (X (Child 5 3 (Some (Stopped 19)))) as [Y|[]]; [left; reflexivity|discriminate|discriminate Y].
Qed.
Print Assumptions C145_stop_lost_refuted.
(* a handler without SA_RESTART does not end the wait once a child has stopped: the call goes on as with SA_RESTART *)
Theorem C145_eintr_refuted : forall own p g n, 1 <= n <= 126 -> 0 < p < 2 ^ 31 ->
  waitpid 9 own false [Child p g None] [Interrupt false] p 0 = Ret [Child p g None] [] (inr EINTR) 0 /\
  waitpid 9 own false [Child p g None] [Change p (Stopped n); Interrupt false] p 0 = Waits.
Proof.
  intros own p g n N B. unfold waitpid. change ((0 <? 0) || negb (Z.land 0 (Z.lnot 11) =? 0)) with false. cbn iota.
  assert (T : target_of p = Proc p).
  { unfold target_of. destruct (Z.eqb_spec p 0); [lia|]. destruct (Z.eqb_spec p (-1)); [lia|]. destruct (Z.leb_spec 1 p); [reflexivity|lia]. }
  assert (HT : forall r, hits own (Proc p) (Child p g r) = true) by (intros r; cbn; rewrite Z.eqb_refl, orb_true_r; reflexivity).
  assert (WS : wifstopped (n * 256 + 127) = true).
  { unfold wifstopped. change 255 with (Z.ones 8). rewrite Z.land_ones by lia. change (2 ^ 8) with 256. rewrite Z.add_comm, Z.mod_add by lia. reflexivity. }
  assert (EN : forall f st, loop (S f) own false p 0 [Child p g None] [] st = Waits).
  { intros f st. cbn [loop]. rewrite T. change (Z.lor 0 WUNTRACED) with 2. cbn [sys_waitpid call pick existsb]. rewrite !HT. reflexivity. }
  assert (CI : forall tr, call own (Proc p) 2 [Child p g None] (Interrupt false :: tr) = Interrupted [Child p g None] tr false).
  { intros tr. cbn [call pick existsb]. rewrite !HT. reflexivity. }
  split.
  - cbn [loop]. rewrite T. change (Z.lor 0 WUNTRACED) with 2. cbn [sys_waitpid]. rewrite CI. reflexivity.
  - assert (CS : call own (Proc p) 2 [Child p g None] [Change p (Stopped n); Interrupt false] = Reported [Child p g None] [Interrupt false] p (Stopped n)).
    { cbn [call pick existsb]. rewrite !HT. cbn [orb report Z.testbit change map pid pgid andb negb]. rewrite Z.eqb_refl. cbn [andb negb call pick]. rewrite HT. reflexivity. }
    change (loop 9 own false p 0 [Child p g None] [Change p (Stopped n); Interrupt false] 0) with
      (match sys_waitpid 9 own (target_of p) (Z.lor 0 WUNTRACED) [Child p g None] [Change p (Stopped n); Interrupt false] 0 with
       | Ret w tr r status => if negb (wifstopped status) || Z.testbit 0 1 || false then Ret w tr r status else loop 8 own false p 0 w tr status | o => o end).
    rewrite T. change (Z.lor 0 WUNTRACED) with 2. cbn [sys_waitpid]. rewrite CS. cbn [encode]. rewrite WS. change (negb true || Z.testbit 0 1 || false) with false. cbn iota.
    change (loop 8 own false p 0 [Child p g None] [Interrupt false] (n * 256 + 127)) with
      (match sys_waitpid 8 own (target_of p) (Z.lor 0 WUNTRACED) [Child p g None] [Interrupt false] (n * 256 + 127) with
       | Ret w tr r status => if negb (wifstopped status) || Z.testbit 0 1 || false then Ret w tr r status else loop 7 own false p 0 w tr status | o => o end).
    rewrite T. change (Z.lor 0 WUNTRACED) with 2. cbn [sys_waitpid]. rewrite CI. rewrite WS. change (negb true || Z.testbit 0 1 || false) with false. cbn iota. apply EN.
Qed.
Print Assumptions C145_eintr_refuted.
