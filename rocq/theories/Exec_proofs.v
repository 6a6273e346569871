From Coq Require Import ZArith List Bool Lia.
From Verif Require Import Base Exec_model Exec_spec.
Import ListNotations.
Open Scope Z_scope.

Lemma split_plain : forall d, ~ In 58 d -> split d = [d].
Proof.
  induction d as [|c d IH]; intro N; [reflexivity|]. cbn. destruct (Z.eqb_spec c 58); [subst; exfalso; apply N; left; reflexivity|].
  rewrite IH by (intro; apply N; right; assumption). reflexivity.
Qed.
Lemma split_app : forall d r, ~ In 58 d -> split (d ++ 58 :: r) = d :: split r.
Proof.
  induction d as [|c d IH]; intros r N; [reflexivity|]. cbn. destruct (Z.eqb_spec c 58); [subst; exfalso; apply N; left; reflexivity|].
  rewrite IH by (intro; apply N; right; assumption). reflexivity.
Qed.
Lemma split_joined : forall ds, ds <> [] -> Forall (fun d => ~ In 58 d) ds -> split (joined ds) = ds.
Proof.
  induction ds as [|d ds IH]; intros N F; [congruence|].
  destruct ds as [|d2 ds]; [apply split_plain; exact (Forall_inv F)|]. change (joined (d :: d2 :: ds)) with (d ++ 58 :: joined (d2 :: ds)).
  rewrite split_app by exact (Forall_inv F). f_equal. apply IH; [discriminate|exact (Forall_inv_tail F)].
Qed.

Lemma no_char : forall c l, ~ In c l -> existsb (Z.eqb c) l = false.
Proof.
  intros c l N. destruct (existsb (Z.eqb c) l) eqn:E; [|reflexivity]. apply existsb_exists in E. destruct E as (x & I & E).
  apply Z.eqb_eq in E. subst. contradiction.
Qed.

Lemma attempts_ok : forall execv file ds error,
  (forall p, len p > 4095 -> execv p <> None) -> Forall (fun d => d <> []) ds ->
  match attempts execv (programs file ds) error with
  | Runs p => finds execv file ds (Some p)
  | Fails e => finds execv file ds None /\
      (e = error \/ (e <> 2 /\ exists d, In d ds /\ execv (candidate d file) = Some e)) /\
      (e = error -> error = 2 -> forall d x, In d ds -> len (candidate d file) <= 4095 -> execv (candidate d file) = Some x -> x = 2)
  end.
Proof.
  intros execv file ds. induction ds as [|d ds IH]; intros error L F; cbn [programs attempts].
  - split; [constructor|]. split; [left; reflexivity|]. intros _ _ d x [].
  - destruct d as [|c d]; [exfalso; apply (Forall_inv F); reflexivity|].
    assert (E : (c :: d) ++ [47] ++ file = candidate (c :: d) file) by reflexivity.
    assert (LC : len (candidate (c :: d) file) = len (c :: d) + len file + 1) by (rewrite <- E; rewrite !len_app; change (len [47]) with 1; lia).
    destruct (len (c :: d) + len file + 2 >? PATH_MAX) eqn:G; rewrite Z.gtb_ltb in G; unfold PATH_MAX in G.
    + apply Z.ltb_lt in G. specialize (IH error L (Forall_inv_tail F)).
      destruct (execv (candidate (c :: d) file)) as [x|] eqn:X; [|exfalso; revert X; apply L; lia].
      destruct (attempts execv (programs file ds) error) as [p|e].
      * eapply F_next; eassumption.
      * destruct IH as (A & B & C). split; [eapply F_next; eassumption|]. split.
        { destruct B as [B|(B1 & y & B2 & B3)]; [left; exact B|right; split; [exact B1|exists y; split; [right; exact B2|exact B3]]]. }
        { intros Q1 Q2 y z [I|I] Lz Xz; [subst y; lia|]. eapply C; eassumption. }
    + cbn [attempts]. rewrite E. destruct (execv (candidate (c :: d) file)) as [x|] eqn:X; [|apply F_here; exact X].
      apply Z.ltb_ge in G. specialize (IH (if x =? ENOENT then error else x) L (Forall_inv_tail F)).
      destruct (attempts execv (programs file ds) (if x =? ENOENT then error else x)) as [p|e].
      * eapply F_next; eassumption.
      * destruct IH as (A & B & C). split; [eapply F_next; eassumption|]. unfold ENOENT in *. destruct (Z.eqb_spec x 2) as [->|NX].
        { split.
          - destruct B as [B|(B1 & y & B2 & B3)]; [left; exact B|right; split; [exact B1|exists y; split; [right; exact B2|exact B3]]].
          - intros Q1 Q2 y z [I|I] Lz Xz; [subst y; congruence|]. eapply C; eassumption. }
        { split.
          - destruct B as [B|(B1 & y & B2 & B3)].
            + right. subst e. split; [exact NX|]. exists (c :: d). split; [left; reflexivity|exact X].
            + right; split; [exact B1|exists y; split; [right; exact B2|exact B3]].
          - intros Q1 Q2 y z I Lz Xz. exfalso. destruct B as [B|(B1 & _)]; congruence. }
Qed.

Lemma execvp_search : forall redox execv file ds,
  (forall p, len p > 4095 -> execv p <> None) ->
  ~ In 47 file -> (redox = true -> ~ In 58 file) -> ds <> [] -> Forall (fun d => ~ In 58 d) ds -> Forall (fun d => d <> []) ds ->
  match execvp redox execv file (Some (joined ds)) with
  | Runs p => finds execv file ds (Some p)
  | Fails e => finds execv file ds None /\
      (e = 2 \/ exists d, In d ds /\ execv (candidate d file) = Some e) /\
      (e = 2 -> forall d x, In d ds -> len (candidate d file) <= 4095 -> execv (candidate d file) = Some x -> x = 2)
  end.
Proof.
  intros redox execv file ds L N1 N2 ND F1 F2. unfold execvp. rewrite (no_char 47) by exact N1.
  replace (redox && existsb (Z.eqb 58) file) with false by (destruct redox; [rewrite no_char; [reflexivity|apply N2; reflexivity]|reflexivity]).
  cbn [orb]. rewrite split_joined by assumption. pose proof (attempts_ok execv file ds ENOENT L F2) as H.
  destruct (attempts execv (programs file ds) ENOENT) as [p|e]; [exact H|]. unfold ENOENT in H. destruct H as (A & B & C). split; [exact A|]. split.
  - destruct B as [B|(B1 & B2)]; [left; exact B|right; exact B2].
  - intro Q. apply C; [exact Q|reflexivity].
Qed.
Lemma execvp_slash : forall redox execv file path, In 47 file ->
  execvp redox execv file path = match execv file with None => Runs file | Some e => Fails e end.
Proof.
  intros redox execv file path I. unfold execvp. replace (existsb (Z.eqb 47) file) with true; [reflexivity|].
  symmetry. apply existsb_exists. exists 47. split; [exact I|reflexivity].
Qed.

Lemma skip_white_ok : forall b c r i, Forall blank b -> white c = false -> skip_white (b ++ c :: r) i = Some (i + len b).
Proof.
  induction b as [|x b IH]; intros c r i F W; cbn [app skip_white].
  - rewrite W. f_equal. change (len (@nil Z)) with 0. lia.
  - replace (white x) with true by (destruct (Forall_inv F) as [->| ->]; reflexivity).
    rewrite IH by (try exact (Forall_inv_tail F); exact W). f_equal. rewrite len_cons. lia.
Qed.
Lemma plain_white : forall c, plain c -> white c = false.
Proof.
  intros c (_ & N). unfold white. repeat (match goal with |- context [c =? ?k] => destruct (Z.eqb_spec c k) as [->|?]; [exfalso; apply N; cbn; tauto|] end). reflexivity.
Qed.
Lemma scan_word : forall w r i io, Forall plain w -> scan_line (w ++ r) i io = scan_line r (i + len w) io.
Proof.
  induction w as [|c w IH]; intros r i io F; cbn [app scan_line]; [f_equal; change (len (@nil Z)) with 0; lia|].
  destruct (Forall_inv F) as (_ & N). destruct (Z.eqb_spec c 10) as [->|?]; [exfalso; apply N; cbn; tauto|].
  destruct (Z.eqb_spec c 32) as [->|?]; [exfalso; apply N; cbn; tauto|].
  rewrite IH by exact (Forall_inv_tail F). f_equal. rewrite len_cons. lia.
Qed.
Lemma scan_rest : forall w r i k, Forall (fun c => c <> 10) w -> scan_line (w ++ 10 :: r) i (Some k) = (Some k, nonzero (i + len w)).
Proof.
  induction w as [|c w IH]; intros r i k F; cbn [app scan_line]; [cbn; change (len (@nil Z)) with 0; rewrite Z.add_0_r; reflexivity|].
  destruct (Z.eqb_spec c 10) as [->|?]; [exfalso; apply (Forall_inv F); reflexivity|].
  assert (T : scan_line (w ++ 10 :: r) (i + 1) (Some k) = (Some k, nonzero (i + len (c :: w)))).
  { rewrite IH by exact (Forall_inv_tail F). rewrite len_cons. do 2 f_equal. lia. }
  destruct (c =? 32); exact T.
Qed.
Lemma skip_blanks_ok : forall b t, Forall blank b -> (forall c r, t = c :: r -> ~ blank c) -> skip_blanks (b ++ t) = t.
Proof.
  induction b as [|c b IH]; intros t F N; cbn [app].
  - destruct t as [|c t]; [reflexivity|]. cbn. specialize (N c t eq_refl). unfold blank in N.
    destruct (Z.eqb_spec c 32), (Z.eqb_spec c 9); try tauto; reflexivity.
  - cbn. replace ((c =? 32) || (c =? 9)) with true by (destruct (Forall_inv F) as [->| ->]; reflexivity).
    apply IH; [exact (Forall_inv_tail F)|exact N].
Qed.
Lemma no_nul : forall l, Forall (fun c => c <> 0) l -> has_nul l = false.
Proof. intros l F. apply no_char. intro I. rewrite Forall_forall in F. exact (F 0 I eq_refl). Qed.
Lemma firstn_len : forall (a b : list Z), firstn (Z.to_nat (len a)) (a ++ b) = a.
Proof. intros a b. unfold len. rewrite Nat2Z.id, firstn_app, Nat.sub_diag, firstn_O, app_nil_r. apply firstn_all. Qed.
Lemma skipn_len : forall (a b : list Z), skipn (Z.to_nat (len a)) (a ++ b) = b.
Proof. intros a b. unfold len. rewrite Nat2Z.id, skipn_app, skipn_all, Nat.sub_diag. reflexivity. Qed.

Lemma parse_script : forall contents b interp sep text,
  script contents b interp sep text -> hd 32 sep = 32 ->
  2 + len b + 2 * len interp + len sep + len text <= 4096 ->
  parse_interpreter contents = Interp interp (match text with [] => None | _ => Some text end).
Proof.
  intros contents b interp sep text S H L. destruct S as [b interp sep text rest Fb NI Fi Fs TS TB Ft].
  cbn [app parse_interpreter].
  destruct interp as [|c0 i0] eqn:EI; [congruence|]. rewrite <- EI in *.
  assert (W : white c0 = false) by (apply plain_white; rewrite EI in Fi; exact (Forall_inv Fi)).
  replace (skip_white (b ++ interp ++ sep ++ text ++ 10 :: rest) 0) with (Some (len b))
    by (rewrite EI; cbn [app]; rewrite skip_white_ok by assumption; f_equal; lia).
  rewrite skipn_len. rewrite scan_word by exact Fi. rewrite Z.add_0_l.
  assert (LI : len interp > 0) by (rewrite EI, len_cons; pose proof (len_nonneg i0); lia).
  assert (LB := len_nonneg b). assert (LS := len_nonneg sep). assert (LT := len_nonneg text).
  assert (NZ : nonzero (len interp) = Some (len interp)) by (unfold nonzero; destruct (Z.eqb_spec (len interp) 0); [lia|reflexivity]).
  assert (HI : has_nul interp = false) by (apply no_nul; eapply Forall_impl; [|exact Fi]; intros a (A & _); exact A).
  destruct sep as [|s0 sep].
  - assert (text = []) as -> by (destruct text; [reflexivity|exfalso; apply TS; [discriminate|reflexivity]]).
    cbn [app scan_line]. rewrite NZ. change (10 =? 10) with true. cbv iota.
    replace (len b + 2 + len interp + 0 >? PATH_MAX) with false
      by (symmetry; rewrite Z.gtb_ltb; apply Z.ltb_ge; unfold PATH_MAX; change (len (@nil Z)) with 0 in L; lia).
    cbv zeta. change (10 =? 10) with true. rewrite firstn_len, HI. reflexivity.
  - cbn [hd] in H. subst s0. cbn [app scan_line]. change (32 =? 10) with false. change (32 =? 32) with true. cbv iota. rewrite NZ.
    change (sep ++ text ++ 10 :: rest) with (sep ++ (text ++ 10 :: rest)). rewrite app_assoc.
    rewrite scan_rest.
    2:{ apply Forall_app. split; [eapply Forall_impl; [|exact (Forall_inv_tail Fs)]; intros a [->| ->]; discriminate|].
        eapply Forall_impl; [|exact Ft]; intros a (_ & A); exact A. }
    assert (NZ2 : nonzero (len interp + 1 + len (sep ++ text)) = Some (len interp + 1 + len (sep ++ text)))
      by (unfold nonzero; destruct (Z.eqb_spec (len interp + 1 + len (sep ++ text)) 0) as [Q|_]; [rewrite len_app in Q; pose proof (len_nonneg sep); lia|reflexivity]).
    rewrite NZ2.
    replace (len b + 2 + len interp + (len interp + 1 + len (sep ++ text)) >? PATH_MAX) with false
      by (symmetry; rewrite Z.gtb_ltb; apply Z.ltb_ge; unfold PATH_MAX; rewrite len_app; rewrite len_cons in L; lia).
    cbv zeta. rewrite firstn_len, skipn_len.
    replace (len interp + 1 + len (sep ++ text) - len interp) with (len (32 :: sep ++ text)) by (rewrite len_cons; lia).
    change (32 :: (sep ++ text) ++ 10 :: rest) with ((32 :: sep ++ text) ++ 10 :: rest). rewrite firstn_len.
    change (32 :: sep ++ text) with ((32 :: sep) ++ text). rewrite skip_blanks_ok by assumption.
    rewrite HI, no_nul by (eapply Forall_impl; [|exact Ft]; intros a (A & _); exact A). reflexivity.
Qed.
Lemma parse_other : forall contents, firstn 2 contents <> [35; 33] -> parse_interpreter contents = NoShebang.
Proof.
  intros contents N. unfold parse_interpreter. destruct contents as [|a l]; [reflexivity|].
  destruct a as [|a|a]; try reflexivity. do 6 (destruct a as [a|a|]; try reflexivity).
  destruct l as [|b l]; [reflexivity|]. destruct b as [|b|b]; try reflexivity. do 6 (destruct b as [b|b|]; try reflexivity).
  exfalso. apply N. reflexivity.
Qed.

Lemma land1 : forall x, negb (Z.land x 1 =? 0) = Z.testbit x 0.
Proof. intro x. change 1 with (Z.ones 1). rewrite Z.land_ones by lia. change (2 ^ 1) with 2. rewrite Zmod_odd, Z.bit0_odd. destruct (Z.odd x); reflexivity. Qed.
Lemma may_ok : forall s uid gid groups, ~ In (st_gid s) groups \/ gid = st_gid s \/ uid = st_uid s ->
  if may_execute s uid gid then permitted (st_mode s) (st_uid s) (st_gid s) uid gid groups
  else ~ permitted (st_mode s) (st_uid s) (st_gid s) uid gid groups.
Proof.
  intros s uid gid groups G. unfold may_execute, permitted.
  assert (T : forall k, 0 <= k -> negb (Z.land (Z.land (Z.shiftr (st_mode s) k) 7) 1 =? 0) = Z.testbit (st_mode s) k).
  { intros k K. rewrite land1, Z.land_spec, Z.shiftr_spec by lia. change (Z.testbit 7 0) with true. rewrite andb_true_r. f_equal. }
  destruct (Z.eqb_spec uid (st_uid s)) as [E|E].
  - rewrite T by lia. destruct (Z.testbit (st_mode s) 6); [left; split; [exact E|reflexivity]|]. intros [(_ & X)|[(X & _)|(X & _)]]; congruence.
  - destruct (Z.eqb_spec gid (st_gid s)) as [F|F].
    + rewrite T by lia. destruct (Z.testbit (st_mode s) 3).
      * right; left. split; [exact E|]. split; [left; exact F|reflexivity].
      * intros [(X & _)|[(_ & _ & X)|(_ & X & _)]]; congruence.
    + replace (Z.land (st_mode s) 7) with (Z.land (Z.shiftr (st_mode s) 0) 7) by (rewrite Z.shiftr_0_r; reflexivity).
      rewrite T by lia. assert (NG : ~ In (st_gid s) groups) by tauto. destruct (Z.testbit (st_mode s) 0).
      * right; right. tauto.
      * intros [(X & _)|[(_ & [X|X] & _)|(_ & _ & _ & X)]]; congruence || tauto.
Qed.

Lemma execve_ok : forall open uid gid groups path argv s contents,
  open path = inl (s, contents) -> ~ In (st_gid s) groups \/ gid = st_gid s \/ uid = st_uid s ->
  (permitted (st_mode s) (st_uid s) (st_gid s) uid gid groups ->
    (firstn 2 contents <> [35; 33] -> execve open uid gid path argv = Image path argv) /\
    (forall b interp sep text x, script contents b interp sep text -> hd 32 sep = 32 ->
       2 + len b + 2 * len interp + len sep + len text <= 4096 -> open interp = inl x ->
       execve open uid gid path argv = Image interp (script_args interp text path argv))) /\
  (~ permitted (st_mode s) (st_uid s) (st_gid s) uid gid groups -> exists e, execve open uid gid path argv = Refused e).
Proof.
  intros open uid gid groups path argv s contents O G. pose proof (may_ok s uid gid groups G) as M. unfold execve. rewrite O.
  destruct (may_execute s uid gid); (split; [intro P|intro P; try contradiction]); try contradiction; cbn [negb].
  - split.
    + intro N. rewrite parse_other by exact N. reflexivity.
    + intros b interp sep text x S H L OI. rewrite (parse_script _ _ _ _ _ S H L), OI. destruct text; reflexivity.
  - eexists; reflexivity.
Qed.

Lemma until_null_app : forall l r, ~ In NULL l -> until_null (l ++ NULL :: r) = l.
Proof.
  induction l as [|p l IH]; intros r N; cbn [app until_null]; [reflexivity|].
  destruct (Z.eqb_spec p NULL) as [->|?]; [exfalso; apply N; left; reflexivity|].
  rewrite IH by (intro; apply N; right; assumption). reflexivity.
Qed.
Lemma execl_args : forall arg0 l r, ~ In NULL l -> len l < 4095 -> with_argv arg0 (l ++ NULL :: r) = Some (arg0 :: l).
Proof.
  intros arg0 l r N L. unfold with_argv. rewrite until_null_app by exact N. destruct (Z.ltb_spec (1 + len l) 4096); [reflexivity|lia].
Qed.
