(* Lemmas for C159. *)
From Verif Require Import Base Cwd_model Cwd_spec.

Lemma set_same t d o : set t d o d = o. Proof. unfold set. rewrite Z.eqb_refl. reflexivity. Qed.
Lemma set_other t d o x : x <> d -> set t d o x = t x. Proof. intro H. unfold set. rewrite (proj2 (Z.eqb_neq _ _) H). reflexivity. Qed.
(* opened and closed again *)
Lemma undone s o : wf s -> kept s (closed (opened s o) (next s)) /\ wf (closed (opened s o) (next s)) .
Proof.
  intros (W1 & W2). assert (T : forall d, table (closed (opened s o) (next s)) d = table s d).
  { intro d. cbn [closed opened table]. destruct (Z.eq_dec d (next s)) as [->|N]; [rewrite set_same; symmetry; apply W1; lia|rewrite !set_other by exact N; reflexivity]. }
  split; [split; [reflexivity|exact T]|]. split.
  - intros d D. rewrite T. apply W1. cbn [closed opened next] in D. lia.
  - intros n d D. rewrite T. apply (W2 n). exact D.
Qed.
(* the new directory *)
Lemma assigned s o name : wf s -> let s' := assign (opened s o) name (next s) in
  here s' = Some o /\ cwd s' = Some (name, next s) /\ same_files s s' /\ only_own s s' /\ wf s'.
Proof.
  intros (W1 & W2) s'. unfold s', assign. cbn [opened cwd]. destruct (cwd s) as [[n old]|] eqn:C.
  - assert (N : old <> next s). { intro E. apply (W2 n old eq_refl). apply W1. lia. }
    unfold here. cbn [closed opened cwd table next]. rewrite set_other by congruence. rewrite set_same. split; [reflexivity|]. split; [reflexivity|]. split; [|split].
    + intros d A B. cbn [opened closed table]. destruct (Z.eq_dec d old) as [->|N1]; [destruct A; exists n; exact C|]. rewrite set_other by exact N1.
      destruct (Z.eq_dec d (next s)) as [->|N2]; [destruct B; exists name; reflexivity|]. apply set_other. exact N2.
    + intros d (n1 & A) B. cbn [opened closed table]. assert (d = old) by congruence. subst d. apply set_same.
    + split; cbn [opened closed table cwd next].
      * intros d D. destruct (Z.eq_dec d old) as [->|N1]; [apply set_same|]. rewrite set_other by exact N1. rewrite set_other by lia. apply W1. lia.
      * intros n1 d E. assert (d = next s) by congruence. subst d. rewrite set_other by congruence. rewrite set_same. discriminate.
  - unfold here. cbn [opened cwd table next]. rewrite set_same. split; [reflexivity|]. split; [reflexivity|]. split; [|split].
    + intros d A B. cbn [opened closed table]. destruct (Z.eq_dec d (next s)) as [->|N2]; [destruct B; exists name; reflexivity|]. apply set_other. exact N2.
    + intros d (n1 & A) B. congruence.
    + split; cbn [opened closed table cwd next].
      * intros d D. rewrite set_other by lia. apply W1. lia.
      * intros n1 d E. assert (d = next s) by congruence. subst d. rewrite set_same. discriminate.
Qed.
Lemma kept_refl s : kept s s. Proof. split; reflexivity. Qed.
(* chdir *)
Lemma chdir_ok k s p : wf s -> let '(s', e) := chdir k s p in wf s' /\
  match e with
  | None => exists o name, resolves k s p o /\ called k s p name /\ len name <= PATH_MAX /\ stat k o = Some true /\ here s' = Some o /\ (exists d, cwd s' = Some (name, d) /\ table s d = None) /\ same_files s s' /\ only_own s s'
  | Some e => kept s s' /\ (e = ENOTDIR \/ e = ENAMETOOLONG \/ forall o, ~ resolves k s p o) /\
      (forall o name, resolves k s p o -> called k s p name -> stat k o = Some true /\ len name > PATH_MAX /\ e = ENAMETOOLONG \/ stat k o <> Some true /\ e = ENOTDIR) /\
      (parse k p = None -> e = EINVAL) /\ (cwd s = None -> (exists q, parse k p = Some (Relative q)) -> e = ENOENT) /\
      (forall q c x, parse k p = Some (Relative q) -> here s = Some c -> open k (Some c) q = inr x -> e = x) /\ (forall q x, parse k p = Some (Absolute q) -> open k None (canon k q) = inr x -> e = x)
  end.
Proof.
  intro W. assert (CORE : forall name r, called k s p name -> (forall o, resolves k s p o <-> r = inl o) ->
    (forall q c, parse k p = Some (Relative q) -> here s = Some c -> open k (Some c) q = r) -> (forall q, parse k p = Some (Absolute q) -> open k None (canon k q) = r) ->
    parse k p <> None -> ~ (cwd s = None /\ exists q, parse k p = Some (Relative q)) -> (forall n, called k s p n -> n = name) ->
    let '(s', e) := match r with inr e => (s, Some e) | inl o => let d := next s in let s := opened s o in
      match stat k o with Some true => if PATH_MAX <? len name then (closed s d, Some ENAMETOOLONG) else (assign s name d, None) | _ => (closed s d, Some ENOTDIR) end end in
    wf s' /\ match e with
    | None => exists o name, resolves k s p o /\ called k s p name /\ len name <= PATH_MAX /\ stat k o = Some true /\ here s' = Some o /\ (exists d, cwd s' = Some (name, d) /\ table s d = None) /\ same_files s s' /\ only_own s s'
    | Some e => kept s s' /\ (e = ENOTDIR \/ e = ENAMETOOLONG \/ forall o, ~ resolves k s p o) /\
        (forall o name, resolves k s p o -> called k s p name -> stat k o = Some true /\ len name > PATH_MAX /\ e = ENAMETOOLONG \/ stat k o <> Some true /\ e = ENOTDIR) /\
        (parse k p = None -> e = EINVAL) /\ (cwd s = None -> (exists q, parse k p = Some (Relative q)) -> e = ENOENT) /\
        (forall q c x, parse k p = Some (Relative q) -> here s = Some c -> open k (Some c) q = inr x -> e = x) /\ (forall q x, parse k p = Some (Absolute q) -> open k None (canon k q) = inr x -> e = x)
    end).
  { intros name r C R OR OA P0 P1 U. destruct r as [o|x].
    - cbv zeta. destruct (undone s o W) as [K0 W0]. destruct (assigned s o name W) as (H1 & H2 & H3 & H4 & H5).
      assert (RO : forall o', resolves k s p o' -> o' = o) by (intros o' Q; apply R in Q; congruence).
      assert (X1 : forall q c x, parse k p = Some (Relative q) -> here s = Some c -> open k (Some c) q = inr x -> False) by (intros q c x A B D; rewrite (OR q c A B) in D; discriminate).
      assert (X2 : forall q x, parse k p = Some (Absolute q) -> open k None (canon k q) = inr x -> False) by (intros q x A D; rewrite (OA q A) in D; discriminate).
      destruct (stat k o) as [[|]|] eqn:S1; [destruct (Z.ltb_spec PATH_MAX (len name)) as [L|L]| |].
      + split; [exact W0|]. split; [exact K0|]. split; [right; left; reflexivity|]. split; [intros o' n' Q V; left; rewrite (RO o' Q), (U n' V); split; [exact S1|]; split; [lia|reflexivity]|].
        split; [contradiction|]. split; [intros A B; destruct P1; split; assumption|]. split; [intros q c x A B D; destruct (X1 q c x A B D)|intros q x A D; destruct (X2 q x A D)].
      + split; [exact H5|]. exists o, name. split; [apply R; reflexivity|]. split; [exact C|]. split; [lia|]. split; [exact S1|]. split; [exact H1|]. split; [eexists; split; [exact H2|apply (proj1 W); lia]|]. split; assumption.
      + split; [exact W0|]. split; [exact K0|]. split; [left; reflexivity|]. split; [intros o' n' Q V; right; rewrite (RO o' Q); split; [rewrite S1; discriminate|reflexivity]|].
        split; [contradiction|]. split; [intros A B; destruct P1; split; assumption|]. split; [intros q c x A B D; destruct (X1 q c x A B D)|intros q x A D; destruct (X2 q x A D)].
      + split; [exact W0|]. split; [exact K0|]. split; [left; reflexivity|]. split; [intros o' n' Q V; right; rewrite (RO o' Q); split; [rewrite S1; discriminate|reflexivity]|].
        split; [contradiction|]. split; [intros A B; destruct P1; split; assumption|]. split; [intros q c x A B D; destruct (X1 q c x A B D)|intros q x A D; destruct (X2 q x A D)].
    - split; [exact W|]. split; [apply kept_refl|]. assert (NR : forall o, ~ resolves k s p o) by (intros o Q; apply R in Q; discriminate). split; [right; right; exact NR|]. split; [intros o n Q; destruct (NR o Q)|].
      split; [contradiction|]. split; [intros A B; destruct P1; split; assumption|]. split; [intros q c y A B D; rewrite (OR q c A B) in D; congruence|intros q y A D; rewrite (OA q A) in D; congruence]. }
  unfold chdir. destruct (parse k p) as [[q|q]|] eqn:P.
  - specialize (CORE (canon k q) (open k None (canon k q))). destruct (open k None (canon k q)) as [o|x] eqn:O; apply CORE; try discriminate; try congruence;
      try (apply call_absolute; exact P); try (intros q' A; assert (q' = q) by congruence; subst; exact O); try (intros (_ & q' & A); discriminate);
      try (intros n V; inversion V; congruence); intro o'; split; intro Q; [inversion Q; congruence|apply (res_absolute k s p q o' P); congruence|inversion Q; congruence|discriminate].
  - destruct (cwd s) as [[name d]|] eqn:C.
    + assert (HR : here s = table s d) by (unfold here; rewrite C; reflexivity). assert (TD := proj2 W name d C). destruct (table s d) as [c|] eqn:T; [|contradiction].
      specialize (CORE (canon_as_cwd k name q) (open k (Some c) q)). destruct (open k (Some c) q) as [o|x] eqn:O; apply CORE; try discriminate;
      try (apply (call_relative k s p q name d P C)); try (intros q' c' A B; assert (q' = q) by congruence; assert (c' = c) by congruence; subst; exact O); try (intros (A & _); discriminate);
      try (intros n V; inversion V; congruence); intro o'; split; intro Q; [inversion Q; congruence|apply (res_relative k s p q c o' P HR); congruence|inversion Q; congruence|discriminate].
    + assert (HN : here s = None) by (unfold here; rewrite C; reflexivity). split; [exact W|]. split; [apply kept_refl|]. assert (NR : forall o, ~ resolves k s p o) by (intros o Q; inversion Q; congruence).
      split; [right; right; exact NR|]. split; [intros o n Q; destruct (NR o Q)|]. split; [discriminate|]. split; [reflexivity|]. split; [intros q' c' x A B; congruence|intros q' x A; congruence].
  - split; [exact W|]. split; [apply kept_refl|]. assert (NR : forall o, ~ resolves k s p o) by (intros o Q; inversion Q; congruence). split; [right; right; exact NR|]. split; [intros o n Q; destruct (NR o Q)|].
    split; [reflexivity|]. split; [intros _ (q & A); discriminate|]. split; [intros q c x A; discriminate|intros q x A; discriminate].
Qed.
Lemma fchdir_ok k s fd : wf s -> let '(s', e) := fchdir k s fd in wf s' /\
  match e with
  | None => exists o name, table s fd = Some o /\ path_of k o = inl name /\ here s' = Some o /\ (exists d, cwd s' = Some (name, d) /\ table s d = None) /\ same_files s s' /\ only_own s s'
  | Some e => kept s s' /\ (table s fd = None -> e = EBADF) /\ forall o name, table s fd = Some o -> path_of k o = inl name -> from_absolute k name = true -> dup k = Some e
  end.
Proof.
  intro W. unfold fchdir. destruct (table s fd) as [o|] eqn:T.
  2:{ split; [exact W|]. split; [apply kept_refl|]. split; [reflexivity|discriminate]. }
  destruct (path_of k o) as [name|x] eqn:P.
  2:{ split; [exact W|]. split; [apply kept_refl|]. split; [discriminate|]. intros o' n A B. congruence. }
  destruct (dup k) as [e|] eqn:D.
  { split; [exact W|]. split; [apply kept_refl|]. split; [discriminate|]. intros; reflexivity. }
  cbv zeta. destruct (undone s o W) as [K0 W0]. destruct (assigned s o name W) as (H1 & H2 & H3 & H4 & H5). destruct (from_absolute k name) eqn:F.
  - split; [exact H5|]. exists o, name. split; [reflexivity|]. split; [exact P|]. split; [exact H1|]. split; [eexists; split; [exact H2|apply (proj1 W); lia]|]. split; assumption.
  - split; [exact W0|]. split; [exact K0|]. split; [discriminate|]. intros o' n A B E. congruence.
Qed.

Definition follows (s s' : state) : Prop := same_files s s' /\ only_own s s' /\ forall d, is_cwd s' d -> is_cwd s d \/ table s d = None.
Lemma kept_follows s s' : kept s s' -> follows s s'.
Proof.
  intros (C & T). split; [intros d _ _; apply T|]. split; [|intros d (n & H); left; exists n; congruence]. intros d (n & H) N. destruct N. exists n. congruence.
Qed.
Lemma cwd_dec s d : is_cwd s d \/ ~ is_cwd s d.
Proof.
  unfold is_cwd. destruct (cwd s) as [[n x]|]; [|right; intros (n & H); discriminate]. destruct (Z.eq_dec d x) as [->|N]; [left; exists n; reflexivity|right; intros (n' & H); congruence].
Qed.
Lemma follows_trans a b c : follows a b -> follows b c -> follows a c.
Proof.
  intros (A1 & A2 & A3) (B1 & B2 & B3). split; [|split].
  - intros d X Y. destruct (cwd_dec b d) as [D|D]; [rewrite (B2 d D Y); destruct (A3 d D) as [E|E]; [contradiction|congruence]|]. rewrite (B1 d D Y). apply A1; assumption.
  - intros d X Y. destruct (cwd_dec b d) as [D|D]; [apply B2; assumption|]. rewrite (B1 d D Y). apply A2; assumption.
  - intros d X. destruct (B3 d X) as [D|D]; [apply A3; exact D|]. destruct (cwd_dec a d) as [E|E]; [left; exact E|]. destruct (cwd_dec b d) as [F|F]; [destruct (A3 d F); [contradiction|right; assumption]|].
    right. rewrite <- (A1 d E F). exact D.
Qed.
Lemma step_follows k s c : wf s -> wf (fst (run1 k s c)) /\ follows s (fst (run1 k s c)).
Proof.
  intro W. destruct c as [p|fd]; cbn [run1].
  - pose proof (chdir_ok k s p W) as H. destruct (chdir k s p) as [s' [e|]]; cbn [fst]; destruct H as (W' & H); (split; [exact W'|]).
    + apply kept_follows. exact (proj1 H).
    + destruct H as (o & n & _ & _ & _ & _ & _ & (d & C & T) & S1 & S2). split; [exact S1|]. split; [exact S2|]. intros x (m & X). right. assert (x = d) by congruence. subst. exact T.
  - pose proof (fchdir_ok k s fd W) as H. destruct (fchdir k s fd) as [s' [e|]]; cbn [fst]; destruct H as (W' & H); (split; [exact W'|]).
    + apply kept_follows. exact (proj1 H).
    + destruct H as (o & n & _ & _ & _ & (d & C & T) & S1 & S2). split; [exact S1|]. split; [exact S2|]. intros x (m & X). right. assert (x = d) by congruence. subst. exact T.
Qed.
Lemma run_follows : forall l s, wf s -> wf (run s l) /\ follows s (run s l).
Proof.
  induction l as [|[k c] l IH]; intros s W; [split; [exact W|apply kept_follows, kept_refl]|]. cbn [run]. destruct (step_follows k s c W) as (W1 & F1). destruct (IH _ W1) as (W2 & F2). split; [exact W2|].
  exact (follows_trans _ _ _ F1 F2).
Qed.
