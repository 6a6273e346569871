(* C159: the working directory. *)
From Coq Require Import String.
From Verif Require Import Base Ctype_spec Cwd_model Cwd_spec Cwd_proofs.
Open Scope string_scope.
Open Scope list_scope.
Open Scope Z_scope.

(* C159 full: after chdir or fchdir succeeds, the directory that the name or the descriptor stood for is the one in which relative names are looked up and
   whose name getcwd returns; a call that fails, as it does for what is no directory, changes nothing.  The program's descriptors are not
   touched, and none stay open but the one for the working directory, however many calls are made.
   Missing, refuted: fchdir to what is no directory. *)
Theorem C159_chdir : forall k s p, wf s -> let '(s', e) := chdir k s p in wf s' /\
  match e with
  | None => exists o name, resolves k s p o /\ called k s p name /\ len name <= PATH_MAX /\ stat k o = Some true /\ here s' = Some o /\
      (exists d, cwd s' = Some (name, d) /\ table s d = None) /\ same_files s s' /\ only_own s s'
  | Some e => kept s s' /\ (e = ENOTDIR \/ e = ENAMETOOLONG \/ forall o, ~ resolves k s p o) /\
      (forall o name, resolves k s p o -> called k s p name -> stat k o = Some true /\ len name > PATH_MAX /\ e = ENAMETOOLONG \/ stat k o <> Some true /\ e = ENOTDIR) /\
      (parse k p = None -> e = EINVAL) /\ (cwd s = None -> (exists q, parse k p = Some (Relative q)) -> e = ENOENT) /\
      (forall q c x, parse k p = Some (Relative q) -> here s = Some c -> open k (Some c) q = inr x -> e = x) /\ (forall q x, parse k p = Some (Absolute q) -> open k None (canon k q) = inr x -> e = x)
  end.
Proof. exact chdir_ok. Qed.
Print Assumptions C159_chdir.
(* objects: 1 is the root, 2 the directory usr in it, 3 the file motd in it; 7 is the descriptor of motd, 8 that of usr *)
Definition tree (c : obj) (p : text) : obj + Z :=
  if (c =? 1) && (if list_eq_dec Z.eq_dec p (codes "usr") then true else false) then inl 2
  else if (c =? 1) && (if list_eq_dec Z.eq_dec p (codes "motd") then true else false) then inl 3 else inr ENOENT.
Definition world0 : outside := Outside (fun p => match p with 47 :: p => Some (Absolute p) | _ => Some (Relative p) end) (fun p => 47 :: p) (fun d p => d ++ p) (fun _ => true)
  (fun c p => match c with None => tree 1 (tl p) | Some c => tree c p end) (fun o => Some (negb (o =? 3))) (fun o => inl (if o =? 3 then codes "/motd" else if o =? 2 then codes "/usr" else codes "/")) None.
Definition at_root : state := State (Some (codes "/", 20)) (fun d => if d =? 7 then Some 3 else if d =? 8 then Some 2 else if d =? 20 then Some 1 else None) 21.
Lemma at_root_wf : wf at_root.
Proof.
  split; cbn [at_root next table cwd].
  - intros d D. rewrite (proj2 (Z.eqb_neq d 7)), (proj2 (Z.eqb_neq d 8)), (proj2 (Z.eqb_neq d 20)) by lia. reflexivity.
  - intros n d E. assert (d = 20) by congruence. subst. discriminate.
Qed.
Example C159_chdir_case : exists s', chdir world0 at_root (codes "usr") = (s', None) /\ here s' = Some 2 /\ table s' 7 = Some 3.
Proof.
  pose proof (C159_chdir world0 at_root (codes "usr") at_root_wf) as H. destruct (chdir world0 at_root (codes "usr")) as [s' [e|]] eqn:E; [vm_compute in E; discriminate|].
  destruct H as (_ & o & n & R & _ & _ & _ & A & (d & C & T) & B & _). exists s'. split; [reflexivity|]. split.
  - rewrite A. inversion R as [a q o1 P1 P2 P3 P4|a q c o1 P1 P2 P3 P4 P5]; subst; [discriminate|]. assert (q = codes "usr") by (vm_compute in P1; injection P1 as P1; symmetry; exact P1). subst q.
    assert (c = 1) by (vm_compute in P2; injection P2 as P2; lia). subst c. vm_compute in P3. injection P3 as P3. rewrite <- P3. reflexivity.
  - rewrite (B 7); [reflexivity| |]; intros (m & X); [cbn [at_root cwd] in X; congruence|]. assert (d = 7) by congruence. subst d. discriminate T.
Qed.
Example C159_not_a_directory_case : exists s', chdir world0 at_root (codes "/motd") = (s', Some ENOTDIR) /\ here s' = Some 1.
Proof. eexists. split; [vm_compute; reflexivity|]. reflexivity. Qed.

(* fchdir, the kind of the object apart *)
Theorem C159_fchdir_partial : forall k s fd, wf s -> let '(s', e) := fchdir k s fd in wf s' /\
  match e with
  | None => exists o name, table s fd = Some o /\ path_of k o = inl name /\ here s' = Some o /\ (exists d, cwd s' = Some (name, d) /\ table s d = None) /\ same_files s s' /\ only_own s s'
  | Some e => kept s s' /\ (table s fd = None -> e = EBADF) /\ forall o name, table s fd = Some o -> path_of k o = inl name -> from_absolute k name = true -> dup k = Some e
  end.
Proof. exact fchdir_ok. Qed.
Print Assumptions C159_fchdir_partial.
Example C159_fchdir_case : exists s', fchdir world0 at_root 8 = (s', None) /\ here s' = Some 2.
Proof.
  pose proof (C159_fchdir_partial world0 at_root 8 at_root_wf) as H. destruct (fchdir world0 at_root 8) as [s' [e|]] eqn:E.
  - destruct H as (_ & _ & _ & H). discriminate (H 2 (codes "/usr") eq_refl eq_refl eq_refl).
  - destruct H as (_ & o & n & T & _ & A & _). exists s'. split; [reflexivity|]. rewrite A. cbn in T. congruence.
Qed.
(* relative names *)
Theorem C159_relative : forall k k' s p s' q, wf s -> chdir k s p = (s', None) -> exists o, resolves k s p o /\ open_relative k' s' q = open k' (Some o) q.
Proof.
  intros k k' s p s' q W E. pose proof (chdir_ok k s p W) as H. rewrite E in H. destruct H as (_ & o & n & R & _ & _ & _ & A & (d & C & _) & _). exists o. split; [exact R|].
  unfold open_relative. rewrite C. unfold here in A. rewrite C in A. rewrite A. reflexivity.
Qed.
Print Assumptions C159_relative.
Example C159_relative_case : open_relative world0 (fst (chdir world0 at_root (codes "/usr"))) (codes "motd") = inr ENOENT.
Proof.
  destruct (C159_relative world0 world0 at_root (codes "/usr") (fst (chdir world0 at_root (codes "/usr"))) (codes "motd") at_root_wf) as (o & R & ->); [vm_compute; reflexivity|].
  inversion R as [a q o1 P1 P2|a q c o1 P1 P2 P3]; subst; [|discriminate]. assert (q = codes "usr") by (vm_compute in P1; injection P1 as P1; symmetry; exact P1). subst q.
  assert (o = 2) by (vm_compute in P2; injection P2 as P2; lia). subst o. reflexivity.
Qed.
(* any number of calls, succeeding or failing, in a world that changes: nothing is left open *)
Theorem C159_history : forall l s, wf s -> wf (run s l) /\ same_files s (run s l) /\ only_own s (run s l).
Proof. intros l s W. destruct (run_follows l s W) as (A & B & C & _). split; [exact A|]. split; assumption. Qed.
Print Assumptions C159_history.
Definition calls0 : list (outside * call) := [(world0, Chdir (codes "usr")); (world0, Chdir (codes "/nowhere")); (world0, Fchdir 8); (world0, Chdir (codes "/motd")); (world0, Fchdir 9); (world0, Chdir (codes "/usr"))].
Example C159_history_case : table (run at_root calls0) 7 = Some 3 /\ table (run at_root calls0) 20 = None /\ here (run at_root calls0) = Some 2.
Proof.
  destruct (C159_history calls0 at_root at_root_wf) as (_ & B & C). assert (X : exists d, cwd (run at_root calls0) = Some (codes "/usr", d) /\ d <> 7 /\ d <> 20) by (eexists; split; [vm_compute; reflexivity|split; discriminate]).
  destruct X as (d & X & D7 & D20). split; [rewrite (B 7); [reflexivity| |]; intros (m & Y); [cbn [at_root cwd] in Y; congruence|congruence]|].
  split; [|reflexivity]. apply C; [exists (codes "/"); reflexivity|intros (m & Y); congruence].
Qed.
(* fchdir to a file *)
Theorem C159_file_refuted : exists k s fd s', wf s /\ table s fd = Some 3 /\ stat k 3 = Some false /\ fchdir k s fd = (s', None) /\ here s' = Some 3.
Proof. exists world0, at_root, 7. eexists. split; [apply at_root_wf|]. split; [reflexivity|]. split; [reflexivity|]. split; [vm_compute; reflexivity|]. reflexivity. Qed.
Print Assumptions C159_file_refuted.
