(* Property theorems: C100 and C101, posix_spawn. *)
From Coq Require Import ZArith List Bool Lia.
From Verif Require Import Base Exec_model Exec_spec Spawn_model Spawn_spec Spawn_proofs.
Import ListNotations.
Open Scope Z_scope.

(* C100.  File actions added with strings that are still there when the child is spawned:
   every posix_spawn_file_actions_add call returns 0, and the new program has the
   descriptors and the directory that performing the actions in order leaves.  Left out:
   opens with O_CLOEXEC, opens and dup2 onto a descriptor the parent has marked
   close-on-exec, chdir to a relative path and fchdir to a descriptor the actions
   themselves assign (see the refutations). *)
Theorem C100_actions_partial : forall parent openat fpath cloexec fuel m' l cwd t' c',
  Forall (fun x => match x with ((m, c), a) => asks m m' c a /\ (length (path_of a) < fuel)%nat end) l ->
  Forall (fine parent cloexec (assigned (map snd l))) (map snd l) ->
  acts openat fpath cloexec (map snd l) parent cwd t' c' ->
  exists fa t2, add_all fuel fa_init (map fst l) = Ok (fa, map (fun _ => 0) l) /\
    spawn_files parent openat fpath m' (Some fa) cwd = Ok (Did t2 c') /\ execs t' t2.
Proof. intros. eapply spawn_files_ok; eassumption. Qed.
Print Assumptions C100_actions_partial.

Example C100_case : let m := mem_of 1000 [47; 97; 0] in
  let l := [((m, COpen 1 1000 1 0), AOpen 1 [47; 97] 1 0); ((m, CDup2 1 2), ADup2 1 2); ((m, CClose 0), AClose 0); ((m, CFchdir 4), AFchdir 4)] in
  Forall (fun x => match x with ((m1, c), a) => asks m1 m c a /\ (length (path_of a) < 10)%nat end) l /\
  Forall (fine t0 cloexec0 (assigned (map snd l))) (map snd l) /\
  acts open0 fpath0 cloexec0 (map snd l) t0 [47] (fun k => if k =? 0 then None else if k =? 2 then Some (200, false) else if k =? 1 then Some (200, false) else t0 k) [47; 100].
Proof.
  cbv zeta. split; [|split].
  - assert (C : cstr (mem_of 1000 [47; 97; 0]) 1000 [47; 97]).
    { split; [repeat constructor; unfold is_char; lia|apply mem_of_bytes]. }
    unfold NULL in *. repeat constructor; cbn [length]; unfold NULL; try lia; try apply C.
  - assert (N1 : ~ marked t0 1) by (intros (f & E); discriminate). assert (N2 : ~ marked t0 2) by (intros (f & E); discriminate).
    repeat (apply Forall_cons || apply Forall_nil); cbn; auto 10. intros [H|[H|[H|[]]]]; discriminate.
  - cbn [map snd].
    eapply A_open with (t1 := fun k => if k =? 1 then Some (200, false) else t0 k); [reflexivity|split; [reflexivity|]|].
    { intros k N. destruct (Z.eqb_spec k 1); [contradiction|reflexivity]. }
    eapply A_dup2 with (f := 200) (b := false) (t1 := fun k => if k =? 2 then Some (200, false) else if k =? 1 then Some (200, false) else t0 k); [reflexivity|split; [reflexivity|]|].
    { intros k N. destruct (Z.eqb_spec k 2); [contradiction|reflexivity]. }
    eapply A_close with (x := (100, false)) (t1 := fun k => if k =? 0 then None else if k =? 2 then Some (200, false) else if k =? 1 then Some (200, false) else t0 k); [reflexivity|split; [reflexivity|]|].
    { intros k N. destruct (Z.eqb_spec k 0); [contradiction|reflexivity]. }
    eapply A_fchdir with (f := 104) (b := false) (d := [47; 100]); [reflexivity|reflexivity|]. apply A_end. reflexivity.
Qed.

(* A negative descriptor is refused with EBADF, and nothing is added. *)
Theorem C100_negative : forall fuel m fa c,
  match c with COpen fd _ _ _ | CClose fd | CFchdir fd => fd < 0 | CDup2 a b => a < 0 \/ b < 0 | CChdir _ => False end ->
  add fuel m fa c = Ok (fa, 9).
Proof.
  intros fuel m fa [fd p fl md|fd|p|fd|a b] H; cbn [add]; unfold addopen, addclose, addfchdir, adddup2; try contradiction;
    repeat (match goal with |- context [?x <? 0] => destruct (Z.ltb_spec x 0) end; try reflexivity); lia.
Qed.
Print Assumptions C100_negative.

(* the path is not copied: the array "/a" given to addopen is overwritten with "/c" before
   posix_spawn, which opens "/c" *)
Theorem C100_copied_refuted : let m := mem_of 1000 [47; 97; 0] in let m' := mem_of 1000 [47; 99; 0] in
  (exists fa, add_all 10 fa_init [(m, COpen 1 1000 0 0)] = Ok (fa, [0]) /\
    spawn_files t0 open0 fpath0 m' (Some fa) [47] = Ok (Error 2)) /\
  acts open0 fpath0 cloexec0 [AOpen 1 [47; 97] 0 0] t0 [47] (put t0 1 (Some (200, false))) [47].
Proof.
  cbv zeta. split; [eexists; split; vm_compute; reflexivity|]. eapply A_open; [reflexivity| |apply A_end; reflexivity].
  split; [reflexivity|]. intros k N. unfold put. destruct (Z.eqb_spec k 1); [contradiction|reflexivity].
Qed.
Print Assumptions C100_copied_refuted.

(* dup2 of 1 onto 3, which is marked close-on-exec in the parent: descriptor 3 must be open
   in the new program, and is closed *)
Theorem C100_dup2_refuted : acts open0 fpath0 cloexec0 [ADup2 1 3] t0 [47] (put t0 3 (Some (100, false))) [47] /\
  exists fa t2, add_all 10 fa_init [(mem_of 0 [], CDup2 1 3)] = Ok (fa, [0]) /\
    spawn_files t0 open0 fpath0 (mem_of 0 []) (Some fa) [47] = Ok (Did t2 [47]) /\ t2 3 = None /\ ~ execs (put t0 3 (Some (100, false))) t2.
Proof.
  split.
  - eapply A_dup2 with (f := 100) (b := false); [reflexivity| |apply A_end; reflexivity].
    split; [reflexivity|]. intros k N. unfold put. destruct (Z.eqb_spec k 3); [contradiction|reflexivity].
  - eexists. eexists. split; [reflexivity|]. split; [reflexivity|]. split; [reflexivity|].
    intro E. destruct (E 3) as (b & H). discriminate.
Qed.
Print Assumptions C100_dup2_refuted.

(* an open of the directory /d as descriptor 5 and then fchdir to 5 fails with EBADF *)
Theorem C100_fchdir_refuted : let m := mem_of 1000 [47; 100; 0] in
  acts open0 fpath0 cloexec0 [AOpen 5 [47; 100] 0 0; AFchdir 5] t0 [47] (put t0 5 (Some (104, false))) [47; 100] /\
  exists fa, add_all 10 fa_init [(m, COpen 5 1000 0 0); (m, CFchdir 5)] = Ok (fa, [0; 0]) /\
    spawn_files t0 open0 fpath0 m (Some fa) [47] = Ok (Error EBADF).
Proof.
  cbv zeta. split.
  - eapply A_open with (t1 := put t0 5 (Some (104, false))); [reflexivity| |eapply A_fchdir with (f := 104) (b := false); [reflexivity|reflexivity|apply A_end; reflexivity]].
    split; [reflexivity|]. intros k N. unfold put. destruct (Z.eqb_spec k 5); [contradiction|reflexivity].
  - eexists. split; vm_compute; reflexivity.
Qed.
Print Assumptions C100_fchdir_refuted.

(* addchdir of the relative path "b" makes posix_spawn fail with EINVAL *)
Theorem C100_chdir_refuted : let m := mem_of 1000 [98; 0] in
  acts open0 fpath0 cloexec0 [AChdir [98]] t0 [47; 100] t0 [47; 100; 47; 98] /\
  exists fa, add_all 10 fa_init [(m, CChdir 1000)] = Ok (fa, [0]) /\ spawn_files t0 open0 fpath0 m (Some fa) [47; 100] = Ok (Error EINVAL).
Proof.
  cbv zeta. split; [apply A_chdir; apply A_end; reflexivity|]. eexists. split; vm_compute; reflexivity.
Qed.
Print Assumptions C100_chdir_refuted.

(* O_CLOEXEC of an open action is not honoured: the descriptor is there after exec *)
Theorem C100_cloexec_refuted : let m := mem_of 1000 [47; 97; 0] in let fl := 2 ^ 24 in
  acts open0 fpath0 cloexec0 [AOpen 5 [47; 97] fl 0] t0 [47] (put t0 5 (Some (200, true))) [47] /\
  exists fa t2, add_all 10 fa_init [(m, COpen 5 1000 fl 0)] = Ok (fa, [0]) /\
    spawn_files t0 open0 fpath0 m (Some fa) [47] = Ok (Did t2 [47]) /\ ~ execs (put t0 5 (Some (200, true))) t2.
Proof.
  cbv zeta. split.
  - eapply A_open; [reflexivity| |apply A_end; reflexivity].
    split; [reflexivity|]. intros k N. unfold put. destruct (Z.eqb_spec k 5); [contradiction|reflexivity].
  - eexists. eexists. split; [vm_compute; reflexivity|]. split; [cbn; reflexivity|].
    intro E. specialize (E 5). cbv in E. discriminate.
Qed.
Print Assumptions C100_cloexec_refuted.

(* C101.  Attributes: with only POSIX_SPAWN_RESETIDS or only POSIX_SPAWN_SETSIGMASK, or
   nothing, the child has the mask, ignored signals and ids it should have, and no process
   group or priority changes. *)
Theorem C101_attributes_partial : forall handle p ps r s,
  r_group r = None -> r_default r = None -> r_prio r = None -> (r_reset r = true -> r_mask r = None) ->
  exists x, spawn_attrs handle p ps (Some (attr_of r)) s = Ok (inl x) /\ sp_procs x = ps /\
    sigmask (sp_child x) = child_mask r (sigmask p) /\ sigign (sp_child x) = child_ignored r (sigign p) /\
    ruid (sp_child x) = ruid p /\ rgid (sp_child x) = rgid p /\
    euid (sp_child x) = child_id r (set_uid s) (st_uid s) (ruid p) (euid p) /\
    egid (sp_child x) = child_id r (set_gid s) (st_gid s) (rgid p) (egid p).
Proof. exact spawn_attrs_ok. Qed.
Print Assumptions C101_attributes_partial.

(* posix_spawnp takes the leftmost directory of a PATH without empty parts in which the
   file is *)
Theorem C101_spawnp_partial : forall access file ds, (forall p, len p > 4095 -> access p = false) ->
  ~ In 47 file -> ds <> [] -> Forall (fun d => ~ In 58 d) ds -> Forall (fun d => d <> []) ds ->
  finds (fun p => if access p then None else Some 2) file ds (spawnp access file (Some (joined ds))).
Proof. exact spawnp_ok. Qed.
Print Assumptions C101_spawnp_partial.

Example C101_case : exists p s x, set_uid s = true /\ euid p <> st_uid s /\
  spawn_attrs 7 p no_procs (Some (attr_of (Rq false None None (Some 5) None))) s = Ok (inl x) /\ euid (sp_child x) = st_uid s /\ sigmask (sp_child x) = 5.
Proof. exists (Pr 0 0 1000 1000 1000 1000), (St 2541 0 0). eexists. repeat split; try reflexivity. discriminate. Qed.
Example C101_path_case : spawnp (fun p => len p =? 4) [98] (Some (joined [[47]; [47; 97]])) = Some [47; 97; 47; 98].
Proof. reflexivity. Qed.

(* POSIX_SPAWN_SETSIGDEF and POSIX_SPAWN_SETSIGMASK together are the word 7, which panics *)
Theorem C101_both_refuted : forall handle p ps d m s, (exists v, prio ps (handle mod 4294967296) = Some v) ->
  spawn_attrs handle p ps (Some (attr_of (Rq false None (Some d) (Some m) None))) s = Panic.
Proof.
  intros handle p ps d m s (v & E). unfold setpriority, spawn_attrs. change (from_bits _) with (Some 7). unfold setpriority.
  change (a_pgroup _ =? 0) with true. cbn [contains andb orb negb]. change (contains 7 SETPGROUP && false) with false. cbv iota. change (contains 7 SETSCHEDPARAM || contains 7 SETSCHEDULER) with true. cbv iota. rewrite E. reflexivity.
Qed.
Print Assumptions C101_both_refuted.

(* POSIX_SPAWN_SETSIGDEF alone: the ignored signals stay ignored, and the ids are reset *)
Theorem C101_sigdef_refuted : forall handle p ps d s, set_uid s = false -> ruid p <> euid p -> Z.land (sigign p) d <> 0 ->
  exists x, let r := Rq false None (Some d) None None in
    spawn_attrs handle p ps (Some (attr_of r)) s = Ok (inl x) /\ sigign (sp_child x) <> child_ignored r (sigign p) /\
    euid (sp_child x) <> child_id r (set_uid s) (st_uid s) (ruid p) (euid p).
Proof.
  intros handle p ps d s U N D.
  assert (U' : (Z.land (st_mode s) S_ISUID =? S_ISUID) = set_uid s) by (apply (bit_test _ 11); lia). rewrite U in U'. rewrite U.
  assert (Q : sigign p <> Z.land (sigign p) (Z.lnot d)).
  { intro E. apply D. rewrite E, <- Z.land_assoc, (Z.land_comm (Z.lnot d)), Z.land_lnot_diag, Z.land_0_r. reflexivity. }
  unfold spawn_attrs, attr_of, word. cbn. rewrite U'. eexists. split; [reflexivity|]. cbn. split; [exact Q|].
  exact N.
Qed.
Print Assumptions C101_sigdef_refuted.

(* POSIX_SPAWN_SETPGROUP: the number of a descriptor is taken for the process, so the call
   fails when no process has that number; and a group of 0 leaves the child in its group *)
Theorem C101_pgroup_refuted : (forall handle p ps s g, 0 < g -> group ps handle = None ->
    spawn_attrs handle p ps (Some (attr_of (Rq false (Some g) None None None))) s = Ok (inr ESRCH)) /\
  (forall handle p ps s, exists x, spawn_attrs handle p ps (Some (attr_of (Rq false (Some 0) None None None))) s = Ok (inl x) /\ sp_procs x = ps).
Proof.
  split.
  - intros handle p ps s g G N. unfold spawn_attrs, attr_of, word. cbn. destruct g; [lia| |lia]. cbn. unfold setpgid. rewrite N. reflexivity.
  - intros. unfold spawn_attrs, attr_of, word. cbn. eexists. split; reflexivity.
Qed.
Print Assumptions C101_pgroup_refuted.

(* POSIX_SPAWN_SETSCHEDPARAM sets the priority of the process numbered like a descriptor of
   the caller *)
Theorem C101_priority_refuted : exists x,
  spawn_attrs 50 (Pr 0 0 0 0 0 0) no_procs (Some (attr_of (Rq false None None None (Some 5)))) (St 493 0 0) = Ok (inl x) /\ prio (sp_procs x) 50 = Some 5.
Proof. eexists. split; reflexivity. Qed.
Print Assumptions C101_priority_refuted.

(* with any attributes, running a set-user-ID program makes geteuid in the caller answer
   the program's owner *)
Theorem C101_caller_refuted : forall handle p ps s, set_uid s = true -> st_uid s <> euid p ->
  exists x, spawn_attrs handle p ps (Some (attr_of (Rq false None None None None))) s = Ok (inl x) /\ sp_euid x <> euid p.
Proof.
  intros handle p ps s U N. assert (U' : (Z.land (st_mode s) S_ISUID =? S_ISUID) = set_uid s) by (apply (bit_test _ 11); lia). rewrite U in U'.
  unfold spawn_attrs, attr_of, word. cbn. rewrite U'. eexists. split; [reflexivity|]. exact N.
Qed.
Print Assumptions C101_caller_refuted.

(* without attributes the set-user-ID bit has no effect *)
Theorem C101_setuid_refuted : forall handle p ps s, set_uid s = true -> st_uid s <> euid p ->
  exists x, spawn_attrs handle p ps None s = Ok (inl x) /\ euid (sp_child x) <> st_uid s.
Proof. intros handle p ps s U N. eexists. split; [reflexivity|]. cbn. congruence. Qed.
Print Assumptions C101_setuid_refuted.

(* the program sees its pathname as argv[0], whatever was passed *)
Theorem C101_argv_refuted : forall program arg0 args, arg0 <> program -> spawn_args program (arg0 :: args) <> arg0 :: args.
Proof. intros program arg0 args N E. injection E as E. congruence. Qed.
Print Assumptions C101_argv_refuted.
