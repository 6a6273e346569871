(* C160: the user and group ids of a process. *)
From Verif Require Import Base Ugid_model Ugid_spec Ugid_proofs.

(* C160 full: getuid, geteuid, getresuid and their counterparts for groups return the ids the process has.  A call that sets ids and returns 0 sets those it is for:
   setresuid the three given, -1 leaving one; setreuid the real and effective one, and the saved one to the effective one if the real one is set or the effective one
   becomes different from it; seteuid the effective one; setuid all three if the process is privileged, else the effective one; the ids of
   groups likewise; no others.  Otherwise it returns -1, with EINVAL for values that are no ids and else with the error of the system, and changes nothing.
   Missing, refuted: the saved id after setuid and setreuid; the real id after setuid without privileges; -1 for setuid and seteuid. *)
Theorem C160_set_partial : forall p s c, wf s -> ints c -> ~ In (-1) (match c with Seteuid _ | Setuid _ | Setegid _ | Setgid _ => args c | _ => [] end) ->
  exists s' r e, perform p s c = (s', r, e) /\
  ((r = 0 /\ e = None /\ Forall (fun v => -1 <= v) (args c) /\ match request c with Some l => p (manager s) l = None | None => True end /\ wf s' /\ others c (manager s') = others c (manager s) /\
    let '(a, b, d) := becomes c (three c (manager s)) in let '(x, y, z) := three c (manager s') in meets a x /\ meets b y /\ meets d z) \/
   (r = -1 /\ s' = s /\ ((e = Some EINVAL /\ Exists (fun v => v < -1) (args c)) \/ (e <> None /\ match request c with Some l => p (manager s) l = e | None => exists l, p (manager s) l = e end)))).
Proof.
  intros p s c W A M. destruct (perform_ok p s c W A) as (s' & o & E & H). exists s'. eexists. exists o. split; [exact E|]. destruct o as [x|].
  - right. split; [reflexivity|]. destruct c; cbn [real_args args] in *; destruct H as (-> & [(-> & H)|H]); (split; [reflexivity|]);
      try (right; split; [discriminate|]; cbn [request user]; first [exact H|eexists; exact H]); left; (split; [reflexivity|]); rewrite ?Exists_cons, ?Exists_nil; lia.
  - left. split; [reflexivity|]. split; [reflexivity|]. destruct c; cbn [real_args args] in *; destruct H as (P0 & L1 & L2 & L3 & W' & Q); cbv zeta in Q; (split; [repeat constructor; lia|]); (split; [cbn [request user]; first [exact P0|exact I]|]); (split; [exact W'|]);
      unfold others, three, becomes; cbn [user]; rewrite Q; (split; [reflexivity|]); cbn [ruid euid suid rgid egid sgid meets]; repeat split; try reflexivity;
      unfold given; match goal with |- (if ?u =? -1 then _ else _) = _ => destruct (Z.eqb_spec u (-1)) as [->|]; [destruct M; left; reflexivity|reflexivity] end.
Qed.
Print Assumptions C160_set_partial.
Definition root : state := State (Ids 0 0 0 0 0 0) (Ids 0 0 0 0 0 0).
Lemma root_wf : wf root.
Proof. split; [reflexivity|]. repeat constructor; cbn; lia. Qed.
Example C160_set_case : exists s', perform unix root (Setresuid 1000 1001 (-1)) = (s', 0, None) /\ three (Setuid 0) (manager s') = (1000, 1001, 0).
Proof.
  destruct (C160_set_partial unix root (Setresuid 1000 1001 (-1)) root_wf) as (s' & r & e & E & [(-> & -> & _ & _ & _ & _ & H)|(_ & _ & [(_ & X)|(Y & X)])]).
  - repeat constructor; unfold int; lia.
  - intros [].
  - exists s'. split; [exact E|]. unfold three, becomes, meets, given in *. cbn [user] in *. cbn in H. destruct H as (-> & -> & ->). reflexivity.
  - exfalso. repeat match goal with H : Exists _ _ |- _ => inversion H; subst; clear H end; lia.
  - exfalso. vm_compute in E. congruence.
Qed.
(* what the library believes is what the manager has, after any calls *)
Theorem C160_history : forall l s, wf s -> Forall (fun pc => ints (snd pc)) l -> let s' := run s l in let i := manager s' in
  wf s' /\ getuid s' = ruid i /\ geteuid s' = euid i /\ getresuid s' = (ruid i, euid i, suid i) /\ getgid s' = rgid i /\ getegid s' = egid i /\ getresgid s' = (rgid i, egid i, sgid i).
Proof.
  intros l s W F. assert (K : wf (run s l)).
  { revert s W. induction F as [|[p c] l A F IH]; intros s W; [exact W|]. cbn [run]. apply IH. destruct (perform_ok p s c W A) as (s1 & o & E & H). rewrite E. cbn [fst].
    destruct o as [x|]; destruct c; cbn [real_args] in H; destruct H as (H1 & H); try (subst s1; exact W); exact (proj1 (proj2 (proj2 (proj2 H)))). }
  cbv zeta. split; [exact K|]. destruct K as (C & S0). unfold getuid, geteuid, getresuid, getgid, getegid, getresgid. rewrite C. unfold small in S0.
  repeat match goal with H : Forall _ (_ :: _) |- _ => inversion H; subst; clear H end. rewrite !as_int_small by assumption. repeat split; reflexivity.
Qed.
Print Assumptions C160_history.
Example C160_history_case : geteuid (run root [(unix, Setgid 100); (unix, Seteuid 1000); (unix, Setuid 5); (unix, Seteuid 0); (unix, Setreuid 7 8)]) = 8.
Proof.
  destruct (C160_history [(unix, Setgid 100); (unix, Seteuid 1000); (unix, Setuid 5); (unix, Seteuid 0); (unix, Setreuid 7 8)] root root_wf) as (_ & _ & H & _).
  - repeat constructor; unfold int; lia.
  - rewrite H. reflexivity.
Qed.
(* setuid does not give privileges up: user 0 becomes user 1000 and then 0 again *)
Theorem C160_dropped_refuted : exists s1 s2, setuid unix root 1000 = (s1, 0, None) /\ getresuid s1 = (1000, 1000, 0) /\ seteuid unix s1 0 = (s2, 0, None) /\ geteuid s2 = 0.
Proof. eexists. eexists. split; [vm_compute; reflexivity|]. split; [reflexivity|]. split; [vm_compute; reflexivity|]. reflexivity. Qed.
Print Assumptions C160_dropped_refuted.
(* nor does setreuid set the saved id *)
Theorem C160_saved_refuted : exists s1, setreuid unix root 1000 1000 = (s1, 0, None) /\ getresuid s1 = (1000, 1000, 0).
Proof. eexists. split; [vm_compute; reflexivity|]. reflexivity. Qed.
Print Assumptions C160_saved_refuted.
(* without privileges setuid changes the real id too *)
Theorem C160_real_refuted : exists s s1, wf s /\ euid (manager s) <> 0 /\ getuid s = 1000 /\ setuid unix s 5 = (s1, 0, None) /\ getuid s1 = 5.
Proof.
  exists (State (Ids 1000 1000 5 0 0 0) (Ids 1000 1000 5 0 0 0)). eexists. split; [split; [reflexivity|repeat constructor; cbn; lia]|]. split; [discriminate|]. split; [reflexivity|]. split; [vm_compute; reflexivity|]. reflexivity.
Qed.
Print Assumptions C160_real_refuted.
(* setuid and seteuid of -1, which is no id, succeed *)
Theorem C160_minus_one_refuted : setuid unix root (-1) = (root, 0, None) /\ seteuid unix root (-1) = (root, 0, None).
Proof. split; vm_compute; reflexivity. Qed.
Print Assumptions C160_minus_one_refuted.
