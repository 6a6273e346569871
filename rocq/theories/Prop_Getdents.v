(* Property C131: posix_getdents. *)
From Verif Require Import Base Getdents_spec Getdents_model Getdents_proofs.

(* C131, every entry: calls until nothing is left deliver the records of the directory, each once
   and in order, however many the kernel hands over at a time *)
Theorem C131_all dir kernel tail : kernel_ok dir kernel -> Forall good dir -> forall counts past rest p,
  dir = past ++ rest -> position past p -> (length rest < length counts)%nat -> read_all kernel tail counts p = Ok (encoded rest).
Proof. exact (read_all_ok dir kernel tail). Qed.
Print Assumptions C131_all.
Example C131_all_case : read_all eg_kernel [9; 9] [1; 1; 1]%nat 0 = Ok (encoded eg_dir).
Proof. apply (C131_all eg_dir eg_kernel [9; 9] eg_ok) with (past := []); [|reflexivity|reflexivity|cbn; lia]. repeat constructor; cbn; lia. Qed.

(* C131, failure: the position stays, so that nothing is skipped *)
Theorem C131_error pos g tail l r pos' : posix_getdents pos g tail l = Ok (inr r, pos') -> pos' = pos.
Proof. exact (getdents_err pos g tail l r pos'). Qed.
Print Assumptions C131_error.
Example C131_error_case : posix_getdents 17 (inl [1; 2; 3]) [] None = Ok (inr 5, 17).
Proof. destruct (posix_getdents 17 (inl [1; 2; 3]) [] None) as [[[b|r] p]| | |] eqn:H; try (vm_compute in H; discriminate). rewrite (C131_error _ _ _ _ _ _ H). vm_compute in H. injection H as <- _. reflexivity. Qed.

(* C131, any answer: whatever bytes a scheme answers with, the call returns *)
Theorem C131_total pos g tail l : match g with inl buf => Forall is_byte (buf ++ tail) | inr _ => True end -> exists r, posix_getdents pos g tail l = Ok r.
Proof. exact (getdents_total pos g tail l). Qed.
Print Assumptions C131_total.
Example C131_total_case : exists r, posix_getdents 0 (inl (repeat 0 40)) [] None = Ok r.
Proof. apply C131_total. rewrite app_nil_r. apply Forall_forall. intros x Hx. apply repeat_spec in Hx. subst. unfold is_byte. lia. Qed.
