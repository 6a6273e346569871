(* Property C130: posix_fallocate. *)
From Verif Require Import Base Falloc_spec Falloc_model Falloc_proofs.

(* C130: on success every byte of the range is in the file and nothing was lost, on failure the
   file is as it was; what others write meanwhile stays.
   Missing: others that change the size of the file meanwhile, see below. *)
Theorem C130_fallocate_partial f offset length fstat others ftruncate :
  len f < 9223372036854775808 -> -9223372036854775808 <= offset < 9223372036854775808 -> -9223372036854775808 <= length < 9223372036854775808 ->
  (forall l, len (others l) = len l) -> (forall n e, ftruncate n = Some e -> 0 < e) -> (forall e, fstat = Some e -> 0 < e) ->
  let r := posix_fallocate f offset length fstat others ftruncate in
  (snd r = 0 -> 0 <= offset /\ 0 < length /\ grown (others f) (fst r) (offset + length))
  /\ (snd r <> 0 -> fst r = f \/ fst r = others f)
  /\ (offset < 0 \/ length <= 0 -> r = (f, 22))
  /\ (0 <= offset -> 0 < length -> fstat = None -> ftruncate (offset + length) = None -> snd r = 0).
Proof. exact (fallocate_ok f offset length fstat others ftruncate). Qed.
Print Assumptions C130_fallocate_partial.
Example C130_fallocate_case : grown [1; 2; 3] (fst (posix_fallocate [1; 2; 3] 2 3 None (fun l => l) (fun _ => None))) 5.
Proof.
  destruct (C130_fallocate_partial [1; 2; 3] 2 3 None (fun l => l) (fun _ => None)) as (A & _ & _ & B);
    [reflexivity|lia|lia|reflexivity|discriminate|discriminate|]. apply A, B; (reflexivity || lia).
Qed.

(* C130, others: bytes another process appends between fstat and ftruncate are cut off *)
Theorem C130_shrinks_refuted : exists f offset length others,
  let r := posix_fallocate f offset length None others (fun _ => None) in
  (forall l, exists z, others l = l ++ z) /\ snd r = 0 /\ len (fst r) < len (others f) /\ ~ grown (others f) (fst r) (offset + length).
Proof.
  exists [1], 0, 2, (fun l => l ++ [7; 8; 9]). cbv zeta. split; [intros l; exists [7; 8; 9]; reflexivity|]. split; [reflexivity|].
  split; [vm_compute; reflexivity|]. intros [_ H]. vm_compute in H. discriminate.
Qed.
Print Assumptions C130_shrinks_refuted.
