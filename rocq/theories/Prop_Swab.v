(* Property C143: swab. *)
From Verif Require Import Base Swab_model Swab_proofs.

(* swab copies the bytes of each pair exchanged, leaves out one that is over, and changes nothing else *)
Theorem C143_swab m src dest l : bytes_at m src l -> mapped m dest (2 * (len l / 2)) -> disjoint src (len l) dest (2 * (len l / 2)) ->
  exists m', swab m src dest (len l) = Ok m' /\ stored m m' dest (exchanged l).
Proof. exact (swab_ok m src dest l). Qed.
Print Assumptions C143_swab.
Example C143_case : exists m', swab (mem_of 100 [1; 2; 3; 4; 5; 9; 9; 9; 9; 9]) 100 105 5 = Ok m' /\ bytes_at m' 105 [2; 1; 4; 3; 9].
Proof.
  destruct (C143_swab (mem_of 100 [1; 2; 3; 4; 5; 9; 9; 9; 9; 9]) 100 105 [1; 2; 3; 4; 5]) as (m' & E & S).
  - vm_compute. repeat split.
  - intros x X. change (len [1; 2; 3; 4; 5]) with 5 in X. change (2 * (5 / 2)) with 4 in X.
    assert (C : x = 105 \/ x = 106 \/ x = 107 \/ x = 108) by lia. destruct C as [->|[->|[->| ->]]]; eexists; vm_compute; reflexivity.
  - left. vm_compute. discriminate.
  - exists m'. split; [exact E|]. destruct S as ((A & B & C & D & _) & U). split; [exact A|]. split; [exact B|]. split; [exact C|]. split; [exact D|].
    split; [|exact I]. rewrite U; [reflexivity|]. vm_compute. intros (_ & X). discriminate X.
Qed.
(* with nothing to copy, or a negative number, no byte is touched and the pointers may be anything *)
Theorem C143_none m src dest nbytes : nbytes <= 1 -> swab m src dest nbytes = Ok m.
Proof.
  intro N. unfold swab. destruct (Z.leb_spec nbytes 0); [reflexivity|]. assert (nbytes = 1) as -> by lia. reflexivity.
Qed.
Print Assumptions C143_none.
Example C143_none_case : swab (fun _ => None) 0 0 (-7) = Ok (fun _ => None).
Proof. apply C143_none. lia. Qed.
