(* C163: getgroups. *)
From Verif Require Import Base Getgroups_model Getgroups_spec Getgroups_proofs.

(* C163 full: getgroups returns the supplementary groups of the process: with room for them the ids are stored in the array, the rest of which stays, and their number is
   returned; with size 0 only the number; with too little room it fails with EINVAL; it has no effect on anything else, and a change of the user ids has none on it.
   Missing, refuted: it restarts the caller's walk with getgrent; the groups are those of the effective user's entries in the group file; those behind a broken line are lost. *)
Theorem C163_getgroups_partial : forall passwd euid user l gids r cells fuel, passwd euid = Some user -> groups_of user l gids -> all_entries l -> (List.length l < fuel)%nat ->
  exists cells', getgroups fuel passwd euid (Some l) r (len cells) cells = Ok (None, cells', answer gids (len cells)) /\ List.length cells' = List.length cells /\
    (forall k, answer gids (len cells) = inl k -> cells' = filled gids cells).
Proof. exact getgroups_ok. Qed.
Print Assumptions C163_getgroups_partial.
Theorem C163_negative : forall fuel passwd euid file r size cells, size < 0 -> getgroups fuel passwd euid file r size cells = Ok (r, cells, inr 22).
Proof. intros fuel passwd euid file r size cells H. unfold getgroups. rewrite (proj2 (Z.ltb_lt size 0) H). reflexivity. Qed.
Print Assumptions C163_negative.

Definition ann : name := [97; 110; 110].
Definition bob : name := [98; 111; 98].
Definition known (u : Z) : option name := if u =? 1000 then Some ann else if u =? 1001 then Some bob else None.
Definition db : list line := [Entry 10 [bob; ann]; Entry 20 [bob]; Entry 30 [ann]].
Example ann_groups : groups_of ann db [10; 30].
Proof. apply g_in; [right; left; reflexivity|]. apply g_out; [intros [H|[]]; discriminate H|]. apply g_in; [left; reflexivity|]. constructor. Qed.
Example C163_getgroups_case : exists c, getgroups 9 known 1000 (Some db) None 3 [7; 7; 7] = Ok (None, c, inl 2) /\ c = [10; 30; 7].
Proof.
  destruct (C163_getgroups_partial known 1000 ann db [10; 30] None [7; 7; 7] 9) as (c & E & _ & C); [reflexivity|exact ann_groups|intros [H|[H|[H|[]]]]; discriminate H|cbn; lia|].
  exists c. split; [exact E|]. apply (C 2). reflexivity.
Qed.
Example C163_short_case : getgroups 9 known 1000 (Some db) None 1 [7] = Ok (None, [10], inr 22) /\ getgroups 9 known 1000 (Some db) None 0 [] = Ok (None, [], inl 2).
Proof. split; reflexivity. Qed.
(* a program that goes through the groups with getgrent and calls getgroups for each never ends *)
Theorem C163_position_refuted : forall n, rounds n 9 known 1000 (Some db) None = false.
Proof. induction n as [|n IH]; [reflexivity|]. exact IH. Qed.
Print Assumptions C163_position_refuted.
(* seteuid changes the supplementary groups *)
Theorem C163_euid_refuted : exists file c c', getgroups 9 known 1000 file None 3 [0; 0; 0] = Ok (None, c, inl 2) /\ getgroups 9 known 1001 file None 3 [0; 0; 0] = Ok (None, c', inl 2) /\ c <> c'.
Proof. exists (Some db), [10; 30; 0], [10; 20; 0]. repeat split; discriminate. Qed.
Print Assumptions C163_euid_refuted.
(* a line that is no group hides the groups behind it *)
Theorem C163_broken_refuted : exists l, groups_of ann l [10; 30] /\ getgroups 9 known 1000 (Some l) None 0 [] = Ok (None, [], inl 1).
Proof.
  exists [Entry 10 [ann]; Broken; Entry 30 [ann]]. split; [|reflexivity]. apply g_in; [left; reflexivity|]. apply g_broken. apply g_in; [left; reflexivity|]. constructor.
Qed.
Print Assumptions C163_broken_refuted.
