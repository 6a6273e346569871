(* Property C142: nice values. *)
From Verif Require Import Base Priority_model Priority_proofs.

(* C142, processes: setpriority makes the nice value of the process the one nearest to that asked for, which
   getpriority then gives, -1 included, and changes no other process.
   Missing: PRIO_PGRP and PRIO_USER (see C142_groups_refuted). *)
Theorem C142_set_get_partial k who n v : is_int n -> nearest n v -> set_error k who = None ->
  exists k', setpriority k 0 who n = (k', (0, None)) /\ getpriority k' 0 who = (v, None) /\
    forall q, q <> who -> getpriority k' 0 q = getpriority k 0 q.
Proof.
  intros I N E. apply nearest_clamp in N. subst v. destruct (set_stored k who n E) as (P & X). exists (put k who (20 + clamp n)). split; [exact X|].
  rewrite X in P. cbn [fst] in P. split; [apply get_stored; [unfold clamp; lia|exact P]|].
  intros q Q. unfold getpriority, sys_getpriority, posix_getpriority, put. cbn [prio]. destruct (Z.eqb_spec q who); [contradiction|reflexivity].
Qed.
Print Assumptions C142_set_get_partial.
Definition eg : manager := Manager (fun q => if q =? 0 then inl 20 else if q =? 7 then inl 30 else inr 3) (fun q => if q =? 9 then Some 1 else None).
Example C142_set_get_case : exists k', setpriority eg 0 7 (-50) = (k', (0, None)) /\ getpriority k' 0 7 = (-20, None) /\ getpriority k' 0 0 = (0, None).
Proof. eexists. split; [vm_compute; reflexivity|]. split; vm_compute; reflexivity. Qed.
Example C142_set_get_met : nearest (-50) (-20) /\ set_error eg 7 = None.
Proof. split; [split; [lia|intros; lia]|reflexivity]. Qed.

(* C142, errors: what the process manager refuses is reported with its errno and changes nothing *)
Theorem C142_errors k who n e : (set_error k who = Some e -> setpriority k 0 who n = (k, (-1, Some e))) /\
  (prio k who = inr e -> getpriority k 0 who = (-1, Some e)) /\
  (prio k 0 = inr e -> nice k n = (k, (-1, Some e))).
Proof.
  split; [|split; [|intro E; unfold nice, sys_getpriority, posix_getpriority; cbn [Z.eqb negb]; rewrite E; reflexivity]]; intro E; [unfold setpriority, sys_setpriority, posix_setpriority|unfold getpriority, sys_getpriority, posix_getpriority]; cbn [Z.eqb negb]; rewrite E; reflexivity.
Qed.
Print Assumptions C142_errors.
Example C142_errors_case : setpriority eg 0 9 1 = (eg, (-1, Some 1)) /\ getpriority eg 0 5 = (-1, Some 3).
Proof. split; [apply (proj1 (C142_errors eg 9 1 1)); reflexivity|apply (proj1 (proj2 (C142_errors eg 5 0 3))); reflexivity]. Qed.

(* and so does nice, when the value cannot be set *)
Theorem C142_nice_errors k n e p : prio k 0 = inl p -> 1 <= p <= 40 -> set_error k 0 = Some e -> nice k n = (k, (-1, Some e)).
Proof.
  intros P R S. unfold nice, sys_getpriority, posix_getpriority, sys_setpriority, posix_setpriority. cbn [Z.eqb negb]. rewrite P, S. cbn [minus_one].
  rewrite (Z.mod_small p) by lia.
  assert (E : i32 (- i32 p + 40) = 40 - p).
  { unfold i32. rewrite (Z.mod_small (p + 2 ^ 31)) by lia. rewrite Z.mod_small by lia. lia. }
  rewrite E. destruct (Z.ltb_spec (40 - p) 0); [lia|]. reflexivity.
Qed.
Print Assumptions C142_nice_errors.
Example C142_nice_errors_case : nice (Manager (fun _ => inl 20) (fun _ => Some 1)) (-5) = (Manager (fun _ => inl 20) (fun _ => Some 1), (-1, Some 1)).
Proof. apply (C142_nice_errors _ _ 1 20); [reflexivity|lia|reflexivity]. Qed.

(* C142, nice: whatever was set before, nice adds the increment, the sum being kept within the limits
   however large the increment, and returns the new nice value *)
Theorem C142_nice k old incr v : -20 <= old <= 19 -> prio k 0 = inl (20 + old) -> set_error k 0 = None -> is_int incr -> nearest (old + incr) v ->
  exists k', nice k incr = (k', (v, None)) /\ getpriority k' 0 0 = (v, None) /\ forall q, q <> 0 -> getpriority k' 0 q = getpriority k 0 q.
Proof.
  intros O P E I N. apply nearest_clamp in N. destruct (get_stored k 0 old O P) as (S & _).
  assert (C : clamp (saturate (old + incr)) = v) by (subst v; unfold clamp, saturate; lia).
  assert (X : nice k incr = (put k 0 (20 + v), (v, None))).
  { unfold nice. rewrite S. cbn [minus_one]. destruct (Z.ltb_spec (20 - old) 0); [lia|]. rewrite i32_id by (unfold is_int; lia).
    replace (20 - (20 - old)) with old by lia. rewrite C. unfold sys_setpriority, posix_setpriority. cbn [Z.eqb negb]. rewrite E.
    assert (CV : clamp v = v) by (rewrite <- C; unfold clamp; lia). rewrite CV. rewrite Z.mod_small by (rewrite <- CV; unfold clamp; lia). reflexivity. }
  exists (put k 0 (20 + v)). split; [exact X|]. split.
  - apply get_stored; [subst v; unfold clamp; lia|]. reflexivity.
  - intros q Q. unfold getpriority, sys_getpriority, posix_getpriority, put. cbn [prio]. destruct (Z.eqb_spec q 0); [contradiction|reflexivity].
Qed.
Print Assumptions C142_nice.
Example C142_nice_case : exists k', nice eg (2 ^ 31 - 1) = (k', (19, None)) /\ getpriority k' 0 0 = (19, None).
Proof.
  destruct (C142_nice eg 0 (2 ^ 31 - 1) 19) as (k' & A & B & _); [lia|reflexivity|reflexivity|unfold is_int; lia|split; [lia|intros; lia]|].
  exists k'. split; assumption.
Qed.

(* C142, groups and users: they are refused *)
Theorem C142_groups_refuted k which who n : which = 1 \/ which = 2 ->
  setpriority k which who n = (k, (-1, Some 22)) /\ getpriority k which who = (-1, Some 22).
Proof. intros [-> | ->]; split; reflexivity. Qed.
Print Assumptions C142_groups_refuted.
Example C142_groups_case : getpriority eg 2 7 = (-1, Some 22).
Proof. apply (C142_groups_refuted eg 2 7 0). right. reflexivity. Qed.
