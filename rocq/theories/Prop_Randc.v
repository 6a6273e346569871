(* C161: rand, srand, rand_r. *)
From Verif Require Import Base Randc_model Randc_spec Randc_proofs.

(* C161 full: rand returns numbers from 0 to RAND_MAX; after srand with the same seed it returns the same numbers again, whatever was called before, and without srand
   those of srand(1); seeds are told apart by all their bits.  rand_r does the same with the seed its argument points to, and leaves the numbers of rand.
   Missing, refuted: only the low eight bits of the seed count. *)
Theorem C161_repeatable : forall l l' s s' seed n, numbers n (srand (run s l) seed) = numbers n (srand (run s' l') seed).
Proof. reflexivity. Qed.
Print Assumptions C161_repeatable.
Theorem C161_unseeded : forall s n, numbers n None = numbers n (srand s 1).
Proof. intros s [|n]; reflexivity. Qed.
Print Assumptions C161_unseeded.
Example C161_unseeded_case : numbers 3 (srand (run None [Rand; Srand 7; Rand]) 1) = numbers 3 None /\ List.length (numbers 3 None) = 3%nat /\ NoDup (numbers 3 None).
Proof. split; [symmetry; apply C161_unseeded|]. split; [reflexivity|]. vm_compute. repeat constructor; cbn; intuition discriminate. Qed.
Theorem C161_range : forall l n, List.length (numbers n (run None l)) = n /\ Forall (fun v => 0 <= v <= RAND_MAX) (numbers n (run None l)).
Proof.
  intros l n. split; [|apply numbers_range, run_good; exact I]. generalize (run None l). induction n as [|n IH]; intro s; [reflexivity|]. cbn [numbers]. destruct (rand s) as [s' v]. cbn [List.length]. rewrite IH. reflexivity.
Qed.
Print Assumptions C161_range.
Example C161_range_case : exists v w, numbers 2 (run None [Srand 0; Rand]) = [v; w] /\ v <> w /\ 0 <= v <= RAND_MAX.
Proof.
  destruct (C161_range [Srand 0; Rand] 2) as [_ F]. destruct (numbers 2 (run None [Srand 0; Rand])) as [|v [|w [|x l]]] eqn:E; try (vm_compute in E; discriminate). exists v, w. split; [reflexivity|].
  inversion F; subst. split; [|assumption]. vm_compute in E. congruence.
Qed.
(* rand_r: in range, the seed becomes the number, which depends on nothing else *)
Theorem C161_rand_r : forall seed n, (exists v, rand_r (Some seed) = (Some v, v) /\ 0 <= v <= RAND_MAX) /\ List.length (numbers_r n seed) = n /\ Forall (fun v => 0 <= v <= RAND_MAX) (numbers_r n seed).
Proof. intros seed n. split; [apply rand_r_ok|apply numbers_r_ok]. Qed.
Print Assumptions C161_rand_r.
Example C161_rand_r_case : exists v, rand_r (Some 12345) = (Some v, v) /\ v <> 12345 /\ 0 <= v <= RAND_MAX.
Proof. destruct (C161_rand_r 12345 1) as ((v & E & R) & _). exists v. split; [exact E|]. split; [|exact R]. vm_compute in E. congruence. Qed.
(* seeds that differ in the low eight bits give different numbers from the first on *)
Theorem C161_seeds_partial : forall s s' a b n, a mod 256 <> b mod 256 -> numbers (S n) (srand s a) <> numbers (S n) (srand s' b).
Proof.
  intros s s' a b n N E. apply N, (seeds_differ s s'). cbn [numbers] in *. destruct (rand (srand s a)) as [s1 v]. destruct (rand (srand s' b)) as [s2 w]. cbn [hd]. congruence.
Qed.
Print Assumptions C161_seeds_partial.
Example C161_seeds_case : numbers 1 (srand None 0) <> numbers 1 (srand None 1).
Proof. apply C161_seeds_partial. discriminate. Qed.
(* seeds that are the same but for the upper 24 bits *)
Theorem C161_seeds_refuted : forall s seed k n, numbers n (srand s (seed + 256 * k)) = numbers n (srand s seed).
Proof. intros s seed k n. unfold srand. rewrite Z.mul_comm, Z_mod_plus_full. reflexivity. Qed.
Print Assumptions C161_seeds_refuted.
