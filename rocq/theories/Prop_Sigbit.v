(* C168: the trampolines of x86_64 and i686 handle the first signal that is pending and allowed, and take just that one from those pending. *)
From Verif Require Import Base Sigbit_model Sigbit_spec.

Lemma low_bit a k : 0 <= k < 32 -> Z.testbit (low a) k = Z.testbit a k.
Proof. intros K. unfold low. rewrite Z.land_spec, Z.ones_spec_low by lia. apply Bool.andb_true_r. Qed.
Lemma high_bit a k : 0 <= k < 32 -> Z.testbit (high a) k = Z.testbit a (32 + k).
Proof. intros K. unfold high. rewrite Z.land_spec, Z.ones_spec_low, Z.shiftr_spec by lia. rewrite Bool.andb_true_r. f_equal. lia. Qed.
Lemma find_seq f n : forall b, match find f (map Z.of_nat (seq b n)) with
  | Some k => Z.of_nat b <= k < Z.of_nat (b + n) /\ f k = true /\ forall j, Z.of_nat b <= j < k -> f j = false
  | None => forall j, Z.of_nat b <= j < Z.of_nat (b + n) -> f j = false end.
Proof.
  induction n as [|n IH]; intros b; cbn [seq map find]; [intros j J; lia|].
  destruct (f (Z.of_nat b)) eqn:F; [split; [lia|split; [exact F|intros j J; lia]]|].
  specialize (IH (S b)). destruct (find f (map Z.of_nat (seq (S b) n))) as [k|].
  - destruct IH as (A & B & C). split; [lia|]. split; [exact B|]. intros j J.
    destruct (Z.eq_dec j (Z.of_nat b)) as [-> | D]; [exact F|apply C; lia].
  - intros j J. destruct (Z.eq_dec j (Z.of_nat b)) as [-> | D]; [exact F|apply IH; lia].
Qed.
Lemma bsf_spec a : match bsf a with
  | Some k => 0 <= k < 32 /\ Z.testbit a k = true /\ forall j, 0 <= j < k -> Z.testbit a j = false
  | None => forall j, 0 <= j < 32 -> Z.testbit a j = false end.
Proof. exact (find_seq (Z.testbit a) 32 0). Qed.
Lemma cleared a k j : 0 <= k -> 0 <= j -> Z.testbit (Z.clearbit a k) j = (Z.testbit a j && negb (j =? k))%bool.
Proof. intros K J. rewrite Z.clearbit_eqb by lia. rewrite (Z.eqb_sym k j). reflexivity. Qed.
Lemma taken s k : 0 <= k < 64 -> without (for_thread s) (for_thread (take s k)) k /\ as_before (for_process s) (for_process (take s k)) /\ as_before (allowed s) (allowed (take s k)) /\ inf (take s k) = by_thread s k.
Proof.
  intros K. split; [|split; [|split; [|reflexivity]]].
  - intros j J. unfold for_thread, take. cbn [std rt]. destruct (Z.ltb_spec j 32), (Z.ltb_spec k 32).
    + rewrite cleared by lia. reflexivity.
    + destruct (Z.eqb_spec j k); [lia|]. rewrite Bool.andb_true_r. reflexivity.
    + destruct (Z.eqb_spec j k); [lia|]. rewrite Bool.andb_true_r. reflexivity.
    + rewrite cleared by lia. f_equal. f_equal. destruct (Z.eqb_spec (j - 32) (k - 32)), (Z.eqb_spec j k); lia || reflexivity.
  - intros j J. reflexivity.
  - intros j J. unfold allowed, take. cbn [std rt]. destruct (Z.ltb_spec j 32), (Z.ltb_spec k 32); try reflexivity.
    + rewrite cleared by lia. destruct (Z.eqb_spec (32 + j) k); [lia|]. apply Bool.andb_true_r.
    + rewrite cleared by lia. destruct (Z.eqb_spec j (k - 32)); [lia|]. apply Bool.andb_true_r.
Qed.

Theorem C168_choice : forall a s, right_choice s (choose a s).
Proof.
  intros a s. unfold choose. pose proof (bsf_spec (Z.land (low (std s)) (high (std s)))) as T.
  assert (T' : forall j, 0 <= j < 32 -> Z.testbit (Z.land (low (std s)) (high (std s))) j = (for_thread s j && allowed s j)%bool).
  { intros j J. unfold for_thread, allowed. destruct (Z.ltb_spec j 32); [|lia]. rewrite Z.land_spec, low_bit, high_bit by lia. reflexivity. }
  destruct (bsf (Z.land (low (std s)) (high (std s)))) as [k|].
  { destruct T as (K & B & M). rewrite T' in B by lia. apply andb_prop in B. destruct B as [B1 B2]. destruct (taken s k ltac:(lia)) as (C & D & E & F).
    cbn [right_choice]. split; [|auto]. split; [split; [lia|auto]|]. intros j (J & A & _). unfold rank. destruct (Z.ltb_spec k 32); [|lia]. rewrite B1.
    destruct (Z.ltb_spec j 32); [|lia]. destruct (for_thread s j) eqn:FT; [|lia].
    destruct (Z.lt_ge_cases j k) as [L | L]; [|exact L]. specialize (M j ltac:(lia)). rewrite T', FT, A in M by lia. discriminate M. }
  pose proof (bsf_spec (Z.land (low (proc s)) (high (std s)))) as P.
  assert (P' : forall j, 0 <= j < 32 -> Z.testbit (Z.land (low (proc s)) (high (std s))) j = (for_process s j && allowed s j)%bool).
  { intros j J. unfold for_process, allowed. destruct (Z.ltb_spec j 32); [|lia]. rewrite Z.land_spec, low_bit, high_bit by lia. reflexivity. }
  assert (NT : forall j, 0 <= j < 32 -> allowed s j = true -> for_thread s j = false).
  { intros j J A. specialize (T j J). rewrite T', A in T by lia. rewrite Bool.andb_true_r in T. exact T. }
  destruct (bsf (Z.land (low (proc s)) (high (std s)))) as [k|].
  { destruct P as (K & B & M). rewrite P' in B by lia. apply andb_prop in B. destruct B as [B1 B2].
    cbn [right_choice]. split.
    - split; [split; [lia|auto]|]. intros j (J & A & O). unfold rank. destruct (Z.ltb_spec k 32); [|lia]. rewrite (NT k K B2).
      destruct (Z.ltb_spec j 32); [|lia]. pose proof (NT j ltac:(lia) A) as NJ. rewrite NJ. destruct O as [O | O]; [congruence|].
      destruct (Z.lt_ge_cases j k) as [L | L]; [|lia]. specialize (M j ltac:(lia)). rewrite P', O, A in M by lia. discriminate M.
    - split; [intros j J; reflexivity|]. split; [|split; [intros j J; reflexivity|reflexivity]]. intros j J. unfold for_process. cbn [proc]. apply cleared; lia. }
  assert (NS : forall j, j < 32 -> ~ waiting s j).
  { intros j L (J & A & [O | O]); [rewrite (NT j ltac:(lia) A) in O; discriminate O|]. specialize (P j ltac:(lia)). rewrite P', O, A in P by lia. discriminate P. }
  pose proof (bsf_spec (Z.land (Z.lor (high (proc s)) (low (rt s))) (high (rt s)))) as R.
  assert (R' : forall j, 0 <= j < 32 -> Z.testbit (Z.land (Z.lor (high (proc s)) (low (rt s))) (high (rt s))) j = ((for_process s (j + 32) || for_thread s (j + 32)) && allowed s (j + 32))%bool).
  { intros j J. unfold for_process, for_thread, allowed. destruct (Z.ltb_spec (j + 32) 32); [lia|]. rewrite Z.land_spec, Z.lor_spec, low_bit, !high_bit by lia.
    rewrite (Z.add_comm 32 j). replace (j + 32 - 32) with j by lia. reflexivity. }
  destruct (bsf (Z.land (Z.lor (high (proc s)) (low (rt s))) (high (rt s)))) as [i|].
  - destruct R as (I & B & M). rewrite R' in B by lia. apply andb_prop in B. destruct B as [B1 B2].
    assert (F : first s (i + 32)).
    { split; [split; [lia|split; [exact B2|]]; apply Bool.orb_prop in B1; tauto|].
      intros j W. destruct (Z.lt_ge_cases j 32) as [L | L]; [exfalso; exact (NS j L W)|]. unfold rank. destruct (Z.ltb_spec (i + 32) 32); [lia|]. destruct (Z.ltb_spec j 32); [lia|].
      destruct (Z.lt_ge_cases j (i + 32)) as [Q | Q]; [|lia]. destruct W as (J & A & O). specialize (M (j - 32) ltac:(lia)). rewrite R' in M by lia.
      replace (j - 32 + 32) with j in M by lia. rewrite A in M. destruct O as [O | O]; rewrite O in M; [rewrite Bool.orb_true_r in M|]; discriminate M. }
    destruct (taken s (i + 32) ltac:(lia)) as (C & D & E & G).
    assert (X : for_thread s (i + 32) = Z.testbit (low (rt s)) i).
    { unfold for_thread. destruct (Z.ltb_spec (i + 32) 32); [lia|]. rewrite low_bit by lia. f_equal. lia. }
    assert (Y : for_process s (i + 32) = Z.testbit (high (proc s)) i) by (unfold for_process; rewrite high_bit by lia; f_equal; lia).
    destruct a.
    + destruct (Z.testbit (low (rt s)) i); cbn [right_choice]; [auto|]. split; [exact F|]. split; [lia|]. rewrite X in B1. rewrite Bool.orb_false_r in B1. exact B1.
    + destruct (Z.testbit (high (proc s)) i); cbn [negb right_choice]; [|auto]. split; [exact F|]. split; [lia|]. exact Y.
  - cbn [right_choice]. intros k W. destruct (Z.lt_ge_cases k 32) as [L | L]; [exact (NS k L W)|]. destruct W as (J & A & O). specialize (R (k - 32) ltac:(lia)). rewrite R' in R by lia.
    replace (k - 32 + 32) with k in R by lia. rewrite A in R. destruct O as [O | O]; rewrite O in R; [rewrite Bool.orb_true_r in R|]; discriminate R.
Qed.
Print Assumptions C168_choice.
(* 3 is pending but blocked; 10, and 15 for the process, are allowed *)
Definition some : words := Words (Z.shiftl (2 ^ 15 + 2 ^ 10) 32 + 2 ^ 10 + 2 ^ 3) 0 (2 ^ 15) (fun k => 100 + k) (fun k => 200 + k) 0.
Example C168_choice_case : exists t, choose X86_64 some = Thread 10 t /\ inf t = 110 /\ for_thread t 3 = true /\ for_thread t 10 = false /\ exists u, choose I686 t = Process 15 u /\ for_process u 15 = false.
Proof.
  pose proof (C168_choice X86_64 some) as H. destruct (choose X86_64 some) as [k t | | |] eqn:E; [|vm_compute in E; discriminate E..].
  assert (K : k = 10) by (vm_compute in E; injection E as <- _; reflexivity). subst k.
  destruct H as (_ & A & _ & _ & B). exists t. split; [reflexivity|]. split; [rewrite B; reflexivity|].
  split; [rewrite (A 3) by lia; reflexivity|]. split; [rewrite (A 10) by lia; reflexivity|].
  vm_compute in E. injection E as <-.
  eexists. split; vm_compute; reflexivity.
Qed.
(* a realtime signal pending for both: x86_64 takes the thread's, as both comments have it, i686 the process' *)
Theorem C168_thread_first : forall s k, choose X86_64 s = Dequeue k -> for_thread s k = false.
Proof.
  intros s k. unfold choose. destruct (bsf (Z.land (low (std s)) (high (std s)))); [discriminate|]. destruct (bsf (Z.land (low (proc s)) (high (std s)))); [discriminate|].
  pose proof (bsf_spec (Z.land (Z.lor (high (proc s)) (low (rt s))) (high (rt s)))) as R.
  destruct (bsf (Z.land (Z.lor (high (proc s)) (low (rt s))) (high (rt s)))) as [i|]; [|discriminate]. destruct R as (I & _).
  destruct (Z.testbit (low (rt s)) i) eqn:B; [discriminate|]. intros E. injection E as <-. unfold for_thread. destruct (Z.ltb_spec (i + 32) 32); [lia|].
  rewrite low_bit in B by lia. replace (i + 32 - 32) with i by lia. exact B.
Qed.
Print Assumptions C168_thread_first.
Definition both : words := Words 0 (Z.shiftl 8 32 + 8) (Z.shiftl 8 32) (fun _ => 0) (fun _ => 0) 0.
Theorem C168_process_first : exists s k, choose I686 s = Dequeue k /\ for_thread s k = true.
Proof. exists both, 35. split; vm_compute; reflexivity. Qed.
Print Assumptions C168_process_first.
Example C168_thread_first_case : forall k, choose X86_64 (Words 0 (Z.shiftl 8 32) (Z.shiftl 8 32) (fun _ => 0) (fun _ => 0) 0) = Dequeue k -> k = 35 /\ for_thread (Words 0 (Z.shiftl 8 32) (Z.shiftl 8 32) (fun _ => 0) (fun _ => 0) 0) k = false.
Proof. intros k E. split; [vm_compute in E; injection E as <-; reflexivity|apply C168_thread_first; exact E]. Qed.
