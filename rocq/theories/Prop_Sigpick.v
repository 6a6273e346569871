(* C167: the trampoline of aarch64 handles a signal that is pending and allowed, and takes just that one from those pending. *)
From Verif Require Import Base Sigpick_model Sigpick_spec.

Ltac concrete := unfold sane, bits64; repeat split; vm_compute; try reflexivity; intros; discriminate.
Lemma low_bit a k : 0 <= k -> Z.testbit (low32 a) k = (Z.testbit a k && (k <? 32))%bool.
Proof.
  intros K. unfold low32. rewrite Z.land_spec. destruct (Z.ltb_spec k 32).
  - rewrite (Z.ones_spec_low 32 k) by lia. reflexivity.
  - rewrite (Z.ones_spec_high 32 k) by lia. reflexivity.
Qed.
Lemma zero_bits a : a = 0 <-> forall k, 0 <= k -> Z.testbit a k = false.
Proof.
  split; [intros -> k _; apply Z.bits_0|]. intros H. apply Z.bits_inj'. intros k K. rewrite Z.bits_0. auto.
Qed.
Lemma high_bit a k : bits64 a -> 64 <= k -> Z.testbit a k = false.
Proof.
  intros [A B] K. destruct (Z.eq_dec a 0) as [-> | N]; [apply Z.bits_0|]. apply Z.bits_above_log2; [lia|].
  assert (Z.log2 a < 64) by (apply Z.log2_lt_pow2; lia). lia.
Qed.
Lemma nobody s : sane s -> ~ thread_waiting s -> Z.land (std s) (Z.shiftr (std s) 32) = 0.
Proof.
  intros (A & _) N. apply zero_bits. intros k K. rewrite Z.land_spec, Z.shiftr_spec by lia.
  destruct (Z.testbit (std s) k) eqn:P; [|reflexivity]. destruct (Z.testbit (std s) (k + 32)) eqn:Q; [|reflexivity].
  destruct (Z.lt_ge_cases k 32) as [L | L]; [|rewrite high_bit in Q by (auto; lia); discriminate Q].
  exfalso. apply N. exists k. unfold thread_pending, allowed. destruct (Z.ltb_spec k 32); [|lia]. rewrite (Z.add_comm 32 k). auto.
Qed.
Lemma somebody s : thread_waiting s -> Z.land (std s) (Z.shiftr (std s) 32) <> 0.
Proof.
  intros (k & K & P & Q) E. unfold thread_pending, allowed in P, Q. destruct (Z.ltb_spec k 32); [|lia].
  assert (F : Z.testbit (Z.land (std s) (Z.shiftr (std s) 32)) k = true) by (rewrite Z.land_spec, Z.shiftr_spec, P by lia; rewrite (Z.add_comm k 32), Q; reflexivity).
  rewrite E, Z.bits_0 in F. discriminate F.
Qed.

(* C167 full: forall s k t, sane s -> choose s = Picked k t -> handled_right s t k.  Missing, refuted: signals pending for the thread, standard and realtime.
   That a signal waiting is not passed over holds for standard signals. *)
Theorem C167_process_partial : forall s, sane s -> ~ thread_waiting s -> process_waiting s -> exists k t, choose s = Picked k t /\ handled_right s t k /\ from_process s t k.
Proof.
  intros s S N (k0 & K0 & P0 & A0). pose proof (nobody s S N) as E. unfold choose. rewrite E. cbn [Z.eqb negb].
  set (m := low32 (Z.land (low32 (proc s)) (low32 (Z.shiftr (std s) 32)))).
  assert (B : forall k, 0 <= k -> Z.testbit m k = (Z.testbit (proc s) k && Z.testbit (std s) (k + 32) && (k <? 32))%bool).
  { intros k K. unfold m. rewrite low_bit, Z.land_spec, !low_bit, Z.shiftr_spec by lia. destruct (Z.testbit (proc s) k), (Z.testbit (std s) (k + 32)), (k <? 32); reflexivity. }
  assert (NZ : m <> 0).
  { intros Z0. pose proof (B k0 ltac:(lia)) as F. rewrite Z0, Z.bits_0 in F. unfold process_pending, allowed in *. destruct (Z.ltb_spec k0 32); [|lia].
    rewrite (Z.add_comm 32 k0) in A0. rewrite P0, A0 in F. discriminate F. }
  assert (POS : 0 < m).
  { assert (0 <= m) by (unfold m, low32; apply Z.land_nonneg; right; vm_compute; discriminate). lia. }
  destruct (Z.eqb_spec m 0) as [C | _]; [contradiction|]. cbn [negb].
  set (k := highest m). pose proof (Z.bit_log2 m POS) as T. fold (highest m) in T. fold k in T.
  assert (K : 0 <= k) by apply Z.log2_nonneg. rewrite B in T by assumption.
  apply andb_prop in T. destruct T as [T L]. apply andb_prop in T. destruct T as [T U]. apply Z.ltb_lt in L.
  assert (FP : from_process s (Words (std s) (rt s) (proc s - Z.shiftl 1 k) (senders s) (inf s)) k).
  { split; [exact T|]. split; [|intros; reflexivity]. intros j J. unfold process_pending. cbn [proc].
    assert (LD : Z.ldiff (Z.shiftl 1 k) (proc s) = 0).
    { apply zero_bits. intros i I. rewrite Z.ldiff_spec, Z.shiftl_1_l, Z.pow2_bits_eqb by lia. destruct (Z.eqb_spec k i) as [<- | _]; [rewrite T|]; reflexivity. }
    rewrite (Z.sub_nocarry_ldiff _ _ LD), Z.ldiff_spec, Z.shiftl_1_l, Z.pow2_bits_eqb by lia.
    destruct (Z.eqb_spec k j) as [<- | D]; cbn [negb].
    - rewrite Bool.andb_false_r. split; [discriminate|intros [_ F]; contradiction].
    - rewrite Bool.andb_true_r. split; [intros F; split; [exact F|congruence]|intros [F _]; exact F]. }
  eexists k, _. split; [reflexivity|]. split; [|exact FP].
  split; [lia|]. split; [|split; [intros j J; reflexivity|left; exact FP]].
  unfold allowed. destruct (Z.ltb_spec k 32); [|lia]. rewrite Z.add_comm. exact U.
Qed.
Print Assumptions C167_process_partial.
(* 15 and 10 are pending for the process, 15 is blocked *)
Definition two : words := Words (Z.shiftl (2 ^ 10) 32) 0 (2 ^ 15 + 2 ^ 10) (fun _ => 0) 0.
Example C167_process_case : choose two = Picked 10 (Words (Z.shiftl (2 ^ 10) 32) 0 (2 ^ 15) (fun _ => 0) 0) /\ exists k t, choose two = Picked k t /\ handled_right two t k.
Proof.
  split; [vm_compute; reflexivity|].
  destruct (C167_process_partial two) as (k & t & A & B & _).
  - concrete.
  - intros W. apply somebody in W. apply W. vm_compute. reflexivity.
  - exists 10. split; [lia|]. split; vm_compute; reflexivity.
  - exists k, t. split; assumption.
Qed.
(* a standard signal for the thread: the number of the signal replaces the word, so that none is allowed afterwards *)
Theorem C167_mask_refuted : forall s, thread_waiting s -> exists k t, choose s = Picked k t /\ std t = k /\ (forall j, 0 <= j < 32 -> ~ allowed t j) /\ ~ same_allowed s t /\ ~ handled_right s t k.
Proof.
  intros s W. pose proof (somebody s W) as E. unfold choose. destruct (Z.eqb_spec (Z.land (std s) (Z.shiftr (std s) 32)) 0) as [C | _]; [contradiction|]. cbn [negb].
  set (k := highest (low32 (std s))). set (t := Words k (rt s) (proc s) (senders s) (senders s k)).
  assert (NA : forall j, 0 <= j < 32 -> ~ allowed t j).
  { intros j J. unfold allowed, t. cbn [std]. destruct (Z.ltb_spec j 32); [|lia].
    assert (Z.testbit k (32 + j) = false); [|congruence].
    assert (L : k < 32).
    { unfold k, highest. destruct (Z.eq_dec (low32 (std s)) 0) as [-> | NZ]; [reflexivity|].
      apply Z.log2_lt_pow2; [assert (0 <= low32 (std s)) by (apply Z.land_nonneg; right; vm_compute; discriminate); lia|].
      unfold low32. rewrite Z.land_ones by lia. apply Z.mod_pos_bound. lia. }
    assert (0 <= k) by apply Z.log2_nonneg.
    destruct (Z.eq_dec k 0) as [-> | NZ]; [apply Z.bits_0|]. apply Z.bits_above_log2; [lia|].
    assert (Z.log2 k < 5) by (apply Z.log2_lt_pow2; lia). lia. }
  assert (NS : ~ same_allowed s t).
  { intros A. destruct W as (j & J & _ & Q). apply (NA j J). apply (A j ltac:(lia)). exact Q. }
  exists k, t. split; [reflexivity|]. split; [reflexivity|]. split; [exact NA|]. split; [exact NS|]. intros (_ & _ & A & _). exact (NS A).
Qed.
Print Assumptions C167_mask_refuted.
Definition one : words := Words (Z.shiftl (2 ^ 10) 32 + 2 ^ 15 + 2 ^ 10) 0 0 (fun _ => 0) 0.
(* of 10, allowed, and 15, blocked, both pending for the thread, the blocked one is handled *)
Theorem C167_blocked_refuted : exists s k t, sane s /\ choose s = Picked k t /\ ~ allowed s k /\ thread_waiting s.
Proof.
  exists one, 15, (Words 15 0 0 (fun _ => 0) 0). split; [concrete|]. split; [vm_compute; reflexivity|].
  split; [vm_compute; discriminate|]. exists 10. split; [lia|]. split; vm_compute; reflexivity.
Qed.
Print Assumptions C167_blocked_refuted.
Example C167_mask_case : exists k t, choose one = Picked k t /\ ~ handled_right one t k.
Proof.
  destruct (C167_mask_refuted one) as (k & t & A & _ & _ & _ & B); [|exists k, t; split; assumption].
  exists 10. split; [lia|]. split; vm_compute; reflexivity.
Qed.
(* a realtime signal for the thread: 35 is pending and all are allowed; the number handled is no signal's and the signal stays pending *)
Definition real : words := Words 0 (Z.shiftl (Z.ones 32) 32 + 2 ^ 3) 0 (fun _ => 0) 0.
Theorem C167_realtime_refuted : exists s k t, sane s /\ choose s = Picked k t /\ thread_pending s 35 /\ allowed s 35 /\ 64 <= k /\ thread_pending t 35 /\ ~ handled_right s t k.
Proof.
  destruct (choose real) as [k t | |] eqn:E; [|vm_compute in E; discriminate E..].
  exists real, k, t. split; [concrete|]. vm_compute in E. injection E as <- <-.
  repeat (split; [try (vm_compute; reflexivity); try (vm_compute; discriminate)|]). intros (F & _). lia.
Qed.
Print Assumptions C167_realtime_refuted.
(* the sender of a signal pending for the process is not recorded: the one recorded last stays *)
Theorem C167_sender_refuted : forall s k t, sane s -> ~ thread_waiting s -> process_waiting s -> choose s = Picked k t -> inf t = inf s.
Proof.
  intros s k t S N (k0 & K0 & P0 & A0) C. pose proof (nobody s S N) as E. unfold choose in C. rewrite E in C. cbn [Z.eqb negb] in C.
  set (m := low32 (Z.land (low32 (proc s)) (low32 (Z.shiftr (std s) 32)))) in C.
  assert (NZ : (m =? 0) = false).
  { apply Z.eqb_neq. intros Z0. assert (F : Z.testbit m k0 = false) by (rewrite Z0; apply Z.bits_0). unfold m in F. rewrite low_bit, Z.land_spec, !low_bit, Z.shiftr_spec in F by lia.
    unfold process_pending, allowed in *. destruct (Z.ltb_spec k0 32); [|lia]. rewrite (Z.add_comm 32 k0) in A0. rewrite P0, A0 in F. discriminate F. }
  rewrite NZ in C. cbn [negb] in C. injection C as _ <-. reflexivity.
Qed.
Print Assumptions C167_sender_refuted.
Example C167_sender_case : forall k t, choose two = Picked k t -> inf t = 0.
Proof.
  intros k t C. apply (C167_sender_refuted two k t); [concrete| | |exact C].
  - intros W. apply somebody in W. apply W. vm_compute. reflexivity.
  - exists 10. split; [lia|]. split; vm_compute; reflexivity.
Qed.
