From Coq Require Import ZArith List Bool Lia.
From Verif Require Import Base Conc Word_mem Mktemp_model Mktemp_proofs Waituntil_model Pmutex_model Pmutex_proofs Pmutex_proofs2
  C11threads_model C11threads_spec.
Import ListNotations.
Open Scope Z_scope.

Lemma by_errno_value sp code r : sp <> 0 -> by_errno sp code r = plain r.
Proof. intro N. unfold by_errno, plain, e_errno. destruct (r =? 0); [reflexivity|]. destruct (Z.eqb_spec 0 sp); [congruence|reflexivity]. Qed.

Lemma mtx_ret_plain c r : mtx_ret c r = plain r.
Proof.
  destruct c as [[]| | | | |]; try reflexivity; cbn [mtx_ret]; apply by_errno_value; discriminate.
Qed.

Lemma plain_success r : plain r = thrd_success <-> r = 0.
Proof. unfold plain, thrd_success, thrd_error. destruct (Z.eqb_spec r 0); split; intros; try lia; congruence. Qed.

Lemma success r : (forall c, mtx_ret c r = 0 <-> r = 0) /\ (cnd_timedwait r = 0 <-> r = 0) /\ (thrd_create r = 0 <-> r = 0) /\ (plain r = 0 <-> r = 0).
Proof.
  split; [intro c; rewrite mtx_ret_plain; apply plain_success|].
  unfold cnd_timedwait, thrd_create. rewrite !by_errno_value by discriminate.
  split; [|split]; apply plain_success.
Qed.

Lemma mtx_init_kind kind : mtx_init kind = if Z.odd kind then Recursive else Normal.
Proof.
  unfold mtx_init, mtx_recursive. change 1 with (Z.ones 1) at 1. rewrite Z.land_ones by lia. change (2 ^ 1) with 2.
  rewrite Zmod_odd. destruct (Z.odd kind); reflexivity.
Qed.

Lemma mtx_exclusion kind s t u : reachable (mtx_exec kind) pm_init s -> 0 < held s t -> 0 < held s u -> t = u.
Proof. apply pm_exclusion. Qed.

Lemma mtx_relock kind s t r c : Z.odd kind = true -> reachable (mtx_exec kind) pm_init s ->
  0 < t < 2 ^ 31 -> lp s t = LRet r -> 0 < held s t < 2 ^ 32 - 1 -> (c = LTry \/ exists d, c = LLock d) ->
  exists s1 ls s', mtx_exec kind s (t, c) = Some s1 /\ run (mtx_exec kind) s1 ls = Some s' /\ Forall (fun l => fst l = t) ls /\
    held s' t = held s t + 1 /\ exists r', lp s' t = LRet r' /\ mtx_ret c r' = 0.
Proof.
  intros O R T L H C. unfold mtx_exec in *. rewrite mtx_init_kind, O in *.
  destruct (pm_relock_recursive false s t r c R T L ltac:(lia) C) as (s1 & E & ls & s' & RR & B & _ & [(_ & LR & HH)|(X & _)]); [|lia].
  exists s1, ls, s'. split; [exact E|]. split; [exact RR|]. split.
  - eapply Forall_impl; [|exact B]. intros [x y] Q. unfold by_t in Q. inversion Q. reflexivity.
  - split; [exact HH|]. exists 0. split; [exact LR|]. rewrite mtx_ret_plain. reflexivity.
Qed.

Lemma mtx_trylock_held kind s t u r : reachable (mtx_exec kind) pm_init s ->
  0 < t < 2 ^ 31 -> lp s t = LRet r -> 0 < held s u -> (u <> t \/ Z.odd kind = false) ->
  exists s' r', mtx_exec kind s (t, LTry) = Some s' /\ lp s' t = LRet r' /\ (forall v, held s' v = held s v) /\
    mtx_ret LTry r' = result_for Other.
Proof.
  intros R T L H N. unfold mtx_exec in *.
  destruct (pm_trylock_held (mtx_init kind) false s t u r R T L H) as (s' & E & _ & _ & HH & _ & LR).
  { destruct N as [N|N]; [left; exact N|right]. rewrite mtx_init_kind, N. discriminate. }
  exists s'. eexists. split; [exact E|]. split; [exact LR|]. split; [exact HH|].
  rewrite mtx_ret_plain, mtx_init_kind. destruct (Z.odd kind), (u =? t); reflexivity.
Qed.

Lemma mtx_timeout kind s t s' : lp s t = LAsleep true -> mtx_exec kind s (t, LTimeout) = Some s' ->
  exists r, lp s' t = LRet r /\ mtx_ret (LLock true) r = result_for Other.
Proof.
  intros L E. unfold mtx_exec, pm_exec in E. cbn [fst snd] in E. destruct (negb (valid_tid t)); [discriminate|].
  rewrite L in E. inversion E; subst. exists ETIMEDOUT. split; [cbn [lp]; apply setf_same|reflexivity].
Qed.

(* ---- join ---- *)
Lemma le4_int v b0 b1 b2 b3 l : le_bytes 8 v = b0 :: b1 :: b2 :: b3 :: l ->
  (b0 + 256 * b1 + 65536 * b2 + 16777216 * b3 - v) mod 2 ^ 32 = 0.
Proof.
  cbn [le_bytes]. intro E. injection E as <- <- <- <- _.
  replace (v mod 256 + 256 * ((v / 256) mod 256) + 65536 * ((v / 256 / 256) mod 256) + 16777216 * ((v / 256 / 256 / 256) mod 256) - v)
    with ((- (v / 256 / 256 / 256 / 256)) * 2 ^ 32).
  - apply Z.mod_mul. discriminate.
  - change (2 ^ 32) with 4294967296.
    pose proof (Z.div_mod v 256 ltac:(lia)). pose proof (Z.div_mod (v / 256) 256 ltac:(lia)).
    pose proof (Z.div_mod (v / 256 / 256) 256 ltac:(lia)). pose proof (Z.div_mod (v / 256 / 256 / 256) 256 ltac:(lia)). lia.
Qed.

Lemma join_value m retval v ret : retval <> 0 -> mapped m retval 8 -> (v - ret) mod 2 ^ 32 = 0 ->
  exists m', thrd_join m retval (inl v) = Ok (m', 0) /\ int_at m' retval ret /\ only_changes m m' retval 8.
Proof.
  intros N M V. destruct (st_list_ok (le_bytes 8 v) m retval) as (m' & E & B & F); [rewrite le_bytes_len; exact M|].
  exists m'. unfold thrd_join. destruct (Z.eqb_spec retval 0); [contradiction|]. rewrite E. cbn [bind].
  split; [reflexivity|]. split.
  - pose proof (le_bytes_length 8 v) as LL.
    destruct (le_bytes 8 v) as [|b0 [|b1 [|b2 [|b3 l]]]] eqn:Q; cbn [length] in LL; try discriminate.
    cbn [bytes_at] in B. destruct B as (B0 & B1 & B2 & B3 & _).
    exists b0, b1, b2, b3. split; [exact B0|]. split; [exact B1|].
    split; [rewrite <- B2; f_equal; lia|]. split; [rewrite <- B3; f_equal; lia|].
    pose proof (le4_int _ _ _ _ _ _ Q) as Z1.
    replace (b0 + 256 * b1 + 65536 * b2 + 16777216 * b3 - ret) with
      ((b0 + 256 * b1 + 65536 * b2 + 16777216 * b3 - v) + (v - ret)) by lia.
    rewrite Z.add_mod, Z1, V by discriminate. reflexivity.
  - intros x X. apply F. rewrite le_bytes_len. exact X.
Qed.

Lemma exit_low ret : (thrd_exit ret - ret) mod 2 ^ 32 = 0.
Proof.
  unfold thrd_exit. pose proof (Z.div_mod ret (2 ^ 64) ltac:(discriminate)).
  replace (ret mod 2 ^ 64 - ret) with ((- (2 ^ 32 * (ret / 2 ^ 64))) * 2 ^ 32) by (change (2 ^ 64) with (2 ^ 32 * 2 ^ 32) in *; lia).
  apply Z.mod_mul. discriminate.
Qed.

Lemma join_null m v : thrd_join m 0 (inl v) = Ok (m, 0).
Proof. reflexivity. Qed.
Lemma join_fails m retval err : err <> 0 -> thrd_join m retval (inr err) = Ok (m, result_for Other).
Proof. intro N. unfold thrd_join, plain. destruct (Z.eqb_spec err 0); [contradiction|reflexivity]. Qed.
