From Verif Require Import Base Sigwait_model Sigwait_spec.
Open Scope Z_scope.

Lemma find_first (f : Z -> bool) n : forall a, match List.find f (map Z.of_nat (seq a n)) with
  | Some i => f i = true /\ Z.of_nat a <= i < Z.of_nat a + Z.of_nat n /\ forall j, Z.of_nat a <= j < i -> f j = false
  | None => forall j, Z.of_nat a <= j < Z.of_nat a + Z.of_nat n -> f j = false
  end.
Proof.
  induction n as [|n IH]; intro a; cbn [seq map List.find]; [intros; lia|]. destruct (f (Z.of_nat a)) eqn:F; [repeat split; try assumption; lia|].
  specialize (IH (S a)). destruct (List.find f (map Z.of_nat (seq (S a) n))) as [i|].
  - destruct IH as (A & B & C). split; [exact A|]. split; [lia|]. intros j J. destruct (Z.eq_dec j (Z.of_nat a)) as [->|]; [exact F|]. apply C. lia.
  - intros j J. destruct (Z.eq_dec j (Z.of_nat a)) as [->|]; [exact F|]. apply IH. lia.
Qed.
Lemma lowest_ok f : match lowest f with
  | Some i => f i = true /\ 0 <= i < 64 /\ forall j, 0 <= j < i -> f j = false
  | None => forall j, 0 <= j < 64 -> f j = false
  end.
Proof. exact (find_first f 64 0). Qed.

Lemma group i : 0 <= i < 64 -> (i / 32 =? 1) = (32 <=? i).
Proof. intro B. destruct (Z.leb_spec 32 i); [apply Z.eqb_eq|apply Z.eqb_neq]; pose proof (Z.div_mod i 32 ltac:(lia)); pose proof (Z.mod_pos_bound i 32 ltac:(lia)); lia. Qed.
Lemma clear_eq f i j : clear f i j = if Z.eq_dec j i then false else f j.
Proof. unfold clear. destruct (Z.eqb_spec j i); destruct (Z.eq_dec j i); congruence. Qed.

Section any.
Variables (e : env) (nap : (Z -> bool) -> state -> state * slept) (set : Z -> bool) (K : keeps e).
Notation ev := (evolves e nap set).
Definition good (s s' : state) (r : option info) : Prop :=
  match r with
  | None => ev s s'
  | Some x => (1 <= signo x <= 64 /\ set (signo x - 1) = true) /\ exists s1, ev s s1 /\ takes s1 s' x
  end.
Lemma single_ok s0 n s i t : ev s0 s -> 0 <= i < 64 -> set i = true -> (t = true -> thread s i = true) ->
  let '(_, s', r) := try_claim_single e n s i t in good s0 s' r /\ (r = None -> forall j, thread s j = true -> thread s' j = true).
Proof.
  intros E B SI T. unfold try_claim_single. rewrite group by exact B. pose proof (ev_env _ _ _ _ n _ E) as E1. pose proof (ev_env _ _ _ _ (S n) _ E1) as E2.
  assert (P : forall c p u a, 1 <= signo (Info (i + 1) c p u a) <= 64 /\ set (signo (Info (i + 1) c p u a) - 1) = true).
  { intros. cbn [signo]. replace (i + 1 - 1) with i by lia. split; [lia|exact SI]. }
  destruct t; cbn [negb].
  - rewrite andb_false_r. destruct (if i <? 32 then _ else _) as [p u]. split; [|discriminate]. split; [apply P|]. exists (e (S n) (e n s)). split; [exact E2|].
    apply takes_thread with (i := i); cbn [signo thread process queue]; auto; [apply clear_eq|split; reflexivity].
  - rewrite andb_true_r. destruct (Z.leb_spec 32 i).
    + destruct (queue (e n s) i) as [|[[[c p] u] a] q] eqn:Q.
      * split; [exact E1|]. intros _ j J. apply K. exact J.
      * split; [|discriminate]. split; [apply P|]. exists (e n s). split; [exact E1|]. apply takes_queue with (i := i) (q := q); cbn [signo code pid uid value thread process queue]; auto.
        -- intro j. unfold set_queue. destruct (Z.eqb_spec j i); destruct (Z.eq_dec j i); congruence.
        -- intro j. destruct q; [apply clear_eq|]. destruct (Z.eq_dec j i); reflexivity.
        -- split; reflexivity.
    + destruct (process_sender (e n s) i) as [p u]. destruct (process (e (S n) (e n s)) i) eqn:Q.
      * split; [|discriminate]. split; [apply P|]. exists (e (S n) (e n s)). split; [exact E2|]. apply takes_process with (i := i); cbn [signo thread process queue]; auto; [apply clear_eq|split; reflexivity].
      * split; [exact E2|]. intros _ j J. apply K, K. exact J.
Qed.
Lemma multiple_ok fuel s0 : forall n s pp tp, ev s0 s -> (forall i, tp i = true -> thread s i = true) ->
  let '(_, s', r) := try_claim_multiple fuel e n s pp tp set in good s0 s' r.
Proof.
  induction fuel as [|fuel IH]; intros n s pp tp E T; [exact E|]. cbn [try_claim_multiple]. pose proof (lowest_ok (fun i => (pp i || tp i) && set i)) as L.
  destruct (lowest (fun i => (pp i || tp i) && set i)) as [i|]; [|exact E]. destruct L as (A & B & _). apply andb_prop in A. destruct A as [_ SI]. rewrite SI, !andb_true_r.
  assert (R : forall n s (T : forall j, clear tp i j = true -> thread s j = true), ev s0 s ->
    let '(_, s', r) := (let '(n, s, r) := if pp i then try_claim_single e n s i false else (n, s, None) in
      match r with Some x => (n, s, Some x) | None => try_claim_multiple fuel e n s (clear pp i) (clear tp i) set end) in good s0 s' r).
  { intros n1 s1 T1 E1. destruct (pp i).
    - pose proof (single_ok s0 n1 s1 i false E1 B SI ltac:(discriminate)) as X. destruct (try_claim_single e n1 s1 i false) as [[n2 s2] [x|]]; destruct X as [X Y]; [exact X|].
      apply IH; [exact X|]. intros j J. apply Y; [reflexivity|]. apply T1. exact J.
    - apply IH; [exact E1|exact T1]. }
  assert (CT : forall j, clear tp i j = true -> tp j = true) by (intros j; rewrite clear_eq; destruct (Z.eq_dec j i); [discriminate|auto]).
  destruct (tp i) eqn:TI.
  - pose proof (single_ok s0 n s i true E B SI (fun _ => T i TI)) as X. destruct (try_claim_single e n s i true) as [[n2 s2] [x|]]; destruct X as [X Y]; [exact X|].
    apply R; [|exact X]. intros j J. apply Y; [reflexivity|]. apply T, CT, J.
  - apply R; [|exact E]. intros j J. apply T, CT, J.
Qed.
Lemma await_ok n s : let '(_, s', r) := await_signal_sync e nap n s set in good s s' (match r with inl x => Some x | inr _ => None end).
Proof.
  unfold await_signal_sync. pose proof (ev_refl e nap set s) as E0. pose proof (ev_env _ _ _ _ n _ E0) as E1. pose proof (ev_env _ _ _ _ (S n) _ E1) as E2.
  pose proof (multiple_ok 65 s (S (S n)) (e (S n) (e n s)) (process (e n s)) (thread (e (S n) (e n s))) E2 (fun _ H => H)) as X.
  destruct (try_claim_multiple 65 e (S (S n)) (e (S n) (e n s)) (process (e n s)) (thread (e (S n) (e n s))) set) as [[n1 s1] [x|]]; [exact X|].
  cbn [good] in X. pose proof (ev_nap _ _ _ _ _ X) as E3. destruct (nap set s1) as [s2 r]. cbn [fst] in E3. pose proof (ev_env _ _ _ _ n1 _ E3) as E4. pose proof (ev_env _ _ _ _ (S n1) _ E4) as E5.
  pose proof (multiple_ok 65 s (S (S n1)) (e (S n1) (e n1 s2)) (process (e (S n1) (e n1 s2))) (thread (e n1 s2)) E5 (fun i H => K (S n1) _ i H)) as Y.
  destruct (try_claim_multiple 65 e (S (S n1)) (e (S n1) (e n1 s2)) (process (e (S n1) (e n1 s2))) (thread (e n1 s2)) set) as [[n3 s3] [x|]]; destruct r; auto.
Qed.
End any.

(* nothing else happens *)
Definition sender (s : state) (i : Z) (x : info) : Prop :=
  if thread s i then (i < 32 -> (pid x, uid x) = thread_sender s i) else if 32 <=? i then exists q, queue s i = (code x, pid x, uid x, value x) :: q else (pid x, uid x) = process_sender s i.
Lemma quiet_some fuel n s set i : queued s -> first s set i ->
  exists n' s' x, try_claim_multiple (S fuel) quiet n s (process s) (thread s) set = (n', s', Some x) /\ takes s s' x /\ signo x = i + 1 /\ sender s i x.
Proof.
  intros Q ((B & SI & W) & F). cbn [try_claim_multiple]. pose proof (lowest_ok (fun i => (process s i || thread s i) && set i)) as L.
  destruct (lowest _) as [j|]; [|specialize (L i B); cbv beta in L; rewrite SI, andb_true_r in L; apply orb_false_iff in L; destruct L; destruct W; congruence].
  destruct L as (A & BJ & LO). apply andb_prop in A. destruct A as [A SJ]. assert (J : j = i).
  { assert (i <= j) by (apply F; repeat split; try assumption; try lia; apply orb_prop in A; tauto). destruct (Z.eq_dec j i) as [|N]; [assumption|]. specialize (LO i ltac:(lia)). cbv beta in LO.
    rewrite SI, andb_true_r in LO. apply orb_false_iff in LO. destruct LO; destruct W; congruence. }
  subst j. rewrite SI, !andb_true_r. unfold sender. unfold try_claim_single. rewrite group by exact B. cbn [negb]. rewrite andb_false_r, andb_true_r. unfold quiet.
  destruct (thread s i) eqn:T.
  - destruct (if i <? 32 then _ else _) as [p u] eqn:PU. do 3 eexists. split; [reflexivity|]. split; [|split; [reflexivity|]].
    + apply takes_thread with (i := i); cbn [signo thread process queue]; auto; [apply clear_eq|split; reflexivity].
    + intro I32. rewrite (proj2 (Z.ltb_lt _ _) I32) in PU. symmetry. exact PU.
  - destruct W as [W|W]; [discriminate|]. rewrite W. destruct (Z.leb_spec 32 i).
    + destruct (queue s i) as [|[[[c p] u] a] q] eqn:QI; [destruct (Q i ltac:(lia) W QI)|]. do 3 eexists. split; [reflexivity|]. split; [|split; [reflexivity|eexists; reflexivity]].
      apply takes_queue with (i := i) (q := q); cbn [signo code pid uid value thread process queue]; auto.
      * intro j. unfold set_queue. destruct (Z.eqb_spec j i); destruct (Z.eq_dec j i); congruence.
      * intro j. destruct q; [apply clear_eq|]. destruct (Z.eq_dec j i); reflexivity.
      * split; reflexivity.
    + destruct (process_sender s i) as [p u] eqn:PU. do 3 eexists. split; [reflexivity|]. split; [|split; [reflexivity|reflexivity]].
      apply takes_process with (i := i); cbn [signo thread process queue]; auto; [apply clear_eq|split; reflexivity].
Qed.
Lemma none_lowest s set : none s set -> lowest (fun i => (process s i || thread s i) && set i) = None.
Proof.
  intro N. pose proof (lowest_ok (fun i => (process s i || thread s i) && set i)) as L. destruct (lowest _) as [j|]; [|reflexivity]. destruct L as (A & B & _). apply andb_prop in A. destruct A as [A S0].
  exfalso. apply (N j). repeat split; try assumption; try lia; apply orb_prop in A; tauto.
Qed.
Lemma quiet_none fuel n s set : none s set -> try_claim_multiple fuel quiet n s (process s) (thread s) set = (n, s, None).
Proof. intro N. destruct fuel; [reflexivity|]. cbn [try_claim_multiple]. rewrite none_lowest by exact N. reflexivity. Qed.
Lemma none_sleep s set : none s set -> lowest (fun i => (thread s i || process s i) && set i) = None.
Proof.
  intro N. pose proof (lowest_ok (fun i => (thread s i || process s i) && set i)) as L. destruct (lowest _) as [j|]; [|reflexivity]. destruct L as (A & B & _). apply andb_prop in A. destruct A as [A S0].
  exfalso. apply (N j). repeat split; try assumption; try lia; apply orb_prop in A; tauto.
Qed.
Lemma some_sleep hs s set i : waiting s set i -> sleep hs set s = (s, Interrupted).
Proof.
  intros (B & SI & W). pose proof (lowest_ok (fun i => (thread s i || process s i) && set i)) as L. destruct hs; cbn [sleep]; (destruct (lowest _) as [j|]; [reflexivity|]);
    specialize (L i B); cbv beta in L; rewrite SI, andb_true_r in L; apply orb_false_iff in L; destruct L; destruct W; congruence.
Qed.
Fixpoint after (hs : list (state -> state)) (s : state) : state := match hs with [] => s | h :: hs => after hs (h s) end.
Lemma sleep_skip hs rest set : forall s, (forall k, (k < length hs)%nat -> none (after (firstn k hs) s) set) -> sleep (hs ++ rest) set s = sleep rest set (after hs s).
Proof.
  induction hs as [|h hs IH]; intros s N; [reflexivity|]. cbn [app sleep after]. rewrite none_sleep by exact (N 0%nat ltac:(cbn; lia)). apply IH. intros k B. exact (N (S k) ltac:(cbn; lia)).
Qed.
Lemma await_quiet nap n s set : await_signal_sync quiet nap n s set =
  match try_claim_multiple 65 quiet (S (S n)) s (process s) (thread s) set with
  | (n, s, Some x) => (n, s, inl x)
  | (n, s, None) =>
      match nap set s with
      | (s, Refused err) => (S (S n), s, inr err)
      | (s, _) => match try_claim_multiple 65 quiet (S (S n)) s (process s) (thread s) set with (n, s, Some x) => (n, s, inl x) | (n, s, None) => (n, s, inr EAGAIN) end
      end
  end.
Proof.
  unfold await_signal_sync. cbv zeta. change (quiet n s) with s. change (quiet (S n) s) with s.
  destruct (try_claim_multiple 65 quiet (S (S n)) s (process s) (thread s) set) as [[n1 s1] [x|]]; [reflexivity|]. destruct (nap set s1) as [s2 [| |]]; reflexivity.
Qed.
