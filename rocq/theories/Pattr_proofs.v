(* Lemmas about Pattr_model. *)
From Verif Require Import Base Pattr_spec Pattr_model.

Definition guard_small (c : call) : Prop := match c with SetGuard v => v < 2147483648 | _ => True end.
Lemma s64_ok n : 0 <= n < 18446744073709551616 -> (65536 <=? s64 n) = true <-> 65536 <= n < 9223372036854775808.
Proof.
  intros L. unfold s64. rewrite Z.leb_le. destruct (Z_lt_dec n 9223372036854775808) as [H|H].
  - rewrite Z.mod_small by lia. lia.
  - replace (n + 9223372036854775808) with (n - 9223372036854775808 + 1 * 18446744073709551616) by lia.
    rewrite Z.mod_add, Z.mod_small by lia. lia.
Qed.
Lemma s32_ok v : 0 <= v < 2147483648 -> w64 (s32 v) = v.
Proof. intros L. unfold w64, s32. rewrite (Z.mod_small (v + _)) by lia. rewrite Z.mod_small by lia. lia. Qed.

Ltac eqs := repeat match goal with |- context [?a =? ?b] => destruct (Z.eqb_spec a b) end; cbn [orb].
Lemma perform_code t c : well_typed c -> (snd (perform t c) = 0 <-> accepted c) /\ (~ accepted c -> perform t c = (t, refusal c)).
Proof.
  intros W. destruct c; cbn [perform accepted refusal well_typed] in *;
    unfold setdetachstate, setguardsize, setinheritsched, setschedparam, setschedpolicy, setscope, setstack, setstacksize;
    try solve [eqs; cbn; split; intuition (try lia; try discriminate; try reflexivity)].
  - pose proof (s64_ok n (proj2 W)). destruct (65536 <=? s64 n); cbn; split; intuition discriminate.
  - pose proof (s64_ok n W). destruct (65536 <=? s64 n); cbn; split; intuition discriminate.
Qed.
Lemma perform_get t c x : well_typed c -> guard_small c -> accepted c ->
  get (fst (perform t c)) x = match sets c x with Some v => v | None => get t x end.
Proof.
  intros W G AC. destruct c; cbn [perform accepted well_typed guard_small] in *;
    unfold setdetachstate, setguardsize, setinheritsched, setschedparam, setschedpolicy, setscope, setstack, setstacksize.
  all: try (eqs; try (exfalso; intuition congruence); destruct x; reflexivity).
  - destruct x; try reflexivity. cbn. apply s32_ok. lia.
  - rewrite (proj2 (s64_ok n (proj2 W)) AC). destruct x; reflexivity.
  - rewrite (proj2 (s64_ok n W) AC). destruct x; reflexivity.
Qed.
Lemma accepted_dec c : accepted c \/ ~ accepted c.
Proof. destruct c; cbn; lia. Qed.
Lemma history page x : forall h v, Forall well_typed h -> Forall guard_small h -> has page x h v -> get (performed page h) x = v.
Proof.
  induction h as [|c h IH]; intros v W G H; [inversion H; destruct x; reflexivity|].
  pose proof (Forall_inv W) as W1. pose proof (Forall_inv_tail W) as W2. pose proof (Forall_inv G) as G1. pose proof (Forall_inv_tail G) as G2.
  cbn [performed]. inversion H as [|c' h' v' A S|c' h' v' S H'|c' h' v' A H']; subst.
  - rewrite perform_get by assumption. rewrite S. reflexivity.
  - destruct (accepted_dec c).
    + rewrite perform_get by assumption. rewrite S. apply IH; assumption.
    + rewrite (proj2 (perform_code _ c W1)) by assumption. apply IH; assumption.
  - rewrite (proj2 (perform_code _ c W1)) by assumption. apply IH; assumption.
Qed.
Lemma has_total page x : forall h, exists v, has page x h v.
Proof.
  induction h as [|c h [v IH]]; [eexists; constructor|].
  destruct (sets c x) as [u|] eqn:S; [|exists v; apply has_other; assumption].
  destruct (accepted_dec c); [exists u; apply has_set; assumption|exists v; apply has_refused; assumption].
Qed.
Lemma detach_valid page h : Forall well_typed h -> detachstate (performed page h) = 0 \/ detachstate (performed page h) = 1.
Proof.
  induction h as [|c h IH]; intros W; [right; reflexivity|]. inversion W; subst. specialize (IH H2). cbn [performed].
  destruct c; cbn [perform]; unfold setdetachstate, setguardsize, setinheritsched, setschedparam, setschedpolicy, setscope, setstack, setstacksize;
    eqs; subst; cbn [fst detachstate]; auto; match goal with |- context [if ?b then _ else _] => destruct b; exact IH end.
Qed.
Lemma stacksize_range page h : Forall well_typed h -> 65536 <= stacksize (performed page h) < 9223372036854775808.
Proof.
  induction h as [|c h IH]; intros W; [cbn; lia|]. inversion W; subst. specialize (IH H2). cbn [performed].
  destruct c; cbn [perform]; unfold setdetachstate, setguardsize, setinheritsched, setschedparam, setschedpolicy, setscope, setstack, setstacksize;
    try (eqs; exact IH).
  - pose proof (s64_ok n (proj2 H1)). destruct (65536 <=? s64 n); [cbn [fst stacksize]; intuition|exact IH].
  - pose proof (s64_ok n H1). destruct (65536 <=? s64 n); [cbn [fst stacksize]; intuition|exact IH].
Qed.

Lemma next_ok n page : 0 < page < 4294967296 -> 0 <= n < 9223372036854775808 ->
  n <= next_multiple_of n page < n + page /\ next_multiple_of n page mod page = 0 /\ (n mod page = 0 -> next_multiple_of n page = n).
Proof.
  intros P N. unfold next_multiple_of. pose proof (Z.mod_pos_bound n page ltac:(lia)). destruct (Z.eqb_spec (n mod page) 0) as [E|E]; [split; [lia|split; auto]|].
  unfold w64. rewrite Z.mod_small by lia. split; [lia|]. split; [|lia].
  rewrite (Z.div_mod n page) at 1 by lia.
  replace (page * (n / page) + n mod page + (page - n mod page)) with ((n / page + 1) * page) by lia. apply Z.mod_mul. lia.
Qed.

(* the seven words below the end of the stack of n bytes at b, from sp upwards *)
Definition laid (ws : list (Z * Z)) (sp : Z) (vs : list Z) : Prop := map snd ws = vs /\ map fst ws = map (fun i => sp + 8 * Z.of_nat i) (seq 0 (length vs)).

Lemma create_ok page h own mmap tcb clone start arg mutex shim :
  0 < page < 4294967296 -> Forall well_typed h -> let t := performed page h in
  own = negb (stack t =? 0) -> (own = true -> stacksize t mod page = 0) ->
  exists r n, stacksize t <= n < stacksize t + page /\ n mod page = 0 /\ (own = true -> n = stacksize t)
    /\ create page (Some t) mmap tcb clone start arg mutex shim = Ok r
    /\ let b := if own then stack t else mmap n in
       (code r = 0 -> exists c, tcb = Some c /\ clone = true /\ laid (words r) (sp r) [shim; start; arg; c; mutex; 0; 0]
          /\ base r = b /\ size r = n /\ (flags r = 1 <-> detachstate t = 0) /\ unmapped r = [] /\ sp r = b + n - 56)
       /\ (code r <> 0 -> (code r = 11 /\ (b = -1 /\ own = false \/ clone = false) \/ code r = 12 /\ tcb = None)
           /\ (own = false -> unmapped r = if b =? -1 then [] else [(b, n)]))
       /\ (forall a v, In (a, v) (words r) -> b <= a /\ a + 8 <= b + n).
Proof.
  intros P W t O M. pose proof (detach_valid page h W) as D. pose proof (stacksize_range page h W) as R. fold t in D, R.
  destruct (next_ok (stacksize t) page P ltac:(lia)) as (N1 & N2 & N3).
  unfold create. set (n := next_multiple_of (stacksize t) page) in *. assert (N0 : 65536 <= n) by lia. clearbody n.
  assert (DB : negb ((detachstate t =? 0) || (detachstate t =? 1)) = false) by (destruct D as [-> | ->]; reflexivity).
  rewrite DB. rewrite O. destruct (Z.eqb_spec (stack t) 0) as [S|S]; cbn [negb andb].
  - destruct (Z.eqb_spec (mmap n) (-1)) as [E|E].
    + eexists. exists n. split; [exact N1|]. split; [exact N2|]. split; [discriminate|]. split; [reflexivity|]. cbn.
      split; [discriminate|]. split; [|intros a v []]. intros _. split; [left; auto|]. intros _. destruct (Z.eqb_spec (mmap n) (-1)); [reflexivity|contradiction].
    + destruct tcb as [c|]; [destruct clone|]; cbn [push]; eexists; exists n; (split; [exact N1|]); (split; [exact N2|]); (split; [rewrite O in M; intros Q; try discriminate Q; apply N3, M, Q|]); (split; [reflexivity|]); cbn [code words sp unmapped flags base size].
      * split; [|split]; [intros _; exists c; unfold laid; cbn; repeat split; auto; try lia; try (repeat (apply (f_equal2 (@cons Z)); [lia|]); reflexivity)
          |congruence|intros a v [H|[H|[H|[H|[H|[H|[H|[]]]]]]]]; injection H as <- <-; lia].
        all: destruct (Z.eqb_spec (detachstate t) 0); intuition lia.
      * split; [discriminate|split]; [intros _; split; [left; auto|intros _; destruct (Z.eqb_spec (mmap n) (-1)); [contradiction|reflexivity]]|intros a v [H|[H|[H|[H|[H|[H|[H|[]]]]]]]]; injection H as <- <-; lia].
      * split; [discriminate|split]; [intros _; split; [right; auto|intros _; destruct (Z.eqb_spec (mmap n) (-1)); [contradiction|reflexivity]]|intros a v []].
  - destruct tcb as [c|]; [destruct clone|]; cbn [push]; eexists; exists n; (split; [exact N1|]); (split; [exact N2|]); (split; [rewrite O in M; intros Q; try discriminate Q; apply N3, M, Q|]); (split; [reflexivity|]); cbn [code words sp unmapped flags base size].
      * split; [|split]; [intros _; exists c; unfold laid; cbn; repeat split; auto; try lia; try (repeat (apply (f_equal2 (@cons Z)); [lia|]); reflexivity)
          |congruence|intros a v [H|[H|[H|[H|[H|[H|[H|[]]]]]]]]; injection H as <- <-; lia].
        all: destruct (Z.eqb_spec (detachstate t) 0); intuition lia.
      * split; [discriminate|split]; [intros _; split; [left; auto|discriminate]|intros a v [H|[H|[H|[H|[H|[H|[H|[]]]]]]]]; injection H as <- <-; lia].
      * split; [discriminate|split]; [intros _; split; [right; auto|discriminate]|intros a v []].
Qed.
Lemma getattr_ok page h mmap tcb clone start arg mutex shim r : 0 < page < 4294967296 -> Forall well_typed h ->
  let t := performed page h in stacksize t mod page = 0 ->
  create page (Some t) mmap tcb clone start arg mutex shim = Ok r -> code r = 0 ->
  get (getattr_np page r) Detach = get t Detach /\ get (getattr_np page r) Stacksize = get t Stacksize
  /\ (get t Stackaddr <> 0 -> get (getattr_np page r) Stackaddr = get t Stackaddr).
Proof.
  intros P W t M E Z0. destruct (create_ok page h (negb (stack t =? 0)) mmap tcb clone start arg mutex shim P W eq_refl (fun _ => M)) as (r' & n & N1 & N2 & _ & E' & H & _).
  fold t in E', H, N1. rewrite E in E'. injection E' as <-. destruct (H Z0) as (c & _ & _ & _ & B & S & F & _).
  cbn [get getattr_np detachstate stacksize stack].
  pose proof (detach_valid page h W) as D. fold t in D. split; [|split].
  - assert (FL : flags r = if detachstate t =? 0 then 1 else 0).
    { clear - E Z0. unfold create in E. destruct ((stack t =? 0) && _); [injection E as <-; discriminate|]. destruct (negb _); [discriminate|].
      destruct tcb; [|injection E as <-; discriminate]. cbn [push] in E. destruct clone; injection E as <-; [reflexivity|discriminate]. }
    rewrite FL. destruct D as [-> | ->]; reflexivity.
  - rewrite S. assert (n mod page = 0 /\ stacksize t <= n < stacksize t + page) as [X Y] by auto.
    pose proof (Z.div_mod n page ltac:(lia)) as Q1. pose proof (Z.div_mod (stacksize t) page ltac:(lia)) as Q2.
    rewrite X in Q1. rewrite M in Q2. revert Y Q1 Q2. generalize (n / page) (stacksize t / page). intros u v Y Q1 Q2. assert (u = v) by nia. subst u. lia.
  - intros SN. rewrite B. destruct (Z.eqb_spec (stack t) 0); [contradiction|reflexivity].
Qed.
