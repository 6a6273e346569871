From Verif Require Import Base Brk_model Brk_spec.
Open Scope Z_scope.

Definition place (base : Z) : Prop := 0 < base /\ base + BRK_MAX_SIZE < 2 ^ 63.
(* the states calls lead to *)
Definition before (s : state) : Prop := s = start.
Definition at_break (base cur : Z) (s : state) : Prop := BRK_CUR s = cur /\ BRK_END s = base + BRK_MAX_SIZE /\ (BRK s = NULL \/ BRK s = cur) /\ base <= cur < base + BRK_MAX_SIZE.
Definition breaks (base cur : Z) (s : state) : Prop := at_break base cur s \/ before s /\ cur = base.

Lemma small base cur : place base -> base <= cur <= base + BRK_MAX_SIZE -> ptr cur = cur /\ 0 < cur.
Proof. unfold place, ptr. intros (A & B) C. split; [|lia]. apply Z.mod_small. change (2 ^ 63) with 9223372036854775808 in B. change (2 ^ 64) with 18446744073709551616. lia. Qed.
Lemma size_pos : 0 < BRK_MAX_SIZE.
Proof. reflexivity. Qed.
Lemma sys_first base s cur a : place base -> breaks base cur s -> exists s', at_break base cur s' /\ BRK s' = BRK s /\ sys_brk (inl base) s a =
  if a =? NULL then (s', inl cur) else if (cur <=? a) && (a <? base + BRK_MAX_SIZE) then (State (BRK s') a (base + BRK_MAX_SIZE), inl a) else (s', inr ENOMEM).
Proof.
  intros P [A|[-> ->]].
  - pose proof A as (C & E & _ & R). exists s. split; [exact A|]. split; [reflexivity|]. unfold sys_brk. rewrite (proj2 (Z.eqb_neq (BRK_CUR s) NULL)) by (unfold NULL; destruct P; lia).
    rewrite C, E. reflexivity.
  - exists (State NULL base (base + BRK_MAX_SIZE)). pose proof size_pos. split; [repeat split; cbn; auto; lia|]. split; [reflexivity|]. unfold sys_brk. cbn [start BRK_CUR BRK]. change (NULL =? NULL) with true. cbv iota.
    rewrite (proj1 (small base (base + BRK_MAX_SIZE) P ltac:(lia))). reflexivity.
Qed.
Lemma sbrk_ok base cur s i : place base -> breaks base cur s -> 0 <= i < 2 ^ 63 -> exists s', 
  sbrk (inl base) (inl base) s i = (if (i =? 0) || (cur + i <? base + BRK_MAX_SIZE) then (s', cur, None) else (s', FAILED, Some ENOMEM)) /\
  breaks base (if (i =? 0) || (cur + i <? base + BRK_MAX_SIZE) then cur + i else cur) s'.
Proof.
  intros P B I. unfold sbrk.
  assert (X : exists s', at_break base cur s' /\ BRK s' = cur /\ (if BRK s =? NULL then let (s, r) := sys_brk (inl base) s NULL in let (b, e) := or_null r in (set_brk s b, e) else (s, None)) = (s', None)).
  { destruct (Z.eqb_spec (BRK s) NULL) as [N|N].
    - destruct (sys_first base s cur NULL P B) as (s' & A & _ & E). rewrite E. change (NULL =? NULL) with true. cbv iota. cbn [or_null]. destruct A as (A1 & A2 & A3 & A4). exists (set_brk s' cur).
      split; [repeat split; cbn [set_brk BRK BRK_CUR BRK_END]; auto; lia|]. split; reflexivity.
    - destruct B as [A|[-> _]]; [|destruct N; reflexivity]. exists s. split; [exact A|]. destruct A as (_ & _ & [Z0|Z0] & _); [contradiction|]. auto. }
  destruct X as (s1 & A & C & E). rewrite E. rewrite C. clear E. destruct (Z.eqb_spec i 0) as [->|NI].
  - exists s1. split; [reflexivity|]. cbn [orb]. replace (cur + 0) with cur by lia. left. exact A.
  - cbn [orb]. destruct (sys_first base s1 cur (ptr (cur + i)) P (or_introl A)) as (s2 & A2 & C2 & E2). rewrite E2. clear E2. pose proof A as (_ & _ & _ & R).
    assert (PI : ptr (cur + i) = cur + i).
    { unfold ptr. apply Z.mod_small. destruct P. change (2 ^ 63) with 9223372036854775808 in *. change (2 ^ 64) with 18446744073709551616. lia. }
    rewrite PI. destruct P as [P1 P2]. rewrite (proj2 (Z.eqb_neq (cur + i) NULL)) by (unfold NULL; lia). rewrite (proj2 (Z.leb_le cur (cur + i))) by lia. cbn [andb].
    destruct (Z.ltb_spec (cur + i) (base + BRK_MAX_SIZE)).
    + cbn [or_null set_brk BRK]. rewrite Z.ltb_irrefl. eexists. split; [reflexivity|]. left. repeat split; cbn [BRK BRK_CUR BRK_END]; auto; lia.
    + cbn [or_null set_brk BRK]. rewrite (proj2 (Z.ltb_lt NULL (cur + i))) by (unfold NULL; lia). eexists. split; [reflexivity|]. left. destruct A2 as (A21 & A22 & A23 & A24). repeat split; cbn [BRK BRK_CUR BRK_END]; auto; lia.
Qed.
Definition shown (o : option Z) : Z := match o with Some a => a | None => FAILED end.
Lemma sbrks_ok base incrs : forall cur s, place base -> breaks base cur s -> Forall (fun i => 0 <= i < 2 ^ 63) incrs ->
  snd (sbrks (inl base) s incrs) = map shown (grants (base + BRK_MAX_SIZE) cur incrs).
Proof.
  induction incrs as [|i incrs IH]; intros cur s P B F; [reflexivity|]. inversion F; subst. cbn [sbrks grants]. destruct (sbrk_ok base cur s i P B ltac:(assumption)) as (s' & E & B').
  rewrite E. destruct ((i =? 0) || (cur + i <? base + BRK_MAX_SIZE)); specialize (IH _ s' P B' ltac:(assumption)); destruct (sbrks (inl base) s' incrs) as [s2 l]; cbn [snd map shown] in IH |- *; rewrite IH; reflexivity.
Qed.
Lemma grants_from limit incrs : forall cur k a i, Forall (fun i => 0 <= i < 2 ^ 63) incrs -> cur < limit -> nth_error (grants limit cur incrs) k = Some (Some a) -> nth_error incrs k = Some i -> cur <= a /\ a + i < limit.
Proof.
  induction incrs as [|j incrs IH]; intros cur k a i F L G N; [destruct k; discriminate|]. inversion F; subst. cbn [grants] in G. destruct ((j =? 0) || (cur + j <? limit)) eqn:E.
  - assert (cur + j < limit) by (apply orb_prop in E; destruct E as [E|E]; [apply Z.eqb_eq in E|apply Z.ltb_lt in E]; lia). destruct k as [|k]; cbn [nth_error] in G, N.
    + assert (cur = a /\ j = i) as [<- <-] by (split; congruence). lia.
    + destruct (IH (cur + j) k a i ltac:(assumption) ltac:(assumption) G N). lia.
  - destruct k as [|k]; cbn [nth_error] in G, N; [discriminate|]. exact (IH cur k a i ltac:(assumption) L G N).
Qed.
Lemma grants_apart limit incrs : forall cur k l a b i, Forall (fun i => 0 <= i < 2 ^ 63) incrs -> cur < limit -> (k < l)%nat -> nth_error (grants limit cur incrs) k = Some (Some a) -> nth_error incrs k = Some i ->
  nth_error (grants limit cur incrs) l = Some (Some b) -> a + i <= b.
Proof.
  induction incrs as [|j incrs IH]; intros cur k l a b i F L K G N H; [destruct k; discriminate|]. inversion F; subst. cbn [grants] in G, H.
  assert (LL : forall cur l b, nth_error (grants limit cur incrs) l = Some (Some b) -> exists m, nth_error incrs l = Some m).
  { intros c l0 b0 X. destruct (nth_error incrs l0) as [m|] eqn:E; [eauto|]. apply nth_error_None in E. assert (GL : forall incrs c, List.length (grants limit c incrs) = List.length incrs).
    { clear. induction incrs as [|x r IH]; intro c; [reflexivity|]. cbn [grants]. destruct (_ || _); cbn [List.length]; rewrite IH; reflexivity. }
    assert (nth_error (grants limit c incrs) l0 = None) by (apply nth_error_None; rewrite GL; exact E). congruence. }
  destruct l as [|l]; [lia|]. destruct ((j =? 0) || (cur + j <? limit)) eqn:E.
  - assert (cur + j < limit) by (apply orb_prop in E; destruct E as [E|E]; [apply Z.eqb_eq in E|apply Z.ltb_lt in E]; lia). destruct k as [|k]; cbn [nth_error] in G, N, H.
    + assert (cur = a /\ j = i) as [<- <-] by (split; congruence). destruct (LL _ _ _ H) as (m & M). destruct (grants_from limit incrs (cur + j) l b m ltac:(assumption) ltac:(assumption) H M). lia.
    + apply (IH (cur + j) k l a b i); try assumption. lia.
  - destruct k as [|k]; cbn [nth_error] in G, N, H; [discriminate|]. apply (IH cur k l a b i); try assumption. lia.
Qed.
