From Verif Require Import Base String_model String_proofs Sort_model Sort_spec.

Lemma st_bytes_ok l : forall m a, mapped m a (len l) ->
  exists m', st_bytes m a l = Ok m' /\ stored m m' a l.
Proof.
  induction l as [|b l IH]; intros m a Hm; cbn [st_bytes].
  - exists m. split; [reflexivity|apply stored_nil].
  - rewrite len_cons in Hm. pose proof (len_nonneg l). rewrite st_ok by (apply Hm; lia). cbn [bind].
    destruct (IH (upd m a b) (a + 1)) as [m' [E S]].
    { apply mapped_upd. eapply mapped_sub; [exact Hm|lia|lia]. }
    exists m'. split; [exact E|apply stored_cons; exact S].
Qed.

(** m' is m with l at p1 and k at p2 exchanged *)
Definition swapped (m m' : mem) p1 p2 (l k : list Z) : Prop :=
  bytes_at m' p1 k /\ bytes_at m' p2 l /\
  forall x, ~ (p1 <= x < p1 + len l) -> ~ (p2 <= x < p2 + len l) -> m' x = m x.

Lemma swap_chunk l k m p1 p2 : length l = length k -> disjoint p1 (len l) p2 (len l) ->
  bytes_at m p1 l -> bytes_at m p2 k ->
  exists m1 m2, ld_bytes (length l) m p1 = Ok l /\ copy_fwd (length l) m p1 p2 = Ok m1 /\
    st_bytes m1 p2 l = Ok m2 /\ swapped m m2 p1 p2 l k.
Proof.
  intros Hl Hd B1 B2. assert (HL : len l = len k) by (unfold len; lia). pose proof (len_nonneg l).
  pose proof (bytes_at_mapped _ _ _ B1) as M1. pose proof (bytes_at_mapped _ _ _ B2) as M2.
  destruct (copy_fwd_ok k m p1 p2 B2) as [m1 [E1 S1]]; [rewrite <- HL; exact M1|unfold disjoint in Hd; lia|].
  destruct (st_bytes_ok l m1 p2) as [m2 [E2 S2]].
  { rewrite HL. eapply stored_mapped; eauto. }
  exists m1, m2. split; [apply ld_bytes_ok; exact B1|]. split; [rewrite Hl; exact E1|]. split; [exact E2|].
  split; [|split].
  - eapply stored_frame; [exact S2| |apply S1]. unfold disjoint in *. lia.
  - apply S2.
  - intros x X1 X2. destruct S1 as [_ S1]. destruct S2 as [_ S2]. rewrite S2 by exact X2. apply S1. lia.
Qed.

Lemma swap_loop_ok : forall fuel l k m p1 p2 w, length l = length k -> w = len l -> (length l < fuel)%nat ->
  disjoint p1 w p2 w -> bytes_at m p1 l -> bytes_at m p2 k ->
  exists m', swap_loop fuel m p1 p2 w = Ok m' /\ swapped m m' p1 p2 l k.
Proof.
  induction fuel as [|fuel IH]; intros l k m p1 p2 w Hl -> Hf Hd B1 B2; [lia|]. cbn [swap_loop].
  destruct (Z.ltb_spec 0 (len l)) as [Hp|Hp].
  2:{ assert (l = []) as -> by (destruct l; [reflexivity|rewrite len_cons in Hp; pose proof (len_nonneg l); lia]).
      destruct k; [|discriminate]. exists m. split; [reflexivity|]. split; [exact I|]. split; [exact I|]. auto. }
  unfold BUFSIZE_SWAP. set (c := Z.min 128 (len l)).
  assert (Hc : 0 < c <= len l) by lia. clearbody c.
  set (l1 := firstn (Z.to_nat c) l). set (l2 := skipn (Z.to_nat c) l).
  set (k1 := firstn (Z.to_nat c) k). set (k2 := skipn (Z.to_nat c) k).
  assert (El : l = l1 ++ l2) by (symmetry; apply firstn_skipn).
  assert (Ek : k = k1 ++ k2) by (symmetry; apply firstn_skipn).
  assert (L1 : length l1 = Z.to_nat c) by (unfold l1; rewrite firstn_length; unfold len in Hc; lia).
  assert (K1 : length k1 = Z.to_nat c) by (unfold k1; rewrite firstn_length; unfold len in Hc; lia).
  assert (L1z : len l1 = c) by (unfold len; lia). assert (K1z : len k1 = c) by (unfold len; lia).
  assert (L2 : length l2 = length k2).
  { apply (f_equal (@length Z)) in El, Ek. rewrite app_length in El, Ek. lia. }
  clearbody l1 l2 k1 k2. subst l k.
  apply bytes_at_app in B1. destruct B1 as [B1 B1']. apply bytes_at_app in B2. destruct B2 as [B2 B2'].
  rewrite len_app in *. rewrite L1z in *. rewrite K1z in *. pose proof (len_nonneg l2).
  destruct (swap_chunk l1 k1 m p1 p2) as [m1 [m2 [E0 [E1 [E2 [W1 [W2 W3]]]]]]]; auto; try lia.
  { unfold disjoint in *. lia. }
  rewrite <- L1. rewrite E0. cbn [bind]. rewrite E1. cbn [bind]. rewrite E2. cbn [bind].
  destruct (IH l2 k2 m2 (p1 + c) (p2 + c) (c + len l2 - c)) as [m' [E [V1 [V2 V3]]]]; auto.
  - lia.
  - rewrite app_length in Hf. lia.
  - unfold disjoint in *. lia.
  - eapply bytes_at_ext; [|exact B1']. intros x Hx. apply W3; unfold disjoint in Hd; lia.
  - eapply bytes_at_ext; [|exact B2']. intros x Hx. assert (len k2 = len l2) by (unfold len; lia).
    apply W3; unfold disjoint in Hd; lia.
  - exists m'. split; [exact E|].
    assert (len k2 = len l2) by (unfold len; lia).
    split; [|split].
    + apply bytes_at_app. rewrite K1z. split; [|exact V1]. eapply bytes_at_ext; [|exact W1].
      intros x Hx. apply V3; unfold disjoint in Hd; lia.
    + apply bytes_at_app. rewrite L1z. split; [|exact V2]. eapply bytes_at_ext; [|exact W2].
      intros x Hx. apply V3; unfold disjoint in Hd; lia.
    + intros x X1 X2. rewrite len_app in *. rewrite V3 by lia. apply W3; lia.
Qed.

Lemma swap_ok l k m p1 p2 w : len l = w -> len k = w -> disjoint p1 w p2 w ->
  bytes_at m p1 l -> bytes_at m p2 k ->
  exists m', swap m p1 p2 w = Ok m' /\ swapped m m' p1 p2 l k.
Proof. intros Hl Hk. intros. apply swap_loop_ok; auto; unfold len in *; lia. Qed.

(** ** arrays *)
Lemma len_concat w (rs : list (list Z)) : Forall (fun r => len r = w) rs -> len (concat rs) = len rs * w.
Proof.
  induction rs as [|r rs IH]; intros H; cbn [concat]; [reflexivity|].
  apply Forall_cons_iff in H. destruct H as [H0 H]. rewrite len_app, len_cons, IH by exact H. lia.
Qed.

Lemma array_app m base w rs ss : array m base w (rs ++ ss) <->
  array m base w rs /\ array m (base + len rs * w) w ss.
Proof.
  unfold array. rewrite Forall_app, concat_app, bytes_at_app. split.
  - intros [[F1 F2] [B1 B2]]. rewrite (len_concat w) in B2 by exact F1. tauto.
  - intros [[F1 B1] [F2 B2]]. rewrite (len_concat w) by exact F1. tauto.
Qed.
Lemma array_one m base w r : array m base w [r] <-> len r = w /\ bytes_at m base r.
Proof.
  unfold array. cbn [concat]. rewrite app_nil_r. split.
  - intros [F B]. apply Forall_cons_iff in F. tauto.
  - intros [F B]. repeat constructor; assumption.
Qed.
Lemma array_ext m m' base w rs : (forall x, base <= x < base + len rs * w -> m' x = m x) ->
  array m base w rs -> array m' base w rs.
Proof.
  intros H [F B]. split; [exact F|]. eapply bytes_at_ext; [|exact B]. rewrite (len_concat w) by exact F. exact H.
Qed.

(** Insertion of x after the (reversed) sorted prefix. *)
Fixpoint insr (ord : list Z -> list Z -> Z) (x : list Z) (rp : list (list Z)) : list (list Z) :=
  match rp with
  | [] => [x]
  | y :: rp' => if 0 <? ord y x then y :: insr ord x rp' else x :: y :: rp'
  end.

Section Sorting.
  Context (cmp : comparator) (ord : list Z -> list Z -> Z) (m0 : mem) (base w n : Z).
  Hypothesis Hw : 0 <= w.
  Hypothesis Hcmp : compares cmp m0 base w n ord.
  Definition inside (m : mem) : Prop := forall x, ~ (base <= x < base + n * w) -> m x = m0 x.

  Lemma insert_down_ok x : forall rp post m,
    len rp + 1 + len post = n -> inside m ->
    array m base w (rev rp ++ [x] ++ post) ->
    exists m', insert_down cmp (length rp) m base w = Ok m' /\ inside m' /\
      array m' base w (rev (insr ord x rp) ++ post).
  Proof.
    induction rp as [|y rp IH]; intros post m Hn Hin A; cbn [length insert_down insr].
    { exists m. auto. }
    rewrite len_cons in Hn. pose proof (len_nonneg rp). pose proof (len_nonneg post).
    cbn [rev] in A. rewrite <- app_assoc in A. cbn [app] in A.
    change (y :: x :: post) with ([y] ++ [x] ++ post) in A.
    apply array_app in A. destruct A as [A0 A]. apply array_app in A. destruct A as [Ay A].
    apply array_app in A. destruct A as [Ax Ap].
    assert (Hr : len (rev rp) = len rp) by (unfold len; rewrite rev_length; reflexivity). rewrite Hr in *.
    change (len [y]) with 1 in *. change (len [x]) with 1 in *.
    apply array_one in Ay. destruct Ay as [Ly By]. apply array_one in Ax. destruct Ax as [Lx Bx].
    change (Z.of_nat (length rp)) with (len rp).
    rewrite (Hcmp m (len rp) (len rp + 1) y x); auto; try lia.
    2:{ replace (base + (len rp + 1) * w) with (base + len rp * w + 1 * w) by lia. exact Bx. }
    cbn [bind]. destruct (Z.ltb_spec 0 (ord y x)) as [G|G].
    - destruct (swap_ok y x m (base + len rp * w) (base + (len rp + 1) * w) w) as [m1 [E1 [W1 [W2 W3]]]]; auto.
      { unfold disjoint. lia. }
      { replace (base + (len rp + 1) * w) with (base + len rp * w + 1 * w) by lia. exact Bx. }
      rewrite E1. cbn [bind]. rewrite Ly in W3.
      destruct (IH (y :: post) m1) as [m' [E [Hin' A']]].
      + rewrite len_cons. lia.
      + intros z Hz. rewrite W3; [apply Hin; exact Hz|nia|nia].
      + cbn [app]. change (x :: y :: post) with ([x] ++ [y] ++ post).
        apply array_app. rewrite Hr. split.
        * eapply array_ext; [|exact A0]. rewrite Hr. intros z Hz. apply W3; nia.
        * apply array_app. split; [apply array_one; split; assumption|]. change (len [x]) with 1.
          apply array_app. split.
          -- apply array_one. split; [exact Ly|]. replace (base + len rp * w + 1 * w) with (base + (len rp + 1) * w) by lia. exact W2.
          -- change (len [y]) with 1. eapply array_ext; [|exact Ap]. intros z Hz. apply W3; nia.
      + exists m'. split; [exact E|]. split; [exact Hin'|]. cbn [rev]. rewrite <- app_assoc. exact A'.
    - exists m. split; [reflexivity|]. split; [exact Hin|]. cbn [rev]. rewrite <- !app_assoc.
      apply array_app. rewrite Hr. split; [exact A0|]. cbn [app].
      change (y :: x :: post) with ([y] ++ [x] ++ post).
      apply array_app. split; [apply array_one; split; assumption|]. change (len [y]) with 1.
      apply array_app. split; [apply array_one; split; assumption|]. exact Ap.
  Qed.

  Definition isort (rs : list (list Z)) (rp : list (list Z)) : list (list Z) :=
    fold_left (fun acc x => insr ord x acc) rs rp.

  Lemma insr_length x rp : length (insr ord x rp) = S (length rp).
  Proof. induction rp as [|y rp IH]; cbn; [reflexivity|]. destruct (0 <? ord y x); cbn; lia. Qed.

  Lemma sort_loop_ok : forall post rp m,
    len rp + len post = n -> inside m -> array m base w (rev rp ++ post) ->
    exists m', sort_loop cmp (length post) (length rp) m base w = Ok m' /\ inside m' /\
      array m' base w (rev (isort post rp)).
  Proof.
    induction post as [|x post IH]; intros rp m Hn Hin A; cbn [length sort_loop].
    - exists m. rewrite app_nil_r in A. auto.
    - rewrite len_cons in Hn.
      destruct (insert_down_ok x rp post m) as [m1 [E1 [Hin1 A1]]]; auto; [lia|]. rewrite E1. cbn [bind].
      destruct (IH (insr ord x rp) m1) as [m' [E [Hin' A']]]; auto.
      { unfold len in *. rewrite insr_length. lia. }
      rewrite insr_length in E. exists m'. auto.
  Qed.
End Sorting.

Lemma insr_perm ord x rp : Permutation (x :: rp) (insr ord x rp).
Proof.
  induction rp as [|y rp IH]; cbn [insr]; [constructor; constructor|].
  destruct (0 <? ord y x); [|apply Permutation_refl].
  eapply perm_trans; [apply perm_swap|]. apply perm_skip. exact IH.
Qed.
Lemma isort_perm ord rs : forall rp, Permutation (rp ++ rs) (isort ord rs rp).
Proof.
  induction rs as [|x rs IH]; intros rp; cbn [isort fold_left].
  - rewrite app_nil_r. apply Permutation_refl.
  - eapply perm_trans; [|apply IH]. eapply perm_trans; [apply Permutation_sym, Permutation_middle|].
    change (x :: rp ++ rs) with ((x :: rp) ++ rs). apply Permutation_app_tail, insr_perm.
Qed.

(** sortedness of the reversed prefix *)
Definition geR (ord : list Z -> list Z -> Z) (a b : list Z) : Prop := ord b a <= 0.
Lemma insr_sorted ord all x rp : preorder_on all ord -> In x all -> incl rp all ->
  StronglySorted (geR ord) rp -> StronglySorted (geR ord) (insr ord x rp).
Proof.
  intros P Hx Hi S. pose proof P as [P1 [P2 P3]]. induction rp as [|y rp IH]; cbn [insr].
  - repeat constructor.
  - apply StronglySorted_inv in S. destruct S as [S F].
    assert (Hy : In y all) by (apply Hi; left; reflexivity).
    assert (Hi' : incl rp all) by (intros z Hz; apply Hi; right; exact Hz).
    destruct (Z.ltb_spec 0 (ord y x)) as [G|G].
    + constructor; [apply IH; auto|].
      apply Forall_forall. intros z Hz. apply (Permutation_in _ (Permutation_sym (insr_perm ord x rp))) in Hz.
      destruct Hz as [<-|Hz]; [unfold geR; apply P2 in G; auto; lia|]. rewrite Forall_forall in F. auto.
    + constructor; [constructor; assumption|]. constructor; [exact G|].
      apply Forall_forall. intros z Hz. rewrite Forall_forall in F. unfold geR in *. apply (P3 z y x); auto.
Qed.
Lemma isort_sorted ord all rs : preorder_on all ord -> incl rs all -> forall rp, incl rp all ->
  StronglySorted (geR ord) rp -> StronglySorted (geR ord) (isort ord rs rp).
Proof.
  intros P. induction rs as [|x rs IH]; intros Hi rp Hr S; cbn [isort fold_left]; [exact S|].
  apply IH.
  - intros z Hz. apply Hi. right. exact Hz.
  - intros z Hz. apply (Permutation_in _ (Permutation_sym (insr_perm ord x rp))) in Hz.
    destruct Hz as [<-|Hz]; [apply Hi; left; reflexivity|auto].
  - eapply insr_sorted; eauto. apply Hi. left. reflexivity.
Qed.

Lemma StronglySorted_app {A} (R : A -> A -> Prop) l k : StronglySorted R l -> StronglySorted R k ->
  (forall a b, In a l -> In b k -> R a b) -> StronglySorted R (l ++ k).
Proof.
  induction l as [|x l IH]; intros Sl Sk H; cbn [app]; [exact Sk|].
  apply StronglySorted_inv in Sl. destruct Sl as [Sl F]. constructor.
  - apply IH; auto. intros a b Ha Hb. apply H; [right; exact Ha|exact Hb].
  - apply Forall_app. split; [exact F|]. apply Forall_forall. intros b Hb. apply H; [left; reflexivity|exact Hb].
Qed.
Lemma StronglySorted_rev {A} (R : A -> A -> Prop) l : StronglySorted (fun a b => R b a) l -> StronglySorted R (rev l).
Proof.
  induction l as [|x l IH]; intros S; cbn [rev]; [constructor|].
  apply StronglySorted_inv in S. destruct S as [S F]. apply StronglySorted_app; [auto|repeat constructor|].
  intros a b Ha [<-|[]]. apply in_rev in Ha. rewrite Forall_forall in F. auto.
Qed.

(** stability *)
Lemma insr_stable ord all x rp k : preorder_on all ord -> In x all -> incl rp all -> In k all ->
  filter (fun r => ord k r =? 0) (insr ord x rp) = filter (fun r => ord k r =? 0) (x :: rp).
Proof.
  intros P Hx Hi Hk. pose proof P as [P1 [P2 P3]]. induction rp as [|y rp IH]; cbn [insr]; [reflexivity|].
  assert (Hy : In y all) by (apply Hi; left; reflexivity).
  assert (Hi' : incl rp all) by (intros z Hz; apply Hi; right; exact Hz).
  destruct (Z.ltb_spec 0 (ord y x)) as [G|G]; [|reflexivity].
  cbn [filter] in *. rewrite (IH Hi').
  destruct (Z.eqb_spec (ord k y) 0) as [E1|], (Z.eqb_spec (ord k x) 0) as [E2|]; try reflexivity.
  exfalso. assert (ord y k <= 0) by (destruct (Z_lt_dec 0 (ord y k)) as [L|L]; [apply P2 in L; auto; lia|lia]).
  assert (ord y x <= 0) by (apply (P3 y k x); auto; lia). lia.
Qed.
Lemma filter_rev {A} (f : A -> bool) l : filter f (rev l) = rev (filter f l).
Proof.
  induction l as [|x l IH]; cbn [rev filter]; [reflexivity|]. rewrite filter_app, IH. cbn [filter].
  destruct (f x); cbn [rev]; [reflexivity|apply app_nil_r].
Qed.
Lemma isort_stable ord all rs k : preorder_on all ord -> In k all -> incl rs all -> forall rp, incl rp all ->
  filter (fun r => ord k r =? 0) (rev (isort ord rs rp)) = filter (fun r => ord k r =? 0) (rev rp ++ rs).
Proof.
  intros P Hk. induction rs as [|x rs IH]; intros Hi rp Hr; cbn [isort fold_left].
  - rewrite app_nil_r. reflexivity.
  - change (fold_left (fun acc x => insr ord x acc) rs (insr ord x rp)) with (isort ord rs (insr ord x rp)). rewrite IH.
    + rewrite !filter_app, !filter_rev, (insr_stable ord all x rp k); auto; [|apply Hi; left; reflexivity].
      cbn [filter]. destruct (ord k x =? 0); [|reflexivity]. cbn [rev]. rewrite <- app_assoc. reflexivity.
    + intros z Hz. apply Hi. right. exact Hz.
    + intros z Hz. apply (Permutation_in _ (Permutation_sym (insr_perm ord x rp))) in Hz.
      destruct Hz as [<-|Hz]; [apply Hi; left; reflexivity|auto].
Qed.

Lemma qsort_ok cmp ord m base w rs : 0 <= w ->
  array m base w rs -> compares cmp m base w (len rs) ord ->
  exists m' rs', qsort cmp m base (len rs) w = Ok m' /\
    array m' base w rs' /\ (forall x, ~ (base <= x < base + len rs * w) -> m' x = m x) /\
    Permutation rs rs' /\
    (preorder_on rs ord -> StronglySorted (fun a b => ord a b <= 0) rs' /\ same_order ord rs rs').
Proof.
  intros Hw A C.
  destruct (sort_loop_ok cmp ord m base w (len rs) Hw C rs [] m) as [m' [E [I' A']]]; auto.
  { intros x Hx. reflexivity. }
  exists m', (rev (isort ord rs [])). unfold qsort.
  assert (Q : (if 0 <? len rs then sort_loop cmp (Z.to_nat (len rs)) 0 m base w else Ok m) = Ok m').
  { unfold len at 2. rewrite Nat2Z.id. destruct (Z.ltb_spec 0 (len rs)) as [G|G]; [exact E|].
    assert (rs = []) as -> by (destruct rs as [|r rs]; [reflexivity|rewrite len_cons in G; pose proof (len_nonneg rs); lia]).
    exact E. }
  split; [exact Q|]. split; [exact A'|]. split; [exact I'|]. split.
  { eapply perm_trans; [apply (isort_perm ord rs [])|apply Permutation_rev]. }
  intros P. split.
  - apply StronglySorted_rev. apply (isort_sorted ord rs rs P (incl_refl _)); [intros z []|constructor].
  - intros k Hk. rewrite (isort_stable ord rs rs k P Hk (incl_refl _) []); [reflexivity|intros z []].
Qed.

(** ** bsearch *)
Lemma bsearch_loop_ok cmp f base w N : 
  (forall i, 0 <= i < N -> cmp (base + i * w) = Ok (f i)) -> partitioned f N ->
  forall fuel lo n, 0 <= n -> n < Z.of_nat fuel -> 0 <= lo -> lo + n <= N ->
  (forall i, 0 <= i < N -> f i = 0 -> exists j, lo <= j < lo + n /\ f j = 0) ->
  (exists i, 0 <= i < N /\ f i = 0 /\ bsearch_loop fuel cmp (base + lo * w) w n = Ok (base + i * w)) \/
  ((forall i, 0 <= i < N -> f i <> 0) /\ bsearch_loop fuel cmp (base + lo * w) w n = Ok NULL).
Proof.
  intros Hc Hp. induction fuel as [|fuel IH]; intros lo n Hn Hf Hlo Hhi HI; [lia|]. cbn [bsearch_loop].
  destruct (Z.ltb_spec 0 n) as [G|G].
  - rewrite !Z.shiftr_div_pow2 by lia. change (2 ^ 1) with 2.
    assert (0 <= n / 2 < n) by lia.
    replace (base + lo * w + n / 2 * w) with (base + (lo + n / 2) * w) by lia.
    rewrite Hc by lia. cbn [bind].
    destruct (Z.eqb_spec (f (lo + n / 2)) 0) as [Z0|NZ]; [left; exists (lo + n / 2); repeat split; auto; lia|].
    destruct (Z.ltb_spec 0 (f (lo + n / 2))) as [P|P].
    + replace (base + (lo + n / 2) * w + w) with (base + (lo + n / 2 + 1) * w) by lia.
      apply IH; try lia. intros i Hi Z. destruct (HI i Hi Z) as [j [Hj Zj]]. exists j. split; [|exact Zj].
      destruct (Z_le_dec j (lo + n / 2)); [|lia].
      destruct (Z.eq_dec j (lo + n / 2)); [subst; lia|]. destruct (Hp j (lo + n / 2)) as [Q _]; lia.
    + apply IH; try lia. intros i Hi Z. destruct (HI i Hi Z) as [j [Hj Zj]]. exists j. split; [|exact Zj].
      destruct (Z_lt_dec j (lo + n / 2)); [lia|].
      destruct (Z.eq_dec j (lo + n / 2)); [subst; lia|]. destruct (Hp (lo + n / 2) j) as [_ Q]; lia.
  - right. split; [|reflexivity]. intros i Hi Z. destruct (HI i Hi Z) as [j [Hj _]]. lia.
Qed.

Lemma bsearch_ok cmp f fuel base w n : 0 <= n -> n < Z.of_nat fuel ->
  (forall i, 0 <= i < n -> cmp (base + i * w) = Ok (f i)) -> partitioned f n ->
  (exists i, 0 <= i < n /\ f i = 0 /\ bsearch fuel cmp base n w = Ok (base + i * w)) \/
  ((forall i, 0 <= i < n -> f i <> 0) /\ bsearch fuel cmp base n w = Ok NULL).
Proof.
  intros Hn Hf Hc Hp. unfold bsearch.
  pose proof (bsearch_loop_ok cmp f base w n Hc Hp fuel 0 n) as H.
  replace (base + 0 * w) with base in H by lia. apply H; try lia.
  intros i Hi Z. exists i. split; [lia|exact Z].
Qed.
