From Verif Require Import Base Strto_model Printf_model Cvec_model Cvec_spec.

Section A.
Variables (place : heap -> Z -> option Z) (move : heap -> Z -> Z -> option Z) (junk : Z -> Z -> Z).
Hypothesis GOOD : good_allocator place move.

Lemma get_put h p b q : get (put h p b) q = if q =? p then Some b else get h q.
Proof. reflexivity. Qed.
Lemma get_del h p q : get (del h p) q = if q =? p then None else get h q.
Proof.
  induction h as [|[r b] h IH]; cbn [del filter fst get]; [destruct (q =? p); reflexivity|]. fold (del h p).
  destruct (Z.eqb_spec p r) as [->|N]; cbn [negb get].
  - rewrite IH. destruct (q =? r); reflexivity.
  - rewrite IH. destruct (Z.eqb_spec q r); [subst; destruct (Z.eqb_spec r p); [congruence|reflexivity]|reflexivity].
Qed.
Lemma fresh_len p from size : from <= size -> len (fresh_bytes junk p from size) = size - from.
Proof. intros H. unfold fresh_bytes, len. rewrite map_length, seq_length. lia. Qed.

(* the vector holds l; what was allocated in h0 is as it was *)
Definition holds (h0 h : heap) (v : cvec) (l : list Z) : Prop :=
  vlen v = len l /\ len l <= cap v /\ cap v <= ISIZE_MAX /\
  (cap v = 0 /\ (forall q, get h q = get h0 q) \/
   0 < cap v /\ ptr v <> 0 /\ get h0 (ptr v) = None /\ (forall q, q <> ptr v -> get h q = get h0 q) /\
   exists r, get h (ptr v) = Some (l ++ r) /\ len l + len r = cap v).

Lemma new_holds h : holds h h new [].
Proof. unfold holds. cbn [new vlen cap]. rewrite len_nil. unfold ISIZE_MAX. repeat split; try lia. left. auto. Qed.

Lemma resize_ok h0 h v l c : holds h0 h v l -> len l <= c <= ISIZE_MAX -> 0 < c ->
  exists h' v', resize place move junk h v c = Ok (Some (h', v')) /\ holds h0 h' v' l /\ cap v' = c /\ ptr v' <> 0.
Proof.
  intros (LV & LC & CB & H) [C1 C2] C3. unfold resize, check_bounds. destruct (Z.ltb_spec ISIZE_MAX c); [lia|]. destruct (Z.eqb_spec c 0); [lia|].
  destruct GOOD as [GP GM]. pose proof (len_nonneg l).
  destruct H as [[C0 K]|(CP & NP & FR & K & r & G & LR)].
  - rewrite C0. change (0 <? 0) with false. cbv iota. unfold alloc. destruct (GP h c) as (p & E & N & F). rewrite E. cbn [bind].
    eexists _, _. split; [reflexivity|]. split; [|split; [reflexivity|exact N]]. assert (L0 : l = []) by (apply length_zero_iff_nil; unfold len in *; lia). subst l.
    unfold holds. cbn [vlen cap ptr]. rewrite len_nil in *. split; [lia|]. split; [lia|]. split; [lia|]. right. split; [lia|]. split; [exact N|]. split; [rewrite <- K; exact F|]. split.
    + intros q Q. rewrite get_put. destruct (Z.eqb_spec q p); [congruence|apply K].
    + exists (fresh_bytes junk p 0 c). rewrite get_put, Z.eqb_refl. split; [reflexivity|]. rewrite fresh_len by lia. lia.
  - destruct (Z.ltb_spec 0 (cap v)); [|lia]. unfold realloc. rewrite G. destruct (GM h (ptr v) c _ G) as (q & E & N & F). rewrite E. cbn [bind].
    eexists _, _. split; [reflexivity|]. split; [|split; [reflexivity|exact N]].
    unfold holds. cbn [vlen cap ptr]. split; [lia|]. split; [lia|]. split; [lia|]. right. split; [lia|]. split; [exact N|]. split.
    { destruct F as [->|F]; [exact FR|]. destruct (Z.eq_dec q (ptr v)) as [->|NQ]; [exact FR|]. rewrite <- (K q NQ). exact F. }
    split.
    + intros x X. rewrite get_put. destruct (Z.eqb_spec x q); [congruence|]. rewrite get_del. destruct (Z.eqb_spec x (ptr v)) as [->|NX]; [congruence|apply K, NX].
    + exists (firstn (Z.to_nat c - length l) r ++ fresh_bytes junk q (len (l ++ r)) c). rewrite get_put, Z.eqb_refl. split.
      * rewrite firstn_app. rewrite (firstn_all2 l) by (unfold len in *; lia). rewrite <- app_assoc. reflexivity.
      * rewrite len_app. unfold len at 2. rewrite firstn_length. unfold fresh_bytes. unfold len at 2. rewrite map_length, seq_length. rewrite len_app. unfold len in *. lia.
Qed.
Lemma pow2_ge x : 0 <= x -> x <= next_power_of_two x /\ 0 < next_power_of_two x.
Proof.
  intros H. unfold next_power_of_two. destruct (Z.leb_spec x 1); [lia|]. pose proof (Z.log2_up_spec x ltac:(lia)). split; [lia|]. apply Z.pow_pos_nonneg; [lia|apply Z.log2_up_nonneg].
Qed.
Lemma reserve_ok h0 h v l n : holds h0 h v l -> 0 < n -> len l + n <= ISIZE_MAX ->
  exists h' v', reserve place move junk h v n = Ok (Some (h', v')) /\ holds h0 h' v' l /\ len l + n <= cap v'.
Proof.
  intros H N B. pose proof H as (LV & LC & CB & H'). unfold reserve, check_bounds. rewrite LV. destruct (Z.ltb_spec ISIZE_MAX (len l + n)); [lia|].
  pose proof (len_nonneg l). destruct (Z.ltb_spec (cap v) (len l + n)); [|eauto 10].
  pose proof (pow2_ge (len l + n) ltac:(lia)) as [P1 P2].
  destruct (resize_ok h0 h v l (Z.min (next_power_of_two (len l + n)) ISIZE_MAX) H) as (h' & v' & E & HH2 & C & _); [unfold ISIZE_MAX in *; lia|unfold ISIZE_MAX in *; lia|].
  exists h', v'. split; [exact E|]. split; [exact HH2|]. rewrite C. unfold ISIZE_MAX in *. lia.
Qed.
Lemma store_ok h0 h v l k : holds h0 h v l -> k <> [] -> len l + len k <= cap v ->
  exists h', store h (ptr v) (vlen v) k = Ok h' /\ holds h0 h' (CVec (ptr v) (vlen v + len k) (cap v)) (l ++ k).
Proof.
  intros (LV & LC & CB & H) NK LK. pose proof (len_nonneg l). assert (0 < len k) by (destruct k; [congruence|rewrite len_cons; pose proof (len_nonneg k); lia]).
  destruct H as [[C0 _]|(CP & NP & FR & K & r & G & LR)]; [lia|]. unfold store. rewrite G. rewrite LV, len_app. destruct (Z.ltb_spec (len l + len r) (len l + len k)); [lia|].
  eexists. split; [reflexivity|]. unfold holds. cbn [vlen cap ptr]. rewrite len_app. split; [lia|]. split; [lia|]. split; [lia|]. right. split; [exact CP|]. split; [exact NP|]. split; [exact FR|]. split.
  - intros q Q. rewrite get_put. destruct (Z.eqb_spec q (ptr v)); [congruence|apply K, Q].
  - exists (skipn (length k) r). rewrite get_put, Z.eqb_refl. split.
    + f_equal. replace (Z.to_nat (len l)) with (length l) by (unfold len; lia). rewrite firstn_app, Nat.sub_diag, firstn_all, firstn_O, app_nil_r. rewrite <- app_assoc. f_equal. f_equal.
      replace (Z.to_nat (len l + len k)) with (length l + length k)%nat by (unfold len; lia). rewrite skipn_app. rewrite skipn_all2 by lia.
      replace (length l + length k - length l)%nat with (length k) by lia. reflexivity.
    + unfold len in *. rewrite skipn_length. lia.
Qed.
Lemma slices_ok h0 : forall ls h v l, holds h0 h v l -> Forall (fun x => x <> []) ls -> len l + len (concat ls) <= ISIZE_MAX ->
  exists h' v', write_slices place move junk h v ls = Ok (h', v', true) /\ holds h0 h' v' (l ++ concat ls).
Proof.
  induction ls as [|x ls IH]; intros h v l H NE B; cbn [write_slices concat].
  - exists h, v. rewrite app_nil_r. auto.
  - assert (NX : x <> []) by (inversion NE; assumption). assert (NE' : Forall (fun x => x <> []) ls) by (inversion NE; assumption). cbn [concat] in B. rewrite len_app in B. pose proof (len_nonneg (concat ls)). assert (0 < len x) by (destruct x; [congruence|rewrite len_cons; pose proof (len_nonneg x); lia]).
    unfold extend_from_slice. destruct (reserve_ok h0 h v l (len x) H) as (h1 & v1 & E1 & HH1 & C1); [lia|lia|]. rewrite E1. cbn [bind].
    destruct (store_ok h0 h1 v1 l x HH1) as (h2 & E2 & H2'); [assumption|exact C1|]. rewrite E2. cbn [bind].
    destruct (IH h2 _ (l ++ x) H2') as (h' & v' & E & HH); [assumption|rewrite len_app; lia|]. exists h', v'. rewrite app_assoc. split; [exact E|exact HH].
Qed.
Lemma finish_ok h0 h v l : holds h0 h v l -> len l < ISIZE_MAX ->
  exists h1 v1, push place move junk h v 0 = Ok (Some (h1, v1)) /\
  exists h2 v2, shrink_to_fit place move junk h1 v1 = Ok (Some (h2, v2)) /\ get h0 (ptr v2) = None /\ ptr v2 <> 0 /\ get h2 (ptr v2) = Some (l ++ [0]) /\ forall q, q <> ptr v2 -> get h2 q = get h0 q.
Proof.
  intros H B. unfold push. destruct (reserve_ok h0 h v l 1 H) as (h1 & v1 & E1 & H1 & C1); [lia|lia|]. rewrite E1. cbn [bind].
  destruct (store_ok h0 h1 v1 l [0] H1) as (h2 & E2 & H2); [discriminate|exact C1|]. rewrite E2. cbn [bind]. change (len [0]) with 1 in H2.
  eexists _, _. split; [reflexivity|]. pose proof H2 as (LV & LC & CB & _). cbn [vlen cap ptr] in LV, LC, CB. assert (L1 : len (l ++ [0]) = len l + 1) by (rewrite len_app; reflexivity).
  pose proof (len_nonneg l).
  assert (X : exists h3 v3, shrink_to_fit place move junk h2 (CVec (ptr v1) (vlen v1 + 1) (cap v1)) = Ok (Some (h3, v3)) /\ holds h0 h3 v3 (l ++ [0]) /\ cap v3 = len l + 1).
  { unfold shrink_to_fit. cbn [vlen cap]. destruct (Z.ltb_spec (vlen v1 + 1) (cap v1)).
    - destruct (resize_ok h0 h2 _ _ (len (l ++ [0])) H2) as (h3 & v3 & E3 & HH3 & C3 & _); [lia|lia|]. exists h3, v3. split; [rewrite <- LV in E3; exact E3|]. split; [exact HH3|]. rewrite C3. exact L1.
    - eexists _, _. split; [reflexivity|]. split; [exact H2|]. cbn [cap]. lia. }
  destruct X as (h3 & v3 & E3 & (_ & _ & _ & H3) & C3). exists h3, v3. split; [exact E3|]. destruct H3 as [[C0 _]|(_ & NP & FR & K & r & G & LR)]; [lia|].
  split; [exact FR|]. split; [exact NP|]. split; [|exact K]. rewrite G. assert (R0 : r = []) by (apply length_zero_iff_nil; unfold len in *; lia). rewrite R0, app_nil_r. reflexivity.
Qed.
Lemma concat_filter (l : list (list Z)) : concat (filter nonempty l) = concat l.
Proof. induction l as [|x l IH]; [reflexivity|]. cbn [filter concat]. destruct x; cbn [nonempty]; [exact IH|cbn [concat]; rewrite IH; reflexivity]. Qed.

Lemma vasprintf_ok fuel m wm em h fmt args m1 out : p_printf fuel m wm em fmt args = Ok (m1, Some (out, true)) -> len (concat out) < 2 ^ 31 ->
  exists h' p, vasprintf place move junk fuel m wm em h fmt args = Ok (m1, h', p, len (concat out)) /\
    p <> 0 /\ get h p = None /\ get h' p = Some (concat out ++ [0]) /\ forall q, q <> p -> get h' q = get h q.
Proof.
  intros P L. unfold vasprintf. rewrite P. cbn [bind].
  destruct (slices_ok h (filter nonempty out) h new [] (new_holds h)) as (h1 & v1 & E1 & H1).
  - apply Forall_forall. intros x X. apply filter_In in X. destruct X as [_ X]. destruct x; [discriminate|discriminate].
  - rewrite concat_filter, len_nil. unfold ISIZE_MAX. lia.
  - rewrite E1. cbn [bind andb]. rewrite concat_filter in H1. cbn [app] in H1.
    destruct (finish_ok h h1 v1 _ H1) as (h2 & v2 & E2 & h3 & v3 & E3 & R); [unfold ISIZE_MAX; lia|]. rewrite E2. cbn [bind]. rewrite E3. cbn [bind].
    exists h3, (ptr v3). split; [|tauto]. f_equal. f_equal. pose proof (len_nonneg (concat out)). rewrite Z.mod_small by (unfold two64; lia).
    unfold to_i32. rewrite Z.mod_small by lia. lia.
Qed.
Lemma vasprintf_none fuel m wm em h fmt args m1 : p_printf fuel m wm em fmt args = Ok (m1, None) ->
  exists h' p, vasprintf place move junk fuel m wm em h fmt args = Ok (m1, h', p, -1) /\
    p <> 0 /\ get h p = None /\ get h' p = Some [0] /\ forall q, q <> p -> get h' q = get h q.
Proof.
  intros P. unfold vasprintf. rewrite P. cbn [bind].
  destruct (finish_ok h h new [] (new_holds h)) as (h2 & v2 & E2 & h3 & v3 & E3 & R); [reflexivity|]. rewrite E2. cbn [bind]. rewrite E3. cbn [bind].
  exists h3, (ptr v3). split; [reflexivity|tauto].
Qed.
End A.
