(* Proofs for C87, C88 *)
From Coq Require Import ZArith List Bool Lia.
From Verif Require Import Base Dtls_model Dtls_spec.
Import ListNotations.
Open Scope Z_scope.

Lemma up_ge n k : 0 < k -> n <= up n k.
Proof. intro K. unfold up. pose proof (Z.mod_pos_bound (n + k - 1) k K). pose proof (Z.div_mod (n + k - 1) k). lia. Qed.
Lemma up_0 k : 0 < k -> up 0 k = 0.
Proof. intro K. unfold up. rewrite Z.div_small by lia. reflexivity. Qed.
Lemma up_up n k : 0 < k -> up (up n k) k = up n k.
Proof.
  intro K. unfold up at 1. set (q := (n + k - 1) / k). replace (up n k) with (q * k) by reflexivity.
  replace (q * k + k - 1) with (k - 1 + q * k) by lia. rewrite Z.div_add, Z.div_small by lia. reflexivity.
Qed.
Lemma up_mod n k : 0 < k -> up n k mod k = 0.
Proof. intro K. unfold up. apply Z.mod_mul. lia. Qed.

Lemma blit_out m p l a : a < p \/ p + zlen l <= a -> blit m p l a = m a.
Proof. intro H. unfold blit. destruct (Z.leb_spec p a); cbn [andb]; [|reflexivity]. destruct (Z.ltb_spec a (p + zlen l)); [lia|reflexivity]. Qed.
Lemma blit_in m p l j : 0 <= j < zlen l -> blit m p l (p + j) = nth (Z.to_nat j) l 0.
Proof.
  intro H. unfold blit. destruct (Z.leb_spec p (p + j)); [|lia]. destruct (Z.ltb_spec (p + j) (p + zlen l)); [|lia]. cbn [andb].
  f_equal. lia.
Qed.
Lemma zlen_zeros n : 0 <= n -> zlen (zeros n) = n.
Proof. intro H. unfold zlen, zeros. rewrite repeat_length. lia. Qed.
Lemma nth_zeros n i : nth i (zeros n) 0 = 0.
Proof. unfold zeros. apply nth_repeat. Qed.
Lemma blit_zero m p n j : 0 <= j < n -> blit m p (zeros n) (p + j) = 0.
Proof. intro H. rewrite blit_in by (rewrite zlen_zeros; lia). apply nth_zeros. Qed.
Lemma zlen_nn l : 0 <= zlen l.
Proof. unfold zlen. lia. Qed.
Lemma nth_past l j : zlen l <= j -> nth (Z.to_nat j) l 0 = 0.
Proof. intro H. apply nth_overflow. unfold zlen in H. lia. Qed.

Definition size_after (size : Z) (l : list seg) : Z := fold_left (fun n s => moff (place n s)) l size.

Lemma valid_msz s : valid s -> 0 <= msz s /\ zlen (img s) <= msz s.
Proof. unfold valid, zlen. lia. Qed.

Lemma size_after_ge : forall l size, Forall valid l -> size <= size_after size l.
Proof.
  induction l as [|s l IH]; intros size V; [cbn; lia|]. apply Forall_cons_iff in V. destruct V as (V & VL). apply valid_msz in V.
  cbn [size_after fold_left]. specialize (IH (moff (place size s)) VL). fold (size_after (moff (place size s)) l) in *.
  cbn [place moff] in *. pose proof (up_ge size 16 ltac:(lia)). unfold size_after in *. cbn [place moff] in *. lia.
Qed.

Lemma layout_nth : forall l size i, match nth_error l i, nth_error (static_layout size l) i with
  | Some s, Some x => mimg x = img s /\ mseg x = msz s
  | None, None => True
  | _, _ => False
  end.
Proof.
  induction l as [|s l IH]; intros size [|i]; cbn [static_layout nth_error]; auto. apply IH.
Qed.
Lemma layout_len : forall l size, length (static_layout size l) = length l.
Proof. induction l as [|s l IH]; intro size; cbn [static_layout length]; [reflexivity|]. rewrite IH. reflexivity. Qed.

Lemma layout_bound : forall l size i x, Forall valid l -> nth_error (static_layout size l) i = Some x ->
  size <= moff x - mseg x /\ 0 <= mseg x /\ moff x <= size_after size l.
Proof.
  induction l as [|s l IH]; intros size i x V H; [destruct i; discriminate|]. apply Forall_cons_iff in V. destruct V as (V & VL). pose proof (valid_msz _ V).
  pose proof (up_ge size 16 ltac:(lia)). pose proof (size_after_ge l (moff (place size s)) VL) as SA.
  change (size_after size (s :: l)) with (size_after (moff (place size s)) l). cbn [place moff] in *.
  destruct i as [|i]; cbn [static_layout nth_error] in H.
  - injection H as <-. cbn [place moff mseg]. cbn [place moff] in SA. lia.
  - specialize (IH _ _ _ VL H). cbn [place moff] in IH. lia.
Qed.
Lemma layout_order : forall l size i j x y, Forall valid l -> (i < j)%nat ->
  nth_error (static_layout size l) i = Some x -> nth_error (static_layout size l) j = Some y -> moff x <= moff y - mseg y.
Proof.
  induction l as [|s l IH]; intros size i j x y V IJ HI HJ; [destruct i; discriminate|]. apply Forall_cons_iff in V. destruct V as (V & VL).
  destruct j as [|j]; [lia|]. cbn [static_layout nth_error] in HJ. destruct i as [|i]; cbn [static_layout nth_error] in HI.
  - injection HI as <-. apply (layout_bound _ _ _ _ VL HJ).
  - refine (IH _ i j x y VL _ HI HJ). lia.
Qed.
Lemma layout_disjoint l size i j x y e : Forall valid l -> i <> j ->
  nth_error (static_layout size l) i = Some x -> nth_error (static_layout size l) j = Some y -> disjoint (e - moff x) (mseg x) (e - moff y) (mseg y).
Proof.
  intros V NE HI HJ. unfold disjoint. destruct (Nat.lt_total i j) as [L|[L|L]]; [|congruence|].
  - pose proof (layout_order _ _ _ _ _ _ V L HI HJ). lia.
  - pose proof (layout_order _ _ _ _ _ _ V L HJ HI). lia.
Qed.

Lemma copy_static e len : forall l size m, Forall valid l -> 0 <= size -> size_after size l <= len ->
  exists m', copy_loop m e len (static_layout size l) = Ok m' /\
    (forall a, e - size <= a \/ a < e - size_after size l -> m' a = m a) /\
    (forall i x j, nth_error (static_layout size l) i = Some x -> 0 <= j < mseg x ->
       m' (e - moff x + j) = if j <? zlen (mimg x) then nth (Z.to_nat j) (mimg x) 0 else m (e - moff x + j)).
Proof.
  induction l as [|s l IH]; intros size m V S0 SL; cbn [static_layout copy_loop].
  - exists m. split; [reflexivity|]. split; [reflexivity|]. intros [|i] x j H; discriminate.
  - apply Forall_cons_iff in V. destruct V as (V & VL). pose proof (valid_msz _ V) as (M1 & M2).
    pose proof (up_ge size 16 ltac:(lia)) as UG. pose proof (zlen_nn (img s)) as Z0.
    set (x := place size s) in *.
    assert (MX : moff x = up size 16 + msz s) by reflexivity. assert (MI : mimg x = img s) by reflexivity. assert (MG : mseg x = msz s) by reflexivity.
    change (size_after size (s :: l)) with (size_after (moff x) l) in *. pose proof (size_after_ge l (moff x) VL) as SA.
    assert (ST : exists m1, (if zlen (mimg x) =? 0 then copy_loop m e len (static_layout (moff x) l)
        else if (0 <=? len - moff x) && (len - moff x + zlen (mimg x) <=? len)
             then copy_loop (blit m (e - len + (len - moff x)) (mimg x)) e len (static_layout (moff x) l) else Fault)
        = copy_loop m1 e len (static_layout (moff x) l) /\
        (forall a, a < e - moff x \/ e - moff x + zlen (mimg x) <= a -> m1 a = m a) /\
        (forall j, 0 <= j < zlen (mimg x) -> m1 (e - moff x + j) = nth (Z.to_nat j) (mimg x) 0)).
    { destruct (Z.eqb_spec (zlen (mimg x)) 0) as [EZ|NZ].
      - exists m. split; [reflexivity|]. split; [reflexivity|]. intros j J. lia.
      - exists (blit m (e - moff x) (mimg x)). split; [|split].
        + destruct (Z.leb_spec 0 (len - moff x)); [|lia]. destruct (Z.leb_spec (len - moff x + zlen (mimg x)) len); [|rewrite MI in *; lia]. cbn [andb].
          replace (e - len + (len - moff x)) with (e - moff x) by lia. reflexivity.
        + intros a A. apply blit_out. lia.
        + intros j J. apply blit_in, J. }
    destruct ST as (m1 & -> & O1 & I1).
    destruct (IH (moff x) m1 VL ltac:(lia) SL) as (m' & E & O2 & I2). exists m'. split; [exact E|]. split.
    + intros a A. rewrite O2 by lia. apply O1. rewrite MI. lia.
    + intros [|i] y j H J; cbn [nth_error] in H.
      * injection H as <-. rewrite O2 by lia. destruct (Z.ltb_spec j (zlen (mimg x))); [apply I1; lia|apply O1; lia].
      * rewrite (I2 _ _ _ H J). destruct (j <? zlen (mimg y)); [reflexivity|]. apply O1. left.
        pose proof (layout_bound _ _ _ _ VL H). lia.
Qed.

Section static.
Variable page : Z.
Variable l : list seg.
Hypothesis PG : 0 < page.
Hypothesis V : Forall valid l.
Let len := up (tls_size l) page.

Lemma size_nn : 0 <= tls_size l <= len.
Proof. split; [apply (size_after_ge l 0 V)|apply up_ge, PG]. Qed.

Definition ready (t : tcb) : Prop :=
  masters t = static_layout 0 l /\ tlen t = len /\ 0 < tend t - tlen t /\
  (dtv t = None \/ dtv t = Some (map (fun x => tend t - moff x) (static_layout 0 l))).
Definition filled (m : bytes) (t : tcb) : Prop :=
  forall i s x j, nth_error l i = Some s -> nth_error (static_layout 0 l) i = Some x -> 0 <= j < msz s -> m (tend t - moff x + j) = nth (Z.to_nat j) (img s) 0.

(* A new area, copied into. *)
Lemma create_ok m base d : 0 < base -> (d = None \/ d = Some (map (fun x => base + len - moff x) (static_layout 0 l))) ->
  exists m' t, copy_masters (blit m base (zeros len)) (Tcb (base + len) len (static_layout 0 l) 0 d) = Ok (m', t) /\
    ready t /\ filled m' t /\ (forall a, a < base \/ base + len <= a -> m' a = m a) /\ tend t = base + len.
Proof.
  intros B D. pose proof size_nn as (S1 & S2). unfold copy_masters. cbn [tlen masters ncop skipn tend dtv].
  assert (RD : forall n, ready (Tcb (base + len) len (static_layout 0 l) n d)).
  { intro n. split; [reflexivity|]. split; [reflexivity|]. split; [cbn; lia|]. exact D. }
  destruct (Z.eqb_spec len 0) as [L0|L0].
  - eexists _, _. split; [reflexivity|]. split; [apply RD|]. split; [|split; [|reflexivity]].
    + intros i s x j HS HX J. exfalso. pose proof (layout_bound _ _ _ _ V HX) as LB. pose proof (layout_nth l 0 i) as LN. rewrite HS, HX in LN.
      unfold tls_size in *. fold (size_after 0 l) in *. lia.
    + intros a A. apply blit_out. rewrite zlen_zeros; lia.
  - destruct (static_layout 0 l) as [|x0 r] eqn:SL.
    + eexists _, _. split; [reflexivity|]. split; [rewrite <- SL; rewrite <- SL in RD; apply RD|]. split; [|split; [|reflexivity]].
      * intros i s x j HS HX J. rewrite SL in HX. destruct i; discriminate.
      * intros a A. apply blit_out. rewrite zlen_zeros; lia.
    + rewrite <- SL in *.
      destruct (copy_static (base + len) len l 0 (blit m base (zeros len)) V ltac:(lia) ltac:(apply S2)) as (m' & E & O & I).
      rewrite E. cbn [bind]. eexists _, _. split; [reflexivity|]. split; [apply RD|]. split; [|split; [|reflexivity]].
      * intros i s x j HS HX J. pose proof (layout_nth l 0 i) as LN. rewrite HS, HX in LN. destruct LN as (LI & LM).
        cbn [tend]. rewrite (I _ _ _ HX) by lia. rewrite LI. destruct (Z.ltb_spec j (zlen (img s))) as [JL|JL]; [reflexivity|].
        pose proof (layout_bound _ _ _ _ V HX) as LB. rewrite nth_past by lia.
        replace (base + len - moff x + j) with (base + (len - moff x + j)) by lia. apply blit_zero.
        unfold tls_size in *. fold (size_after 0 l) in *. lia.
      * intros a A. rewrite O; [apply blit_out; rewrite zlen_zeros; lia|].
        change (size_after 0 l) with (tls_size l). lia.
Qed.

Lemma start_ok m base : 0 < base -> exists m' t, start_tls page m base l = Ok (m', t) /\ ready t /\ filled m' t /\
  (forall a, a < base \/ base + len <= a -> m' a = m a) /\ tend t = base + len /\
  dtv t = Some (map (fun x => tend t - moff x) (static_layout 0 l)).
Proof.
  intro B. unfold start_tls, new_tcb. fold len. cbn [set_dtv tend tlen dtv].
  destruct (create_ok m base (Some (map (fun x => base + len - moff x) (static_layout 0 l))) B (or_intror eq_refl)) as (m' & t & E & R & F & O & T).
  exists m', t. split; [exact E|]. split; [exact R|]. split; [exact F|]. split; [exact O|]. split; [exact T|].
  unfold copy_masters in E. cbn [tlen masters ncop skipn tend dtv] in E. rewrite T.
  destruct (len =? 0); [injection E as _ <-; reflexivity|]. destruct (static_layout 0 l); [injection E as _ <-; reflexivity|].
  destruct (copy_loop _ _ _ _); cbn [bind] in E; try discriminate. injection E as _ <-. reflexivity.
Qed.
Lemma spawn_ok m base cur : ready cur -> 0 < base -> exists m' t, spawn_tls page m base cur = Ok (m', t) /\ ready t /\ filled m' t /\
  (forall a, a < base \/ base + len <= a -> m' a = m a) /\ tend t = base + len.
Proof.
  intros (RM & RL & _) B. unfold spawn_tls, new_tcb. rewrite RL. unfold len. rewrite (up_up _ _ PG). fold len. cbn [tend tlen]. rewrite RM.
  destruct (create_ok m base None B (or_introl eq_refl)) as (m' & t & E & R & F & O & T). rewrite E. exists m', t. auto.
Qed.

Lemma thread_ready m t : thread page l m t -> ready t /\ filled m t.
Proof.
  induction 1 as [m base m' t B E|m0 cur m base m' t TH (IH & _) B E].
  - destruct (start_ok m base B) as (m2 & t2 & E2 & R & F & _). rewrite E in E2. injection E2 as <- <-. auto.
  - destruct (spawn_ok m base cur IH B) as (m2 & t2 & E2 & R & F & _). rewrite E in E2. injection E2 as <- <-. auto.
Qed.

Lemma get_ready m t i x off al : ready t -> nth_error (static_layout 0 l) i = Some x ->
  exists t', tls_get_addr m t (Z.of_nat i + 1) off al = Ok (m, t', tend t - moff x + off) /\ ready t' /\ tend t' = tend t.
Proof.
  intros (RM & RL & RB & RD) HX. pose proof size_nn as (S1 & S2). pose proof (layout_bound _ _ _ _ V HX) as LB. change (size_after 0 l) with (tls_size l) in LB.
  unfold tls_get_addr. rewrite RM. destruct (static_layout 0 l) as [|x0 r] eqn:SL; [destruct i; discriminate|]. rewrite <- SL in *.
  set (d := map (fun x => tend t - moff x) (static_layout 0 l)) in *.
  assert (LD : length d = length (static_layout 0 l)) by apply map_length.
  assert (NE : nth_error d i = Some (tend t - moff x)) by (apply (map_nth_error (fun x => tend t - moff x)); exact HX).
  assert (ST : exists t', (if (length (match dtv t with Some d => d | None => [] end) <? length (static_layout 0 l))%nat
             then setup_dtv t (length (static_layout 0 l)) else t) = t' /\ dtv t' = Some d /\ ready t' /\ tend t' = tend t /\ masters t' = static_layout 0 l).
  { destruct RD as [RD|RD]; rewrite RD.
    - assert (LT : (length (@nil Z) <? length (static_layout 0 l))%nat = true) by (rewrite SL; reflexivity). rewrite LT.
      assert (SD : setup_dtv t (length (static_layout 0 l)) = set_dtv t d).
      { unfold setup_dtv. rewrite RD, RM. f_equal. unfold pad. rewrite map_length, Nat.sub_diag. cbn [repeat]. rewrite app_nil_r.
        rewrite firstn_all2 by (rewrite map_length; lia). unfold d. apply map_ext. intro y. lia. }
      rewrite SD. eexists. split; [reflexivity|]. split; [reflexivity|]. split; [|split; [reflexivity|exact RM]].
      split; [exact RM|]. split; [exact RL|]. split; [exact RB|]. right. reflexivity.
    - destruct (Nat.ltb_spec (length d) (length (static_layout 0 l))) as [LT|LT]; [lia|]. exists t. split; [reflexivity|]. split; [exact RD|].
      split; [|split; [reflexivity|exact RM]]. split; [exact RM|]. split; [exact RL|]. split; [exact RB|]. right. exact RD. }
  destruct ST as (t' & EQ & DT & R' & TE & MM). rewrite EQ, DT, MM.
  replace (Z.to_nat (Z.of_nat i + 1 - 1)) with i by lia.
  assert (IL : (i < length d)%nat) by (apply nth_error_Some; rewrite NE; discriminate).
  destruct (Nat.leb_spec (length d) i); [lia|].
  assert (ND : nth i d 0 = tend t - moff x) by (apply nth_error_nth; exact NE). rewrite ND.
  destruct (Z.eqb_spec (tend t - moff x) 0) as [E0|E0]; [lia|]. exists t'. auto.
Qed.

Lemma gets_ready : forall ops m t, ready t -> (forall k off al, In (k, off, al) ops -> 1 <= k <= Z.of_nat (length l)) ->
  exists t', gets m t ops = Ok (m, t', map (fun o => tend t - moff (nth (Z.to_nat (fst (fst o) - 1)) (static_layout 0 l) (Mst [] 0 0)) + snd (fst o)) ops).
Proof.
  induction ops as [|((k, off), al) ops IH]; intros m t R H; cbn [gets map]; [exists t; reflexivity|].
  pose proof (H k off al (or_introl eq_refl)) as HK.
  destruct (nth_error (static_layout 0 l) (Z.to_nat (k - 1))) as [x|] eqn:NX.
  2:{ apply nth_error_None in NX. rewrite layout_len in NX. lia. }
  destruct (get_ready m t _ x off al R NX) as (t1 & E1 & R1 & T1). replace (Z.of_nat (Z.to_nat (k - 1)) + 1) with k in E1 by lia. rewrite E1. cbn [bind].
  destruct (IH m t1 R1) as (t2 & E2); [intros k' o' a' I; apply (H k' o' a'); right; exact I|]. rewrite E2. cbn [bind]. exists t2. rewrite T1.
  cbn [fst snd]. rewrite (nth_error_nth _ _ _ NX). reflexivity.
Qed.

Lemma thread_ok m t : thread page l m t ->
  exists b, (forall i s, nth_error l i = Some s -> tend t - tlen t <= b i /\ b i + msz s <= tend t /\
               forall j, 0 <= j < msz s -> m (b i + j) = nth (Z.to_nat j) (img s) 0) /\
    (forall i j s u, i <> j -> nth_error l i = Some s -> nth_error l j = Some u -> disjoint (b i) (msz s) (b j) (msz u)) /\
    (forall i x v a, nth_error (masters t) i = Some x -> tend t + tpoff x v a = b i + v + a) /\
    (forall ops, (forall k off al, In (k, off, al) ops -> 1 <= k <= Z.of_nat (length l)) ->
       exists t', gets m t ops = Ok (m, t', map (fun o => b (Z.to_nat (fst (fst o) - 1)) + snd (fst o)) ops)).
Proof.
  intro TH. destruct (thread_ready _ _ TH) as (R & F). pose proof R as (RM & RL & RB & _). pose proof size_nn as (S1 & S2).
  exists (fun i => tend t - moff (nth i (static_layout 0 l) (Mst [] 0 0))).
  assert (GET : forall i s, nth_error l i = Some s -> exists x, nth_error (static_layout 0 l) i = Some x /\ nth i (static_layout 0 l) (Mst [] 0 0) = x /\ mseg x = msz s).
  { intros i s HS. pose proof (layout_nth l 0 i) as LN. rewrite HS in LN. destruct (nth_error (static_layout 0 l) i) as [x|] eqn:HX; [|destruct LN].
    exists x. split; [reflexivity|]. split; [apply nth_error_nth; exact HX|apply LN]. }
  split; [|split; [|split]].
  - intros i s HS. destruct (GET i s HS) as (x & HX & NX & MX). cbv beta. rewrite NX. pose proof (layout_bound _ _ _ _ V HX) as LB. change (size_after 0 l) with (tls_size l) in LB.
    split; [lia|]. split; [lia|]. intros j J. apply (F i s x j HS HX J).
  - intros i j s u NE HS HU. destruct (GET i s HS) as (x & HX & NX & MX), (GET j u HU) as (y & HY & NY & MY). cbv beta. rewrite NX, NY, <- MX, <- MY.
    apply (layout_disjoint l 0 i j); assumption.
  - intros i x v a HX. rewrite RM in HX. cbv beta. rewrite (nth_error_nth _ _ _ HX). unfold tpoff. lia.
  - intros ops H. apply gets_ready; assumption.
Qed.

(* Alignment, if the sizes of the segments are multiples of it and it divides 16. *)
Lemma layout_aligned k : (k | 16) -> 0 < k -> forall l' size i x, Forall (fun s => (k | msz s)) l' ->
  nth_error (static_layout size l') i = Some x -> (k | moff x).
Proof.
  intros K KP. induction l' as [|s r IH]; intros size i x A H; [destruct i; discriminate|]. apply Forall_cons_iff in A. destruct A as (A & AR).
  destruct i as [|i]; cbn [static_layout nth_error] in H; [|eapply IH; eauto]. injection H as <-. cbn [place moff]. apply Z.divide_add_r; [|exact A].
  apply (Z.divide_trans _ 16); [exact K|]. apply Z.mod_divide; [lia|]. apply up_mod. lia.
Qed.
End static.

Lemma f2_len {A B} (R : A -> B -> Prop) l l' : Forall2 R l l' -> length l = length l'.
Proof. induction 1; cbn [length]; congruence. Qed.

(* ---------- the life of the first thread ---------- *)
Definition ents (t : tcb) : list Z := match dtv t with Some d => d | None => [] end.
Record inv (t : tcb) (segs : list seg) (log : list (nat * Z)) : Prop := {
  i_ms : Forall2 (fun x s => mimg x = img s /\ mseg x = msz s) (masters t) segs;
  i_dv : exists d, dtv t = Some d /\ (length d <= length segs)%nat;
  i_va : Forall valid segs;
  i_st : exists n, forall i s, nth_error segs i = Some s -> nth i (ents t) 0 <> 0 ->
           ((i < n)%nat /\ tend t - tlen t <= nth i (ents t) 0 /\ nth i (ents t) 0 + msz s <= tend t) \/ In (i, nth i (ents t) 0) log;
  i_lg : forall k b, In (k, b) log -> nth k (ents t) 0 = b /\ b <> 0 /\ (k < length segs)%nat;
  i_dj : forall i j s u, i <> j -> nth_error segs i = Some s -> nth_error segs j = Some u -> nth i (ents t) 0 <> 0 -> nth j (ents t) 0 <> 0 ->
           disjoint (nth i (ents t) 0) (msz s) (nth j (ents t) 0) (msz u) }.

Lemma nth_pad l n i : (length l <= n)%nat -> nth i (pad l n) 0 = nth i l 0.
Proof.
  intro L. unfold pad. rewrite firstn_all2 by exact L. destruct (Nat.lt_ge_cases i (length l)) as [H|H].
  - apply app_nth1, H.
  - rewrite app_nth2 by exact H. rewrite (nth_overflow l 0 H). apply nth_repeat.
Qed.
Lemma len_pad l n : (length l <= n)%nat -> length (pad l n) = n.
Proof. intro L. unfold pad. rewrite firstn_all2 by exact L. rewrite app_length, repeat_length. lia. Qed.
Lemma set_nth_len : forall l i v, length (set_nth l i v) = length l.
Proof. induction l as [|x l IH]; intros [|i] v; cbn [set_nth length]; auto. Qed.
Lemma nth_set_nth : forall l i v j, (i < length l)%nat -> nth j (set_nth l i v) 0 = if Nat.eqb j i then v else nth j l 0.
Proof.
  induction l as [|x l IH]; intros [|i] v [|j] L; cbn [set_nth nth length Nat.eqb] in *; try reflexivity; try lia. apply IH. lia.
Qed.

(* the directory has an entry for each module *)
Definition grown (t : tcb) : tcb := if (length (ents t) <? length (masters t))%nat then setup_dtv t (length (masters t)) else t.
Lemma grown_inv t segs log : inv t segs log -> inv (grown t) segs log /\ tend (grown t) = tend t /\ tlen (grown t) = tlen t /\ masters (grown t) = masters t /\
  length (ents (grown t)) = length segs /\ (forall i, nth i (ents (grown t)) 0 = nth i (ents t) 0) /\ exists d, dtv (grown t) = Some d.
Proof.
  intros [I1 (d & D & DL) I3 I4 I5 I6]. assert (LM : length (masters t) = length segs) by (eapply f2_len; exact I1).
  assert (G : grown t = if (length d <? length segs)%nat then setup_dtv t (length segs) else t) by (unfold grown, ents; rewrite D, LM; reflexivity).
  rewrite G. clear G. destruct (Nat.ltb_spec (length d) (length segs)) as [LT|LT].
  - assert (SD : setup_dtv t (length segs) = set_dtv t (pad d (length segs))) by (unfold setup_dtv; rewrite D; reflexivity). rewrite SD.
    assert (NT : forall i, nth i (ents (set_dtv t (pad d (length segs)))) 0 = nth i (ents t) 0).
    { intro i. unfold ents. cbn [dtv set_dtv]. rewrite D. apply nth_pad. lia. }
    split; [|split; [reflexivity|split; [reflexivity|split; [reflexivity|split; [apply len_pad; lia|split; [exact NT|eexists; reflexivity]]]]]].
    constructor; auto.
    + eexists. split; [reflexivity|]. rewrite len_pad; lia.
    + destruct I4 as (n & I4). exists n. intros i s HS NZ. rewrite NT in *. exact (I4 i s HS NZ).
    + intros k b KB. rewrite NT. apply I5, KB.
    + intros i j s u NE HS HU. rewrite !NT. apply I6; assumption.
  - split; [constructor; eauto|]. split; [reflexivity|]. split; [reflexivity|]. split; [reflexivity|]. split; [unfold ents; rewrite D; lia|]. split; [reflexivity|eauto].
Qed.

Lemma get_cases m t k off al : masters t <> [] -> tls_get_addr m t (Z.of_nat k + 1) off al =
  let t := grown t in
  if (length (ents t) <=? k)%nat then Ok (m, t, 0)
  else if nth k (ents t) 0 =? 0 then
    match nth_error (masters t) k with
    | None => Panic
    | Some x => Ok (blit (blit m al (mimg x)) (al + zlen (mimg x)) (zeros (mseg x - zlen (mimg x))), set_dtv t (set_nth (ents t) k al), al + off)
    end
  else Ok (m, t, nth k (ents t) 0 + off).
Proof.
  intro NM. unfold tls_get_addr. destruct (masters t) as [|x r] eqn:E; [congruence|].
  replace (Z.to_nat (Z.of_nat k + 1 - 1)) with k by lia. unfold grown, ents. rewrite E. reflexivity.
Qed.

Lemma fill_spec m al s : valid s ->
  (forall j, 0 <= j < msz s -> blit (blit m al (img s)) (al + zlen (img s)) (zeros (msz s - zlen (img s))) (al + j) = nth (Z.to_nat j) (img s) 0) /\
  (forall a, a < al \/ al + msz s <= a -> blit (blit m al (img s)) (al + zlen (img s)) (zeros (msz s - zlen (img s))) a = m a).
Proof.
  intro V. apply valid_msz in V. destruct V as (V1 & V2). pose proof (zlen_nn (img s)). split.
  - intros j J. destruct (Z.lt_ge_cases j (zlen (img s))) as [L|L].
    + rewrite blit_out by lia. apply blit_in. lia.
    + rewrite (nth_past _ _ L). replace (al + j) with (al + zlen (img s) + (j - zlen (img s))) by lia. apply blit_zero. lia.
  - intros a A. rewrite !blit_out; auto; rewrite ?zlen_zeros by lia; lia.
Qed.

Lemma get_inv m t segs log k s off al : inv t segs log -> nth_error segs k = Some s -> fresh t segs log al (msz s) ->
  exists m' t' b, tls_get_addr m t (Z.of_nat k + 1) off al = Ok (m', t', b + off) /\ inv t' segs ((k, b) :: log) /\
    ((m' = m /\ (In (k, b) log \/ (tend t - tlen t <= b /\ b + msz s <= tend t))) \/
     ((forall b', ~ In (k, b') log) /\ b = al /\ (forall j, 0 <= j < msz s -> m' (al + j) = nth (Z.to_nat j) (img s) 0) /\
      forall a, a < al \/ al + msz s <= a -> m' a = m a)).
Proof.
  intros IV HS (FP & FA & FL). assert (KL : (k < length segs)%nat) by (apply nth_error_Some; rewrite HS; discriminate).
  assert (LM : length (masters t) = length segs) by (eapply f2_len, i_ms; exact IV).
  rewrite get_cases by (intro E; rewrite E in LM; cbn in LM; lia). cbv zeta.
  destruct (grown_inv _ _ _ IV) as (IG & TE & TL & MM & LD & NT & (d & DV)). set (g := grown t) in *. rewrite LD.
  assert (ED : ents g = d) by (unfold ents; rewrite DV; reflexivity).
  destruct (Nat.leb_spec (length segs) k); [lia|]. pose proof IG as [I1 _ I3 (n & I4) I5 I6].
  destruct (Z.eqb_spec (nth k (ents g) 0) 0) as [Z0|NZ].
  - destruct (nth_error (masters g) k) as [x|] eqn:HX; [|apply nth_error_None in HX; rewrite MM in HX; lia].
    assert (XS : mimg x = img s /\ mseg x = msz s).
    { clear -I1 HX HS. revert k HX HS. induction I1 as [|x' s' ms ss XS I1 IH]; intros [|k] HX HS; try discriminate; cbn [nth_error] in *; [congruence|eauto]. }
    destruct XS as (XI & XM). rewrite XI, XM.
    assert (VS : valid s) by (eapply (proj1 (Forall_forall _ _) I3), nth_error_In, HS).
    destruct (fill_spec m al s VS) as (F1 & F2).
    assert (NS : forall j, nth j (ents (set_dtv g (set_nth (ents g) k al))) 0 = if Nat.eqb j k then al else nth j (ents g) 0).
    { intro j. unfold ents at 1. cbn [dtv set_dtv]. apply nth_set_nth. lia. }
    eexists _, _, al. split; [reflexivity|]. split; [|right; split; [|auto]].
    2:{ intros b' IB. apply I5 in IB. rewrite Z0 in IB. destruct IB as (<- & ? & _). congruence. }
    constructor.
    + exact I1.
    + eexists. split; [reflexivity|]. rewrite set_nth_len. lia.
    + exact I3.
    + exists n. intros i u HU. rewrite NS. cbn [tend tlen set_dtv]. destruct (Nat.eqb_spec i k) as [->|NE]; intro NZ.
      * right. left. reflexivity.
      * destruct (I4 i u HU NZ) as [A|A]; [left; exact A|right; right; exact A].
    + intros j b [E|JB].
      * injection E as <- <-. rewrite NS, Nat.eqb_refl. split; [reflexivity|]. split; [lia|exact KL].
      * destruct (I5 _ _ JB) as (B1 & B2 & B3). rewrite NS. destruct (Nat.eqb_spec j k) as [->|NE]; [congruence|auto].
    + assert (DJ : forall j u, j <> k -> nth_error segs j = Some u -> nth j (ents g) 0 <> 0 -> disjoint al (msz s) (nth j (ents g) 0) (msz u)).
      { intros j u NE HU NZ. destruct (I4 j u HU NZ) as [(_ & A1 & A2)|A].
        - unfold disjoint in *. rewrite TE, TL in *. lia.
        - eapply FL; eassumption. }
      intros i j u w NE HU HW. rewrite !NS. destruct (Nat.eqb_spec i k) as [->|NI], (Nat.eqb_spec j k) as [->|NJ]; [congruence| | |].
      * intros _ NZ. rewrite HS in HU. injection HU as <-. apply DJ; auto.
      * intros NZ _. rewrite HS in HW. injection HW as <-. destruct (DJ i u NI HU NZ); unfold disjoint; auto.
      * apply I6; assumption.
  - exists m, g, (nth k (ents g) 0). split; [reflexivity|]. split.
    + constructor; auto.
      * exists d. split; [exact DV|]. rewrite <- ED. lia.
      * exists n. intros i u HU NI. destruct (I4 i u HU NI) as [A|A]; [left; exact A|right; right; exact A].
      * intros j b [E|JB]; [injection E as <- <-; auto|apply I5, JB].
    + left. split; [reflexivity|]. destruct (I4 k s HS NZ) as [(_ & A)|A]; [right; rewrite TE, TL in A; exact A|left; exact A].
Qed.

Lemma life_inv page size m t segs log : 0 < page -> life page size m t segs log -> inv t segs log.
Proof.
  intro PG. induction 1 as [m base l m' t B V SZ E|m t segs log next l next' t' H IH V E|m t segs log a v H IH|m t segs log k s off al m' t' a H IH HS FR E].
  - destruct (start_ok page l PG V m base B) as (m2 & t2 & E2 & (RM & RL & RB & _) & _ & _ & _ & DV). rewrite E in E2. injection E2 as <- <-.
    assert (ND : forall i s, nth_error l i = Some s -> exists x, nth_error (static_layout 0 l) i = Some x /\ nth i (ents t) 0 = tend t - moff x /\ mseg x = msz s).
    { intros i s HS. pose proof (layout_nth l 0 i) as LN. rewrite HS in LN. destruct (nth_error (static_layout 0 l) i) as [x|] eqn:HX; [|destruct LN].
      exists x. split; [reflexivity|]. split; [|apply LN]. unfold ents. rewrite DV. apply nth_error_nth. apply (map_nth_error (fun x => tend t - moff x)). exact HX. }
    pose proof (size_nn page l PG V) as (S1 & S2).
    constructor.
    + rewrite RM. clear -V. generalize 0. induction V as [|s l V VL IH]; intro z; cbn [static_layout]; constructor; auto.
    + eexists. split; [exact DV|]. rewrite map_length, layout_len. lia.
    + exact V.
    + exists (length l). intros i s HS _. left. destruct (ND i s HS) as (x & HX & -> & MX). pose proof (layout_bound _ _ _ _ V HX) as LB. change (size_after 0 l) with (tls_size l) in LB.
      split; [apply nth_error_Some; rewrite HS; discriminate|]. rewrite RL. lia.
    + intros k b [].
    + intros i j s u NE HS HU _ _. destruct (ND i s HS) as (x & HX & -> & MX), (ND j u HU) as (y & HY & -> & MY). rewrite <- MX, <- MY.
      apply (layout_disjoint l 0 i j); assumption.
  - unfold dlopen_tls in E. injection E as _ <-. destruct IH as [I1 (d & DV & DL) I3 (n & I4) I5 I6].
    assert (EN : ents (Tcb (tend t) (tlen t) (masters t ++ map (place size) l) (ncop t) (dtv t)) = ents t) by reflexivity.
    assert (OLD : forall i, nth i (ents t) 0 <> 0 -> nth_error (segs ++ l) i = nth_error segs i).
    { intros i NZ. apply nth_error_app1. unfold ents in NZ. rewrite DV in NZ. destruct (Nat.lt_ge_cases i (length d)) as [L|L]; [lia|].
      rewrite (nth_overflow d 0 L) in NZ. congruence. }
    constructor.
    + cbn [masters]. apply Forall2_app; [exact I1|]. clear. induction l; cbn [map]; constructor; auto.
    + exists d. split; [exact DV|]. rewrite app_length. lia.
    + apply Forall_app. auto.
    + exists n. rewrite EN. cbn [tend tlen]. intros i s HS NZ. rewrite OLD in HS by exact NZ. exact (I4 i s HS NZ).
    + rewrite EN. intros k b KB. destruct (I5 _ _ KB) as (A & B & D). split; [exact A|]. split; [exact B|]. rewrite app_length. lia.
    + rewrite EN. intros i j s u NE HS HU NI NJ. rewrite OLD in HS, HU by assumption. apply I6; assumption.
  - exact IH.
  - destruct (get_inv m t segs log k s off al IH HS FR) as (m2 & t2 & b & E2 & I2 & _). rewrite E in E2. injection E2 as <- <- ->.
    replace (b + off - off) with b by lia. exact I2.
Qed.

Lemma life_ok page size m t segs log : 0 < page -> life page size m t segs log ->
  (forall k b b', In (k, b) log -> In (k, b') log -> b = b') /\
  (forall k k' b b' s u, k <> k' -> In (k, b) log -> In (k', b') log -> nth_error segs k = Some s -> nth_error segs k' = Some u -> disjoint b (msz s) b' (msz u)) /\
  (forall k s off al, nth_error segs k = Some s -> fresh t segs log al (msz s) ->
     exists m' t' b, tls_get_addr m t (Z.of_nat k + 1) off al = Ok (m', t', b + off) /\
       ((m' = m /\ (In (k, b) log \/ (tend t - tlen t <= b /\ b + msz s <= tend t))) \/
        ((forall b', ~ In (k, b') log) /\ b = al /\ (forall j, 0 <= j < msz s -> m' (al + j) = nth (Z.to_nat j) (img s) 0) /\
         forall a, a < al \/ al + msz s <= a -> m' a = m a))).
Proof.
  intros PG H. pose proof (life_inv _ _ _ _ _ _ PG H) as IV. pose proof IV as [I1 I2 I3 I4 I5 I6]. split; [|split].
  - intros k b b' A B. apply I5 in A, B. destruct A as (<- & _), B as (<- & _). reflexivity.
  - intros k k' b b' s u NE A B HS HU. apply I5 in A, B. destruct A as (A & A0 & _), B as (B & B0 & _). subst b b'. apply I6; assumption.
  - intros k s off al HS FR. destruct (get_inv m t segs log k s off al IV HS FR) as (m' & t' & b & E & _ & D). exists m', t', b. auto.
Qed.

Lemma create_both page l : 0 < page -> Forall valid l ->
  (forall m base, 0 < base -> exists m' t, start_tls page m base l = Ok (m', t) /\ tend t - tlen t = base /\
     forall a, a < base \/ tend t <= a -> m' a = m a) /\
  (forall m0 cur m base, thread page l m0 cur -> 0 < base -> exists m' t, spawn_tls page m base cur = Ok (m', t) /\ tend t - tlen t = base /\
     forall a, a < base \/ tend t <= a -> m' a = m a).
Proof.
  intros PG V. split.
  - intros m base B. destruct (start_ok page l PG V m base B) as (m' & t & E & (_ & RL & _) & _ & O & T & _). exists m', t. split; [exact E|].
    rewrite RL, T. split; [lia|exact O].
  - intros m0 cur m base TH B. destruct (thread_ready page l PG V _ _ TH) as (R & _).
    destruct (spawn_ok page l PG V m base cur R B) as (m' & t & E & (_ & RL & _) & _ & O & T). exists m', t. split; [exact E|].
    rewrite RL, T. split; [lia|exact O].
Qed.
Lemma thread_aligned page l m t k i x : 0 < page -> Forall valid l -> thread page l m t -> 0 < k -> (k | 16) -> (k | tend t) ->
  Forall (fun s => (k | msz s)) l -> nth_error (masters t) i = Some x -> (k | tend t + tpoff x 0 0).
Proof.
  intros PG V TH K K16 KT KS HX. destruct (thread_ready page l PG V _ _ TH) as ((RM & _) & _). rewrite RM in HX.
  unfold tpoff. replace (tend t + (0 + 0 - moff x)) with (tend t - moff x) by lia. apply Z.divide_sub_r; [exact KT|].
  eapply layout_aligned; eassumption.
Qed.
