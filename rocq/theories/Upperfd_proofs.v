(* Lemmas about Upperfd_model: lists, bits, the free list. *)
From Coq Require Import ZArith List Bool Lia.
From Verif Require Import Upperfd_spec Upperfd_model.
Import ListNotations.
Open Scope Z_scope.

Lemma tlen_nonneg l : 0 <= tlen l. Proof. unfold tlen; lia. Qed.
Lemma tlen_cons e l : tlen (e :: l) = tlen l + 1. Proof. unfold tlen; cbn [length]; lia. Qed.
Lemma tlen_app a b : tlen (a ++ b) = tlen a + tlen b. Proof. unfold tlen; rewrite app_length; lia. Qed.

Definition isocc (e : option entry) : option Z := match e with Some (Occ f) => Some f | _ => None end.
Definition occ (l : list entry) (i : Z) : option Z := isocc (getz l i).
Fixpoint nocc (l : list entry) : Z :=
  match l with [] => 0 | Occ _ :: r => nocc r + 1 | Vac _ :: r => nocc r end.
Definition one (o : option Z) : Z := match o with Some _ => 1 | None => 0 end.

Lemma nocc_range l : 0 <= nocc l <= tlen l.
Proof. induction l as [|[x|x] l IH]; cbn [nocc]; rewrite ?tlen_cons; [cbn; lia|lia|lia]. Qed.
Lemma getz_range : forall l i e, getz l i = Some e -> 0 <= i < tlen l.
Proof.
  induction l as [|x l IH]; intros i e H; [discriminate|].
  cbn [getz] in H. rewrite tlen_cons. pose proof (tlen_nonneg l).
  destruct (i =? 0) eqn:E; [apply Z.eqb_eq in E; lia|]. apply IH in H. lia.
Qed.
Lemma getz_some : forall l i, 0 <= i < tlen l -> exists e, getz l i = Some e.
Proof.
  induction l as [|x l IH]; intros i H; [cbn in H; lia|].
  cbn [getz]. rewrite tlen_cons in H. destruct (i =? 0) eqn:E; [eauto|]. apply Z.eqb_neq in E. apply IH. lia.
Qed.
Lemma getz_out l i : ~ (0 <= i < tlen l) -> getz l i = None.
Proof. intros H. destruct (getz l i) eqn:E; [apply getz_range in E; tauto|reflexivity]. Qed.
Lemma occ_out l i : ~ (0 <= i < tlen l) -> occ l i = None.
Proof. intros H. unfold occ. rewrite getz_out by exact H. reflexivity. Qed.
Lemma getz_app : forall a b i, getz (a ++ b) i = if i <? tlen a then getz a i else getz b (i - tlen a).
Proof.
  induction a as [|x a IH]; intros b i.
  - cbn [app]. change (tlen []) with 0. destruct (i <? 0) eqn:E.
    + apply getz_out. apply Z.ltb_lt in E. lia.
    + f_equal; lia.
  - cbn [app getz]. rewrite tlen_cons. pose proof (tlen_nonneg a).
    destruct (i =? 0) eqn:E.
    + apply Z.eqb_eq in E. destruct (i <? tlen a + 1) eqn:F; [reflexivity|apply Z.ltb_ge in F; lia].
    + rewrite IH. destruct (i - 1 <? tlen a) eqn:F; destruct (i <? tlen a + 1) eqn:G;
        rewrite ?Z.ltb_lt, ?Z.ltb_ge in *; try lia; [reflexivity|f_equal; lia].
Qed.
Lemma nocc_app : forall a b, nocc (a ++ b) = nocc a + nocc b.
Proof. induction a as [|[x|x] a IH]; intros b; cbn [nocc app]; rewrite ?IH; lia. Qed.

Lemma setz_some : forall l i e, 0 <= i < tlen l -> exists l', setz l i e = Some l'.
Proof.
  induction l as [|x l IH]; intros i e H; [cbn in H; lia|].
  cbn [setz]. rewrite tlen_cons in H. destruct (i =? 0) eqn:E; [eauto|]. apply Z.eqb_neq in E.
  destruct (IH (i - 1) e ltac:(lia)) as [r R]. rewrite R. eauto.
Qed.
Lemma setz_ok : forall l i e l', setz l i e = Some l' ->
  0 <= i < tlen l /\ tlen l' = tlen l /\ (forall j, getz l' j = if j =? i then Some e else getz l j)
  /\ nocc l' = nocc l - one (occ l i) + one (isocc (Some e)).
Proof.
  induction l as [|x l IH]; intros i e l' H; [discriminate|].
  cbn [setz] in H. pose proof (tlen_nonneg l). destruct (i =? 0) eqn:E.
  - injection H as <-. apply Z.eqb_eq in E. subst i. rewrite !tlen_cons.
    split; [lia|]. split; [lia|]. split.
    + intros j. cbn [getz]. destruct (j =? 0); reflexivity.
    + unfold occ. cbn [getz]. change (0 =? 0) with true. destruct x, e; cbn [nocc isocc one]; lia.
  - destruct (setz l (i - 1) e) as [r|] eqn:R; [|discriminate]. injection H as <-.
    apply Z.eqb_neq in E. apply IH in R. destruct R as (A & B & C & D). rewrite !tlen_cons.
    split; [lia|]. split; [lia|]. split.
    + intros j. cbn [getz]. destruct (j =? 0) eqn:F.
      * apply Z.eqb_eq in F. destruct (j =? i) eqn:G; [apply Z.eqb_eq in G; lia|reflexivity].
      * rewrite C. destruct (j - 1 =? i - 1) eqn:G; destruct (j =? i) eqn:K; rewrite ?Z.eqb_eq, ?Z.eqb_neq in *; try lia; reflexivity.
    + assert (OO : occ (x :: l) i = occ l (i - 1)).
      { unfold occ. cbn [getz]. destruct (i =? 0) eqn:F; [apply Z.eqb_eq in F; lia|reflexivity]. }
      rewrite OO. destruct x; cbn [nocc]; lia.
Qed.
Lemma occ_set l i e l' j : setz l i e = Some l' -> occ l' j = if j =? i then isocc (Some e) else occ l j.
Proof. intros H. apply setz_ok in H. destruct H as (_ & _ & C & _). unfold occ. rewrite C. destruct (j =? i); reflexivity. Qed.

(* bits *)
Lemma tag_bit n : 0 <= n -> Z.testbit TAG n = (n =? 62).
Proof.
  intros H. change TAG with (2 ^ 62). rewrite Z.pow2_bits_eqb by lia. apply Z.eqb_sym.
Qed.
Lemma strip_on d : 0 <= d -> Z.testbit d 62 = true -> strip_tags d = d - TAG.
Proof.
  intros D H. unfold strip_tags. symmetry. apply Z.sub_nocarry_ldiff.
  apply Z.bits_inj'. intros n N. rewrite Z.ldiff_spec, Z.bits_0, tag_bit by lia.
  destruct (n =? 62) eqn:E; [apply Z.eqb_eq in E; subst; rewrite H|]; reflexivity.
Qed.
Lemma strip_off d : Z.testbit d 62 = false -> strip_tags d = d.
Proof.
  intros H. unfold strip_tags. apply Z.bits_inj'. intros n N. rewrite Z.ldiff_spec, tag_bit by lia.
  destruct (n =? 62) eqn:E; [apply Z.eqb_eq in E; subst; rewrite H; reflexivity|apply andb_true_r].
Qed.
Lemma low_bit i : 0 <= i < TAG -> Z.testbit i 62 = false.
Proof.
  intros H. apply Z.testbit_false; [lia|]. change (2 ^ 62) with TAG. rewrite Z.div_small by exact H. reflexivity.
Qed.
Lemma tagged_add i : 0 <= i < TAG -> tagged i = i + TAG.
Proof.
  intros H. unfold tagged.
  assert (L : Z.land i TAG = 0).
  { apply Z.bits_inj'. intros n N. rewrite Z.land_spec, Z.bits_0, tag_bit by lia.
    destruct (n =? 62) eqn:E; [|apply andb_false_r]. apply Z.eqb_eq in E; subst. rewrite low_bit by exact H. reflexivity. }
  rewrite <- Z.lxor_lor by exact L. symmetry. apply Z.add_nocarry_lxor, L.
Qed.
Lemma upper_add i : 0 <= i < TAG -> upper (i + TAG).
Proof.
  intros H. split; [change (2 ^ 64) with (4 * TAG); unfold TAG in *; lia|].
  rewrite <- tagged_add by exact H. unfold tagged. rewrite Z.lor_spec, tag_bit by lia. apply orb_true_r.
Qed.
Lemma upper_index d : upper d -> strip_tags d = index d /\ 0 <= index d.
Proof.
  intros [D H]. split; [apply strip_on; [lia|exact H]|].
  unfold index. destruct (Z_lt_ge_dec d TAG) as [L|L]; [|lia]. rewrite (low_bit d) in H by lia. discriminate.
Qed.
Lemma named_index d : 0 <= d < 2 ^ 64 -> index (named d) = strip_tags d /\ 0 <= strip_tags d
  /\ (strip_tags d < TAG -> upper (named d)).
Proof.
  intros D. unfold named. destruct (Z.testbit d 62) eqn:B.
  - destruct (upper_index d (conj D B)) as [U V]. rewrite U. split; [reflexivity|]. split; [exact V|]. intros _. split; assumption.
  - rewrite strip_off by exact B. unfold index. split; [lia|]. split; [lia|]. intros L. apply upper_add. lia.
Qed.

(* views *)
Lemma flags_upper t d : upper d -> flags_of t d = occ (tab t) (index d).
Proof.
  intros U. unfold flags_of, get_flags. destruct (upper_index d U) as [S _]. rewrite S. destruct U as [D B].
  rewrite B. replace (0 <=? d) with true by (symmetry; apply Z.leb_le; lia).
  replace (d <? 2 ^ 64) with true by (symmetry; apply Z.ltb_lt; lia). reflexivity.
Qed.
Lemma flags_not t d : ~ upper d -> flags_of t d = None.
Proof.
  intros U. unfold flags_of. destruct (0 <=? d) eqn:A; [|reflexivity]. destruct (d <? 2 ^ 64) eqn:B; [|reflexivity].
  destruct (Z.testbit d 62) eqn:C; [|reflexivity]. exfalso. apply U. rewrite ?Z.leb_le, ?Z.ltb_lt in *. split; [lia|exact C].
Qed.
Lemma upper_dec d : upper d \/ ~ upper d.
Proof.
  unfold upper. destruct (Z.testbit d 62); [|right; intros [_ H]; discriminate].
  destruct (Z_le_gt_dec 0 d); [|right; lia]. destruct (Z_lt_ge_dec d (2 ^ 64)); [left; split; [lia|reflexivity]|right; lia].
Qed.
Lemma index_inj d x : index d = index x -> d = x. Proof. unfold index; lia. Qed.
Lemma view_same t t' : (forall j, occ (tab t') j = occ (tab t) j) -> same (flags_of t') (flags_of t).
Proof.
  intros H d. destruct (upper_dec d) as [U|U]; [rewrite !flags_upper by exact U; apply H|rewrite !flags_not by exact U; reflexivity].
Qed.
Lemma view_put t t' d v : upper d ->
  (forall j, occ (tab t') j = if j =? index d then v else occ (tab t) j) -> same (flags_of t') (put (flags_of t) d v).
Proof.
  intros U H x. unfold put. destruct (upper_dec x) as [V|V].
  - rewrite !flags_upper by exact V. rewrite H. destruct (x =? d) eqn:E.
    + apply Z.eqb_eq in E. subst. rewrite Z.eqb_refl. reflexivity.
    + apply Z.eqb_neq in E. destruct (index x =? index d) eqn:F; [|reflexivity]. apply Z.eqb_eq, index_inj in F. congruence.
  - rewrite !flags_not by exact V. destruct (x =? d) eqn:E; [|reflexivity]. apply Z.eqb_eq in E. congruence.
Qed.
Lemma put_all_get : forall ds u f x, put_all u ds f x = if existsb (Z.eqb x) ds then Some f else u x.
Proof.
  induction ds as [|d ds IH]; intros u f x; [reflexivity|]. cbn [put_all existsb]. rewrite IH.
  unfold put. destruct (existsb (Z.eqb x) ds); [rewrite orb_true_r; reflexivity|]. rewrite orb_false_r. reflexivity.
Qed.
Lemma view_put_all t t' ds f : (forall d, In d ds -> upper d) ->
  (forall j, occ (tab t') j = if existsb (Z.eqb j) (map index ds) then Some f else occ (tab t) j) ->
  same (flags_of t') (put_all (flags_of t) ds f).
Proof.
  intros U H x. rewrite put_all_get. destruct (upper_dec x) as [V|V].
  - rewrite !flags_upper by exact V. rewrite H.
    replace (existsb (Z.eqb x) ds) with (existsb (Z.eqb (index x)) (map index ds)); [reflexivity|].
    clear. induction ds as [|d ds IH]; [reflexivity|]. cbn [map existsb]. rewrite IH. f_equal.
    unfold index. destruct (x =? d) eqn:E; rewrite ?Z.eqb_eq, ?Z.eqb_neq in *; lia.
  - rewrite !flags_not by exact V. destruct (existsb (Z.eqb x) ds) eqn:E; [|reflexivity].
    apply existsb_exists in E. destruct E as (d & D & E). apply Z.eqb_eq in E. subst. destruct (V (U _ D)).
Qed.

(* the free list *)
Inductive chain (g : Z -> option entry) : Z -> list Z -> Prop :=
| chain_nil : chain g MAXF []
| chain_cons i nx ks : i <> MAXF -> g i = Some (Vac nx) -> chain g nx ks -> chain g i (i :: ks).
Lemma chain_ext g g' i ks : chain g i ks -> (forall k, In k ks -> g' k = g k) -> chain g' i ks.
Proof.
  induction 1 as [|i nx ks N G C IH]; intros E; [constructor|].
  apply chain_cons with nx; [exact N|rewrite E by (left; reflexivity); exact G|]. apply IH. intros k K. apply E. right. exact K.
Qed.
Lemma chain_vac g i ks : chain g i ks -> forall k, In k ks -> isocc (g k) = None /\ g k <> None.
Proof.
  induction 1 as [|i nx ks N G C IH]; intros k K; [destruct K|]. destruct K as [<-|K]; [rewrite G; split; [reflexivity|discriminate]|apply IH; exact K].
Qed.

Lemma w32_id z : 0 <= z < 4294967296 -> w32 z = z. Proof. intros. unfold w32. apply Z.mod_small. lia. Qed.
Lemma w64_id z : 0 <= z < 18446744073709551616 -> w64 z = z. Proof. intros. unfold w64. apply Z.mod_small. lia. Qed.

Lemma rebuild_ok : forall l s l' nx, 0 <= s -> s + tlen l <= 4294967296 -> rebuild l s = (l', nx) ->
  tlen l' = tlen l /\ nocc l' = nocc l /\ (forall j, occ l' j = occ l j)
  /\ exists ks, chain (fun i => getz l' (i - s)) nx ks /\ NoDup ks /\ (forall k, In k ks -> s <= k)
     /\ (s + tlen l <= MAXF -> forall i, 0 <= i < tlen l -> occ l i = None -> In (i + s) ks).
Proof.
  induction l as [|e l IH]; intros s l' nx S B R.
  - cbn [rebuild] in R. injection R as <- <-. split; [reflexivity|]. split; [reflexivity|]. split; [reflexivity|].
    exists []. split; [constructor|]. split; [constructor|]. split; [intros k []|]. intros _ i I. change (tlen []) with 0 in I. lia.
  - cbn [rebuild] in R. destruct (rebuild l (s + 1)) as [r' nx'] eqn:E. rewrite tlen_cons in B.
    pose proof (tlen_nonneg l) as L.
    destruct (IH (s + 1) r' nx' ltac:(lia) ltac:(lia) E) as (A1 & A2 & A3 & ks & C & N & G & F).
    assert (SH : forall x, chain (fun i => getz (x :: r') (i - s)) nx' ks).
    { intros x. apply chain_ext with (1 := C). intros k K. apply G in K. cbn [getz].
      destruct (k - s =? 0) eqn:Q; [apply Z.eqb_eq in Q; lia|]. f_equal; lia. }
    assert (OC : forall x x' j, isocc (Some x') = isocc (Some x) -> occ (x' :: r') j = occ (x :: l) j).
    { intros x x' j X. unfold occ. cbn [getz]. destruct (j =? 0); [exact X|]. apply A3. }
    assert (FF : forall x, s + tlen (x :: l) <= MAXF -> forall i, i <> 0 -> 0 <= i < tlen (x :: l) -> occ (x :: l) i = None -> In (i + s) ks).
    { intros x M i I0 I O. rewrite tlen_cons in *. replace (i + s) with (i - 1 + (s + 1)) by lia. apply F; [lia|lia|].
      unfold occ in *. cbn [getz] in O. destruct (i =? 0) eqn:Q; [apply Z.eqb_eq in Q; lia|exact O]. }
    destruct e as [v|f]; injection R as <- <-.
    + rewrite !tlen_cons. split; [lia|]. split; [cbn [nocc]; exact A2|]. split; [intros j; apply OC; reflexivity|].
      rewrite w32_id by lia.
      destruct (Z.eq_dec s MAXF) as [Q|Q].
      * exists []. subst s. split; [constructor|]. split; [constructor|]. split; [intros k []|]. intros M i I. unfold MAXF in *. lia.
      * exists (s :: ks). split.
        { apply chain_cons with nx'; [exact Q| |apply SH]. replace (s - s) with 0 by lia. reflexivity. }
        split. { constructor; [|exact N]. intros K. apply G in K. lia. }
        split. { intros k [<-|K]; [lia|]. apply G in K. lia. }
        intros M i I O. destruct (Z.eq_dec i 0) as [->|I0]; [left; lia|]. right. apply (FF (Vac v)); rewrite ?tlen_cons; try lia. exact O.
    + rewrite !tlen_cons. split; [lia|]. split; [cbn [nocc]; lia|]. split; [intros j; apply OC; reflexivity|].
      exists ks. split; [apply SH|]. split; [exact N|]. split; [intros k K; apply G in K; lia|].
      intros M i I O. destruct (Z.eq_dec i 0) as [->|I0]; [discriminate O|]. apply (FF (Occ f)); rewrite ?tlen_cons; try lia. exact O.
Qed.

Record inv (cap oth : Z) (t : fdt) : Prop := Inv {
  i_cap : tlen (tab t) <= cap;
  i_oth : 0 <= oth <= MAXF;
  i_cnt : cnt t = nocc (tab t);
  i_act : active t = oth + nocc (tab t);
  i_kt : has t = true -> tlen (tab t) <= kt t;
  i_chain : exists ks, chain (getz (tab t)) (first t) ks /\ NoDup ks
     /\ (tlen (tab t) <= MAXF -> forall i, 0 <= i < tlen (tab t) -> occ (tab t) i = None -> In i ks) }.

Lemma rebuild_tab t : tlen (tab t) < 4294967296 ->
  let t' := rebuild_free_list t in
  tlen (tab t') = tlen (tab t) /\ nocc (tab t') = nocc (tab t) /\ (forall j, occ (tab t') j = occ (tab t) j)
  /\ cnt t' = cnt t /\ active t' = active t /\ has t' = has t /\ kt t' = kt t
  /\ exists ks, chain (getz (tab t')) (first t') ks /\ NoDup ks
     /\ (tlen (tab t') <= MAXF -> forall i, 0 <= i < tlen (tab t') -> occ (tab t') i = None -> In i ks).
Proof.
  intros B. unfold rebuild_free_list. destruct (rebuild (tab t) 0) as [l nx] eqn:E. cbn [tab cnt first active has kt].
  destruct (rebuild_ok (tab t) 0 l nx ltac:(lia) ltac:(lia) E) as (A1 & A2 & A3 & ks & C & N & _ & F).
  do 7 (split; [first [assumption|reflexivity]|]). exists ks. split.
  { apply chain_ext with (1 := C). intros k _. f_equal; lia. }
  split; [exact N|]. intros M i I O. rewrite A1 in *. rewrite A3 in O. specialize (F M i I O). replace (i + 0) with i in F by lia. exact F.
Qed.
Lemma repeat_vac n j : occ (repeat (Vac MAXF) n) j = None.
Proof.
  unfold occ. revert j. induction n as [|n IH]; intros j; [reflexivity|]. cbn [repeat getz]. destruct (j =? 0); [reflexivity|apply IH].
Qed.
Lemma nocc_repeat n : nocc (repeat (Vac MAXF) n) = 0.
Proof. induction n as [|n IH]; [reflexivity|exact IH]. Qed.
Lemma occ_grow l n j : occ (l ++ repeat (Vac MAXF) n) j = occ l j.
Proof.
  unfold occ. rewrite getz_app. destruct (j <? tlen l) eqn:E; [reflexivity|]. apply Z.ltb_ge in E.
  rewrite (getz_out l j) by lia. apply (repeat_vac n (j - tlen l)).
Qed.
Lemma resize_ok cap t n t' : cap < 4294967296 -> tlen (tab t) <= n -> resize cap t n = Some t' ->
  n <= cap /\ tlen (tab t') = n /\ nocc (tab t') = nocc (tab t) /\ (forall j, occ (tab t') j = occ (tab t) j)
  /\ cnt t' = cnt t /\ active t' = active t /\ has t' = has t /\ kt t' = kt t
  /\ exists ks, chain (getz (tab t')) (first t') ks /\ NoDup ks
     /\ (tlen (tab t') <= MAXF -> forall i, 0 <= i < tlen (tab t') -> occ (tab t') i = None -> In i ks).
Proof.
  intros C L R. unfold resize in R. destruct (cap <? n) eqn:E; [discriminate|]. apply Z.ltb_ge in E.
  pose proof (tlen_nonneg (tab t)) as P.
  rewrite firstn_all2 in R by (unfold tlen in *; lia). injection R as <-.
  set (t1 := with_tab t (tab t ++ repeat (Vac MAXF) (Z.to_nat (n - tlen (tab t))))).
  assert (T1 : tlen (tab t1) = n).
  { unfold t1. cbn [tab with_tab]. rewrite tlen_app. unfold tlen at 2. rewrite repeat_length. lia. }
  destruct (rebuild_tab t1 ltac:(lia)) as (A1 & A2 & A3 & A4 & A5 & A6 & A7 & A8).
  split; [exact E|]. split; [lia|].
  split. { rewrite A2. unfold t1. cbn [tab with_tab]. rewrite nocc_app, nocc_repeat. lia. }
  split. { intros j. rewrite A3. unfold t1. cbn [tab with_tab]. apply occ_grow. }
  do 4 (split; [assumption|]). exact A8.
Qed.
