From Coq Require Import ZArith List Bool Lia.
From Verif Require Import Base Sort_model Uio_model Uio_spec.
Import ListNotations.
Open Scope Z_scope.

Definition pos (l : list iovec) : list Z := flat_map (fun v => area (fst v) (snd v)) l.
Lemma places_pos : forall iov cnt, places iov cnt = pos (array iov cnt).
Proof.
  intros. unfold places, pos, array. induction (seq 0 (Z.to_nat cnt)) as [|i l IH]; [reflexivity|]. cbn. rewrite IH. reflexivity.
Qed.
Definition range (a : Z) (n : nat) : list Z := map (fun i => a + Z.of_nat i) (seq 0 n).
Lemma range_S : forall a n, range a (S n) = a :: range (a + 1) n.
Proof.
  intros. unfold range. cbn [seq map]. f_equal; [lia|]. rewrite <- seq_shift, map_map. apply map_ext. intro i. lia.
Qed.
Lemma range_len : forall a n, length (range a n) = n.
Proof. intros. unfold range. rewrite map_length, seq_length. reflexivity. Qed.

Lemma load_ok : forall m n a bs, holds m (range a n) bs -> load m a n = Ok bs.
Proof.
  intros m n. induction n as [|n IH]; intros a bs H.
  - inversion H. reflexivity.
  - rewrite range_S in H. inversion H as [|x b l bs' E H']; subst. cbn [load]. unfold ld. rewrite E. cbn [bind]. rewrite (IH _ _ H'). reflexivity.
Qed.
Lemma gather_ok : forall m l bs, holds m (pos l) bs -> gather m l = Ok bs.
Proof.
  intros m l. induction l as [|(a, n) l IH]; intros bs H.
  - inversion H. reflexivity.
  - cbn [pos flat_map fst snd] in H. apply Forall2_app_inv_l in H. destruct H as (b1 & b2 & H1 & H2 & ->). cbn [gather].
    rewrite (load_ok _ _ _ _ H1). cbn [bind]. rewrite (IH _ H2). reflexivity.
Qed.

Fixpoint sts (m : mem) (ps vs : list Z) : res mem :=
  match ps, vs with
  | p :: ps, v :: vs => m1 <- st m p v ;; sts m1 ps vs
  | _, _ => Ok m
  end.
Lemma sts_st_bytes : forall l m a, st_bytes m a l = sts m (range a (length l)) l.
Proof.
  induction l as [|b l IH]; intros m a; [reflexivity|]. cbn [length]. rewrite range_S. cbn [st_bytes sts]. destruct (st m a b); [|reflexivity..]. cbn [bind]. apply IH.
Qed.
Lemma sts_app : forall p1 v1 m p2 v2, length p1 = length v1 -> sts m (p1 ++ p2) (v1 ++ v2) = (m1 <- sts m p1 v1 ;; sts m1 p2 v2).
Proof.
  induction p1 as [|p p1 IH]; intros [|v v1] m p2 v2 L; cbn in L; try lia; [reflexivity|]. cbn [app sts]. destruct (st m p v); [|reflexivity..]. cbn [bind]. apply IH. lia.
Qed.
Lemma scatter_sts : forall l vec m, length vec = length (pos l) -> scatter m l vec = sts m (pos l) vec.
Proof.
  induction l as [|(a, n) l IH]; intros vec m L.
  - destruct vec; reflexivity.
  - cbn [pos flat_map fst snd] in L |- *. cbn [scatter]. rewrite app_length in L. change (area a n) with (range a (Z.to_nat n)) in *. rewrite range_len in L.
    destruct (Nat.leb_spec (Z.to_nat n) (length vec)); [|lia].
    assert (FL : length (firstn (Z.to_nat n) vec) = Z.to_nat n) by (apply firstn_length_le; lia).
    transitivity (sts m (range a (Z.to_nat n) ++ pos l) (firstn (Z.to_nat n) vec ++ skipn (Z.to_nat n) vec)); [|rewrite firstn_skipn; reflexivity].
    rewrite sts_app by (rewrite range_len; lia). rewrite sts_st_bytes, FL.
    destruct (sts m (range a (Z.to_nat n)) (firstn (Z.to_nat n) vec)) eqn:E; [|reflexivity..]. cbn [bind]. apply IH. rewrite skipn_length. unfold pos. lia.
Qed.
Lemma sts_ok : forall ps vs m, length ps = length vs -> NoDup ps -> (forall p, In p ps -> exists b, m p = Some b) ->
  exists m', sts m ps vs = Ok m' /\ holds m' ps vs /\ forall x, ~ In x ps -> m' x = m x.
Proof.
  induction ps as [|p ps IH]; intros [|v vs] m L D M; cbn in L; try lia.
  - exists m. split; [reflexivity|]. split; [constructor|reflexivity].
  - inversion D as [|? ? NI D']; subst. destruct (M p (or_introl eq_refl)) as (b & B).
    destruct (IH vs (upd m p v)) as (m' & E & H & F); [lia|exact D'| |].
    { intros q Q. unfold upd. destruct (Z.eqb_spec q p); [eexists; reflexivity|apply M; right; exact Q]. }
    exists m'. cbn [sts]. unfold st. rewrite B. cbn [bind]. split; [exact E|]. split.
    + constructor; [|exact H]. rewrite F by exact NI. unfold upd. rewrite Z.eqb_refl. reflexivity.
    + intros x X. rewrite F by (intro I; apply X; right; exact I). unfold upd. destruct (Z.eqb_spec x p) as [->|]; [exfalso; apply X; left; reflexivity|reflexivity].
Qed.
Lemma holds_app : forall m a b x y, holds m a x -> holds m b y -> holds m (a ++ b) (x ++ y).
Proof. intros. apply Forall2_app; assumption. Qed.
Lemma holds_len : forall m a x, holds m a x -> length a = length x.
Proof. intros m a x H. induction H; [reflexivity|]. cbn. lia. Qed.
Lemma holds_unique : forall m a x y, holds m a x -> holds m a y -> x = y.
Proof.
  intros m a x y H. revert y. induction H as [|p b ps bs E H IH]; intros y Q; inversion Q as [|? c ? cs F Q']; subst; [reflexivity|]. rewrite (IH _ Q'). congruence.
Qed.
Lemma NoDup_app_parts : forall (a b : list Z), NoDup (a ++ b) -> forall x, In x a -> In x b -> False.
Proof.
  induction a as [|y a IH]; intros b D x I J; [contradiction|]. inversion D as [|? ? NI D']; subst. destruct I as [->|I]; [apply NI, in_or_app; right; exact J|eapply IH; eassumption].
Qed.

Lemma app_split : forall (x y d s : list Z), length x = length d -> x ++ y = d ++ s -> x = d /\ y = s.
Proof.
  induction x as [|a x IH]; intros y [|b d] s L E; cbn in L; try lia; [split; [reflexivity|exact E]|]. injection E as -> E.
  destruct (IH y d s) as (-> & ->); [lia|exact E|split; reflexivity].
Qed.
(* writing back what was there beyond the data *)
Lemma spread_ok : forall l m vec d, holds m (pos l) vec -> NoDup (pos l) -> (length d <= length vec)%nat ->
  exists m', scatter m l (d ++ skipn (length d) vec) = Ok m' /\ spread m m' (pos l) d.
Proof.
  intros l m vec d H D L. pose proof (holds_len _ _ _ H) as HL.
  assert (M : forall p, In p (pos l) -> exists b, m p = Some b).
  { intros p I. clear - H I. induction H as [|q b ps bs E H IH]; [contradiction|]. destruct I as [->|I]; [exists b; exact E|apply IH, I]. }
  assert (LL : length (pos l) = length (d ++ skipn (length d) vec)) by (rewrite app_length, skipn_length; lia).
  destruct (sts_ok _ _ m LL D M) as (m' & E & H' & F). exists m'. split; [rewrite scatter_sts by lia; exact E|].
  assert (S : pos l = firstn (length d) (pos l) ++ skipn (length d) (pos l)) by (symmetry; apply firstn_skipn).
  assert (FL : length (firstn (length d) (pos l)) = length d) by (apply firstn_length_le; lia).
  unfold holds in H', H. rewrite S in H'. apply Forall2_app_inv_l in H'. destruct H' as (x & y & X & Y & XY).
  assert (EX : x = d /\ y = skipn (length d) vec).
  { apply app_split; [|symmetry; exact XY]. rewrite <- FL. symmetry. apply (holds_len _ _ _ X). }
  destruct EX as (-> & ->). split; [exact X|].
  intros a NA. destruct (in_dec Z.eq_dec a (pos l)) as [I|I]; [|apply F, I]. rewrite S in I. apply in_app_or in I. destruct I as [I|I]; [contradiction|].
  assert (OLD : holds m (skipn (length d) (pos l)) (skipn (length d) vec)).
  { rewrite S in H. apply Forall2_app_inv_l in H. destruct H as (x & z & X1 & Z1 & XZ). destruct (app_split x z (firstn (length d) vec) (skipn (length d) vec)) as (_ & ->); [|rewrite firstn_skipn; symmetry; exact XZ|exact Z1].
    rewrite firstn_length_le by lia. rewrite <- FL. symmetry. apply (holds_len _ _ _ X1). }
  clear - I OLD Y. revert I. generalize dependent (skipn (length d) (pos l)). generalize (skipn (length d) vec). intros v p O Y. 
  induction O as [|q b ps bs E O IH]; intro I; [contradiction|]. inversion Y; subst. destruct I as [->|I]; [congruence|apply IH; assumption].
Qed.

Lemma in_range_iff : forall cnt, in_range cnt = true <-> 0 <= cnt <= 1024.
Proof. intro cnt. unfold in_range, IOV_MAX. rewrite andb_true_iff, !Z.leb_le. reflexivity. Qed.
Lemma readv_ok : forall rd m fd iov cnt vec, 0 <= cnt <= 1024 -> 0 <= fd -> holds m (places iov cnt) vec -> NoDup (places iov cnt) ->
  (forall d, rd fd (len vec) = inl d -> len d <= len vec) ->
  match rd fd (len (places iov cnt)) with
  | inl d => exists m', readv rd m fd iov cnt = Ok (m', inl (len d)) /\ spread m m' (places iov cnt) d
  | inr e => exists m', readv rd m fd iov cnt = Ok (m', inr e) /\ forall x, m' x = m x
  end.
Proof.
  intros rd m fd iov cnt vec C F H D R. assert (LE : len (places iov cnt) = len vec) by (unfold len; rewrite (holds_len _ _ _ H); reflexivity). rewrite LE.
  rewrite places_pos in *. unfold readv. destruct (in_range cnt) eqn:I; [|apply in_range_iff in C; congruence]. cbn [negb].
  rewrite (gather_ok _ _ _ H). cbn [bind]. destruct (Z.ltb_spec fd 0); [lia|]. destruct (rd fd (len vec)) as [d|e] eqn:E.
  - destruct (spread_ok (array iov cnt) m vec d H D) as (m' & S & P); [specialize (R d eq_refl); unfold len in R; lia|].
    rewrite S. cbn [bind]. exists m'. split; [reflexivity|exact P].
  - destruct (spread_ok (array iov cnt) m vec [] H D) as (m' & S & P); [cbn; lia|]. cbn [app length skipn] in S. rewrite S. cbn [bind]. exists m'. split; [reflexivity|].
    intro x. apply P. intros [].
Qed.
Lemma writev_ok : forall wr m fd iov cnt vec, 0 <= cnt <= 1024 -> 0 <= fd -> holds m (places iov cnt) vec -> writev wr m fd iov cnt = Ok (wr fd vec).
Proof.
  intros wr m fd iov cnt vec C F H. rewrite places_pos in H. unfold writev. destruct (in_range cnt) eqn:I; [|apply in_range_iff in C; congruence]. cbn [negb].
  rewrite (gather_ok _ _ _ H). cbn [bind]. destruct (Z.ltb_spec fd 0); [lia|reflexivity].
Qed.
Lemma iov_range : forall rd wr m fd iov cnt, cnt < 0 \/ 1024 < cnt -> readv rd m fd iov cnt = Ok (m, inr 22) /\ writev wr m fd iov cnt = Ok (inr 22).
Proof.
  intros. unfold readv, writev. destruct (in_range cnt) eqn:I; [apply in_range_iff in I; lia|]. split; reflexivity.
Qed.
