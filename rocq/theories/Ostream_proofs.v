From Coq Require Import ZArith List Bool Lia Arith.
From Verif Require Import Ostream_model Ostream_spec.
Import ListNotations.
Open Scope Z_scope.

Definition bad_in (orc : nat -> wres) (i j : nat) : Prop := exists x, (i <= x < j)%nat /\ bad orc x.

Lemma bad_in_mono orc i j i' j' : bad_in orc i j -> (i' <= i)%nat -> (j <= j')%nat -> bad_in orc i' j'.
Proof. intros (x & H & B) A C. exists x. split; [lia|exact B]. Qed.

Lemma sys_write_spec orc d buf d' r : sys_write orc d buf = (d', r) ->
  calls d' = S (calls d) /\ exists k, (k <= length buf)%nat /\ out d' = out d ++ firstn k buf /\
  match r with Some n => n = k /\ (k = 0%nat -> buf = [] \/ bad orc (calls d)) | None => k = 0%nat /\ bad orc (calls d) end.
Proof.
  unfold sys_write. destruct (orc (calls d)) as [|n] eqn:O; intro H; inversion H; subst; cbn [calls out].
  - split; [reflexivity|]. exists 0%nat. cbn [firstn]. rewrite app_nil_r. repeat split; auto; try lia. left. exact O.
  - split; [reflexivity|]. exists (Nat.min n (length buf)). split; [lia|]. split; [reflexivity|]. split; [reflexivity|].
    intro Z. destruct buf; [left; reflexivity|right]. right. destruct n; [exact O|cbn in Z; lia].
Qed.

Lemma firstn_add {A} (a b : nat) (l : list A) : firstn (a + b) l = firstn a l ++ firstn b (skipn a l).
Proof. revert l. induction a; intros [|x l]; cbn; auto; [rewrite firstn_nil; auto|rewrite IHa; auto]. Qed.

Lemma skipn_add {A} (a b : nat) (l : list A) : skipn (a + b) l = skipn b (skipn a l).
Proof. revert l. induction a; intros [|x l]; cbn; auto. rewrite skipn_nil. reflexivity. Qed.

Lemma flush_loop_spec orc : forall fuel d buf w, (w <= length buf)%nat -> (length buf - w < fuel)%nat ->
  exists d' w' ok, flush_loop fuel orc d buf w = Some (d', w', ok) /\ (w <= w' <= length buf)%nat /\
    out d' = out d ++ firstn (w' - w) (skipn w buf) /\ (calls d <= calls d')%nat /\
    if ok : bool then w' = length buf else bad_in orc (calls d) (calls d').
Proof.
  induction fuel as [|f IH]; intros d buf w L F; [lia|]. cbn [flush_loop].
  destruct (Nat.ltb_spec w (length buf)) as [LT|GE].
  - destruct (sys_write orc d (skipn w buf)) as (d1 & r) eqn:S. apply sys_write_spec in S.
    destruct S as (C & k & KL & O & R). rewrite skipn_length in KL.
    destruct r as [n|].
    + destruct R as (-> & R). destruct k as [|k].
      * exists d1, w, false. rewrite Nat.sub_diag. cbn [firstn] in O |- *. split; [reflexivity|]. split; [lia|]. split; [exact O|]. split; [lia|].
        destruct (R eq_refl) as [E|B].
        -- apply (f_equal (@length Z)) in E. rewrite skipn_length in E. cbn in E. lia.
        -- exists (calls d). split; [lia|exact B].
      * destruct (IH d1 buf (w + S k)%nat) as (d2 & w2 & ok & E & LW & O2 & CM & OK); [lia|lia|].
        exists d2, w2, ok. split; [exact E|]. split; [lia|]. split; [|split; [lia|]].
        -- rewrite O2, O, skipn_add, <- app_assoc. f_equal. rewrite <- firstn_add. f_equal. lia.
        -- destruct ok; [exact OK|]. eapply bad_in_mono; [exact OK|lia|lia].
    + destruct R as (-> & B). exists d1, w, false. rewrite Nat.sub_diag. cbn [firstn] in O |- *. split; [reflexivity|]. split; [lia|]. split; [exact O|].
      split; [lia|]. exists (calls d). split; [lia|exact B].
  - exists d, w, true. rewrite Nat.sub_diag. cbn [firstn]. rewrite app_nil_r. repeat split; auto; lia.
Qed.

Lemma flush_buf_spec orc d buf : exists d' b' ok, flush_buf orc d buf = Some (d', b', ok) /\
  out d' ++ b' = out d ++ buf /\ (calls d <= calls d')%nat /\ (exists p, buf = p ++ b') /\
  if ok : bool then b' = [] else bad_in orc (calls d) (calls d').
Proof.
  unfold flush_buf. destruct (flush_loop_spec orc (S (length buf)) d buf 0) as (d' & w & ok & E & L & O & C & OK); [lia|lia|].
  rewrite E. exists d', (skipn w buf), ok. split; [reflexivity|]. cbn [skipn] in O. rewrite Nat.sub_0_r in O.
  split; [rewrite O, <- app_assoc, firstn_skipn; reflexivity|]. split; [exact C|].
  split; [exists (firstn w buf); symmetry; apply firstn_skipn|]. destruct ok; [|exact OK]. subst w. apply skipn_all.
Qed.

Definition got (r : option nat) : nat := match r with Some n => n | None => 0 end.

Lemma DEFAULT_pos : (0 < DEFAULT_BUF_SIZE)%nat.
Proof. unfold DEFAULT_BUF_SIZE. lia. Qed.
Opaque DEFAULT_BUF_SIZE.

Lemma bw_write_spec cap orc d buf data : exists d' b' r, bw_write cap orc d buf data = Some (d', b', r) /\
  (got r <= length data)%nat /\ out d' ++ b' = out d ++ buf ++ firstn (got r) data /\ (calls d <= calls d')%nat /\
  (forall x, In x b' -> In x buf \/ In x data) /\
  match r with None => bad_in orc (calls d) (calls d') | Some 0%nat => data = [] \/ bad_in orc (calls d) (calls d') | _ => True end.
Proof.
  unfold bw_write. set (c := if (cap =? 0)%nat then DEFAULT_BUF_SIZE else cap).
  assert (CP : (0 < c)%nat). { unfold c. pose proof DEFAULT_pos. destruct (Nat.eqb_spec cap 0); lia. }
  assert (PUT : forall d1 b1, (calls d <= calls d1)%nat -> out d1 ++ b1 = out d ++ buf -> (forall x, In x b1 -> In x buf) ->
     ((c <=? length data)%nat = true -> b1 = []) ->
     exists d' b' r, (if (c <=? length data)%nat
       then (let '(d', r) := sys_write orc d1 data in Some (d', b1, r)) else Some (d1, b1 ++ data, Some (length data))) = Some (d', b', r) /\
     (got r <= length data)%nat /\ out d' ++ b' = out d ++ buf ++ firstn (got r) data /\ (calls d <= calls d')%nat /\
     (forall x, In x b' -> In x buf \/ In x data) /\
     match r with None => bad_in orc (calls d) (calls d') | Some 0%nat => data = [] \/ bad_in orc (calls d) (calls d') | _ => True end).
  { intros d1 b1 CD OB INC EM. destruct (Nat.leb_spec c (length data)) as [LE|GT].
    - specialize (EM eq_refl). subst b1. destruct (sys_write orc d1 data) as (d2 & r) eqn:S. apply sys_write_spec in S.
      destruct S as (C & k & KL & O & R). exists d2, [], r. split; [reflexivity|]. rewrite app_nil_r in *.
      assert (G : got r = k) by (destruct r; cbn; [tauto|symmetry; tauto]). rewrite G. split; [exact KL|].
      split; [rewrite O, OB, <- app_assoc; reflexivity|]. split; [lia|]. split; [intros x []|].
      destruct r as [n|].
      + destruct R as (-> & R). destruct k; auto. destruct (R eq_refl) as [->|B]; [left; reflexivity|right].
        exists (calls d1). split; [lia|exact B].
      + exists (calls d1). split; [lia|tauto].
    - exists d1, (b1 ++ data), (Some (length data)). split; [reflexivity|]. cbn [got]. split; [lia|].
      split; [rewrite app_assoc, OB, firstn_all, <- app_assoc; reflexivity|]. split; [exact CD|].
      split; [intros x H; apply in_app_or in H; destruct H; auto|]. destruct data; cbn; auto. }
  destruct (Nat.ltb_spec c (length buf + length data)) as [LT|GE].
  - destruct (flush_buf_spec orc d buf) as (d1 & b1 & ok & E & O & C & (p & P) & OK). rewrite E. destruct ok.
    + apply PUT; auto. intros x H. rewrite P. apply in_or_app. right. exact H.
    + exists d1, b1, None. cbn [got firstn]. rewrite app_nil_r. split; [reflexivity|]. split; [lia|]. split; [exact O|]. split; [exact C|].
      split; [|exact OK]. intros x H. left. rewrite P. apply in_or_app. right. exact H.
  - apply PUT; auto. intro LE. apply Nat.leb_le in LE. destruct buf; auto. cbn in GE. lia.
Qed.

Lemma last_nl_none l : last_nl l = None -> ~ In 10 l.
Proof.
  induction l as [|c r IH]; cbn [last_nl]; [auto|]. destruct (last_nl r); [discriminate|].
  destruct (Z.eqb_spec c 10); [discriminate|]. intros _ [H|H]; [congruence|apply IH; auto].
Qed.

Lemma last_nl_some l i : last_nl l = Some i -> (0 < i <= length l)%nat /\ ~ In 10 (skipn i l).
Proof.
  revert i. induction l as [|c r IH]; cbn [last_nl]; intros i H; [discriminate|].
  destruct (last_nl r) as [n|] eqn:E.
  - inversion H; subst i. destruct (IH n eq_refl) as (A & B). cbn [length skipn]. split; [lia|exact B].
  - destruct (c =? 10); inversion H; subst i. cbn [length skipn]. split; [lia|]. apply last_nl_none. exact E.
Qed.

(* A newline in a line buffer is remembered. *)
Definition jw (w : writer) : Prop := In 10 (wbuf w) -> need_flush w = true.

Lemma lw_flush_spec orc d w : jw w -> exists d' w' ok, lw_flush orc d w = Some (d', w', ok) /\
  out d' ++ wbuf w' = out d ++ wbuf w /\ (calls d <= calls d')%nat /\ jw w' /\
  if ok : bool then wbuf w' = [] else bad_in orc (calls d) (calls d').
Proof.
  intro J. unfold lw_flush. destruct (flush_buf_spec orc d (wbuf w)) as (d' & b' & ok & E & O & C & (p & P) & OK). rewrite E.
  destruct ok.
  - exists d', (Writer b' false), true. cbn. subst b'. repeat split; auto. intros [].
  - exists d', (Writer b' (need_flush w)), false. cbn. repeat split; auto. intro H. cbn in H. apply J. rewrite P. apply in_or_app. right. exact H.
Qed.

Definition wpost orc (d : dev) (b : list Z) (data : list Z) (d' : dev) (b' : list Z) (r : option nat) : Prop :=
  (got r <= length data)%nat /\ out d' ++ b' = out d ++ b ++ firstn (got r) data /\ (calls d <= calls d')%nat /\
  match r with None => bad_in orc (calls d) (calls d') | Some 0%nat => data = [] \/ bad_in orc (calls d) (calls d') | _ => True end.

Lemma lw_body cap orc d w data : jw w -> ~ In 10 (wbuf w) -> exists d' w' r,
  match last_nl data with
    | None =>
        match bw_write cap orc d (wbuf w) data with
        | Some (d', b', r) => Some (d', Writer b' (need_flush w), r)
        | None => None
        end
    | Some i =>
        match bw_write cap orc d (wbuf w) (firstn i data) with
        | None => None
        | Some (d1, b1, None) => Some (d1, Writer b1 (need_flush w), None)
        | Some (d1, b1, Some n) =>
            match lw_flush orc d1 (Writer b1 true) with
            | None => None
            | Some (d2, w2, ok) =>
                if negb ok || negb (n =? i)%nat then Some (d2, w2, Some n)
                else
                  match bw_write cap orc d2 (wbuf w2) (skipn i data) with
                  | None => None
                  | Some (d3, b3, Some j) => Some (d3, Writer b3 (need_flush w2), Some (n + j)%nat)
                  | Some (d3, b3, None) => Some (d3, Writer b3 (need_flush w2), Some n)
                  end
            end
        end
    end = Some (d', w', r) /\ wpost orc d (wbuf w) data d' (wbuf w') r /\ jw w' /\
    (In 10 (wbuf w') -> bad_in orc (calls d) (calls d')).
Proof.
  intros J NN. destruct (last_nl data) as [i|] eqn:NL.
  - apply last_nl_some in NL. destruct NL as (IL & NT).
    assert (FL : length (firstn i data) = i) by (rewrite firstn_length; lia).
    destruct (bw_write_spec cap orc d (wbuf w) (firstn i data)) as (d1 & b1 & r1 & E & G & O & C & INC & R). rewrite E.
    destruct r1 as [n|].
    + cbn [got] in *. rewrite FL in G. rewrite firstn_firstn in O. replace (Nat.min n i) with n in O by lia.
      destruct (lw_flush_spec orc d1 (Writer b1 true)) as (d2 & w2 & ok & E2 & O2 & C2 & J2 & OK); [intro; reflexivity|]. rewrite E2. cbn [wbuf] in O2.
      destruct ok; cbn [negb orb].
      * destruct (Nat.eqb_spec n i) as [->|NE]; cbn [negb].
        -- destruct (bw_write_spec cap orc d2 (wbuf w2) (skipn i data)) as (d3 & b3 & r3 & E3 & G3 & O3 & C3 & INC3 & R3). rewrite E3.
           rewrite OK in *. rewrite skipn_length in G3. 
           assert (NB : ~ In 10 b3) by (intro H; apply INC3 in H; destruct H as [[]|H]; contradiction).
           destruct r3 as [j|]; cbn [got] in *.
           ++ exists d3, (Writer b3 (need_flush w2)), (Some (i + j)%nat). cbn [wbuf]. split; [reflexivity|]. split; [|split; [intro H; contradiction|intro H; contradiction]].
              split; [cbn [got]; lia|]. cbn [got]. split; [|split; [lia|destruct i; [lia|exact Logic.I]]].
              rewrite O3, O2 || idtac. cbn [app] in O3. rewrite app_nil_r in O2. rewrite O3, O2, O, <- !app_assoc, firstn_add. reflexivity.
           ++ exists d3, (Writer b3 (need_flush w2)), (Some i). cbn [wbuf]. split; [reflexivity|]. split; [|split; [intro H; contradiction|intro H; contradiction]].
              split; [cbn [got]; lia|]. cbn [got]. split; [|split; [lia|destruct i; [lia|exact Logic.I]]].
              cbn [app firstn] in O3. rewrite app_nil_r in O2, O3. rewrite O3, O2, O. reflexivity.
        -- exists d2, w2, (Some n). split; [reflexivity|]. rewrite OK in *. split; [|split; [exact J2|intros []]].
           split; [cbn [got]; lia|]. cbn [got]. split; [rewrite O2, O; reflexivity|]. split; [lia|]. destruct n; auto. right.
           destruct R as [R|R]; [rewrite R in FL; cbn in FL; lia|]. eapply bad_in_mono; [exact R|lia|lia].
      * exists d2, w2, (Some n). split; [reflexivity|]. assert (B : bad_in orc (calls d) (calls d2)) by (eapply bad_in_mono; [exact OK|lia|lia]).
        split; [|split; [exact J2|intros _; exact B]].
        split; [cbn [got]; lia|]. cbn [got]. split; [rewrite O2, O; reflexivity|]. split; [lia|]. destruct n; auto.
    + exists d1, (Writer b1 (need_flush w)), None. cbn [wbuf got] in *. split; [reflexivity|]. cbn [firstn] in O. split.
      * split; [cbn; lia|]. cbn [got firstn]. split; [exact O|]. split; [exact C|exact R].
      * assert (B1 : forall x, In x b1 -> In x (wbuf w)).
        { intros x H. unfold bw_write in E. destruct (_ <? _)%nat in E.
          - destruct (flush_buf_spec orc d (wbuf w)) as (d4 & b4 & ok4 & E4 & _ & _ & (p & P) & OK4). rewrite E4 in E. rewrite P. apply in_or_app. right.
            destruct ok4; [|inversion E; subst; exact H].
            destruct (_ <=? _)%nat in E; [|discriminate]. destruct (sys_write orc d4 (firstn i data)) as (d5 & r5) in E. inversion E; subst; exact H.
          - destruct (_ <=? _)%nat in E; [|discriminate]. destruct (sys_write orc d (firstn i data)) as (d5 & r5) in E. inversion E; subst; exact H. }
        split; [intro H; cbn in H; apply J, B1, H|]. intro H. destruct NN. apply B1, H.
  - apply last_nl_none in NL.
    destruct (bw_write_spec cap orc d (wbuf w) data) as (d1 & b1 & r1 & E & G & O & C & INC & R). rewrite E.
    exists d1, (Writer b1 (need_flush w)), r1. cbn [wbuf]. split; [reflexivity|].
    assert (NB : ~ In 10 b1) by (intro H; apply INC in H; destruct H; contradiction).
    split; [repeat split; auto|]. split; [intro H; contradiction|intro H; contradiction].
Qed.

Lemma lw_write_spec cap orc d w data : jw w -> exists d' w' r, lw_write cap orc d w data = Some (d', w', r) /\
  wpost orc d (wbuf w) data d' (wbuf w') r /\ jw w' /\ (In 10 (wbuf w') -> bad_in orc (calls d) (calls d')).
Proof.
  intro J. unfold lw_write. destruct (need_flush w) eqn:NF.
  - destruct (lw_flush_spec orc d w J) as (d1 & w1 & ok & E & O & C & J1 & OK). rewrite E. destruct ok.
    + destruct (lw_body cap orc d1 w1 data J1) as (d2 & w2 & r & E2 & (P1 & P2 & P3 & P4) & J2 & B2); [rewrite OK; intros []|].
      exists d2, w2, r. split; [exact E2|]. split; [|split; [exact J2|]].
      * split; [exact P1|]. split; [rewrite P2, app_assoc, O, <- app_assoc; reflexivity|]. split; [lia|].
        destruct r as [[|n]|]; auto; [destruct P4 as [P4|P4]; auto; right|]; (eapply bad_in_mono; [exact P4|lia|lia]).
      * intro H. eapply bad_in_mono; [apply B2, H|lia|lia].
    + exists d1, w1, None. split; [reflexivity|]. split; [|split; [exact J1|intros _; exact OK]].
      split; [cbn; lia|]. cbn [got firstn]. rewrite app_nil_r. repeat split; auto.
  - assert (NN : ~ In 10 (wbuf w)) by (intro H; apply J in H; congruence).
    destruct (lw_body cap orc d w data J NN) as (d2 & w2 & r & E2 & P & J2 & B2). exists d2, w2, r. split; [rewrite NF in E2; exact E2|]. split; [exact P|]. split; [exact J2|exact B2].
Qed.

(* Streams. *)
Definition sinv (k : wkind) (s : stream) : Prop :=
  match k with WBuf => True | WLine => jw (swr s) | WUnbuf => wbuf (swr s) = [] end.

Definition nl_ok (k : wkind) (orc : nat -> wres) (s s' : stream) : Prop :=
  k = WLine -> In 10 (wbuf (swr s')) -> bad_in orc (calls (sdev s)) (calls (sdev s')).

Lemma f_write_spec k cap orc s data : sinv k s -> exists s' r, f_write k cap orc s data = Some (s', r) /\
  wpost orc (sdev s) (wbuf (swr s)) data (sdev s') (wbuf (swr s')) r /\ sinv k s' /\ nl_ok k orc s s' /\
  ferr s' = match r with None => true | Some _ => ferr s end.
Proof.
  intro I. unfold f_write. destruct k; cbn [sinv] in *.
  - destruct (bw_write_spec cap orc (sdev s) (wbuf (swr s)) data) as (d1 & b1 & r & E & G & O & C & INC & R). rewrite E.
    destruct r as [n|]; eexists _, _; (split; [reflexivity|]); cbn [sdev swr wbuf ferr]; (split; [repeat split; auto|]); (split; [exact Logic.I|]); (split; [intro K; discriminate|reflexivity]).
  - destruct (lw_write_spec cap orc (sdev s) (swr s) data I) as (d1 & w1 & r & E & P & J & B). rewrite E.
    destruct r as [n|]; eexists _, _; (split; [reflexivity|]); cbn [sdev swr wbuf ferr]; (split; [exact P|]); (split; [exact J|]); (split; [intros _; exact B|reflexivity]).
  - destruct (sys_write orc (sdev s) data) as (d1 & r) eqn:E. apply sys_write_spec in E. destruct E as (C & kk & KL & O & R).
    assert (G : got r = kk) by (destruct r; cbn; [tauto|symmetry; tauto]).
    assert (W : wpost orc (sdev s) (wbuf (swr s)) data d1 (wbuf (swr s)) r).
    { split; [rewrite G; exact KL|]. split; [rewrite I, app_nil_r, G, O; reflexivity|]. split; [lia|].
      destruct r as [n|].
      - destruct R as (-> & R). destruct kk; auto. destruct (R eq_refl) as [->|B]; [left; reflexivity|right]. exists (calls (sdev s)). split; [lia|exact B].
      - exists (calls (sdev s)). split; [lia|tauto]. }
    destruct r as [n|]; eexists _, _; (split; [reflexivity|]); cbn [sdev swr wbuf ferr]; (split; [exact W|]); (split; [exact I|]); (split; [intro K; discriminate|reflexivity]).
Qed.

Lemma f_flush_spec k orc s : sinv k s -> exists s' ok, f_flush k orc s = Some (s', ok) /\
  out (sdev s') ++ wbuf (swr s') = out (sdev s) ++ wbuf (swr s) /\ (calls (sdev s) <= calls (sdev s'))%nat /\ sinv k s' /\ nl_ok k orc s s' /\
  (if ok : bool then wbuf (swr s') = [] else bad_in orc (calls (sdev s)) (calls (sdev s'))) /\
  ferr s' = if ok : bool then ferr s else true.
Proof.
  intro I. unfold f_flush. destruct k; cbn [sinv] in *.
  - destruct (flush_buf_spec orc (sdev s) (wbuf (swr s))) as (d1 & b1 & ok & E & O & C & _ & OK). rewrite E.
    eexists _, _. split; [reflexivity|]. cbn [sdev swr wbuf ferr]. split; [exact O|]. split; [exact C|]. split; [exact Logic.I|].
    split; [intro K; discriminate|]. auto.
  - destruct (lw_flush_spec orc (sdev s) (swr s) I) as (d1 & w1 & ok & E & O & C & J & OK). rewrite E.
    eexists _, _. split; [reflexivity|]. cbn [sdev swr wbuf ferr]. split; [exact O|]. split; [exact C|]. split; [exact J|].
    split; [|auto]. intros _ H. cbn [sdev swr] in *. destruct ok; [rewrite OK in H; destruct H|exact OK].
  - eexists _, _. split; [reflexivity|]. cbn [sdev swr wbuf ferr]. repeat split; auto. intro K; discriminate.
Qed.

Lemma write_loop_spec k cap orc : forall fuel s data w, sinv k s -> (w <= length data)%nat -> (length data - w < fuel)%nat ->
  exists s' w', write_loop fuel k cap orc s data w = Some (s', w') /\ (w <= w' <= length data)%nat /\
    out (sdev s') ++ wbuf (swr s') = out (sdev s) ++ wbuf (swr s) ++ firstn (w' - w) (skipn w data) /\
    (calls (sdev s) <= calls (sdev s'))%nat /\ sinv k s' /\
    (w' = length data \/ bad_in orc (calls (sdev s)) (calls (sdev s'))) /\
    (k = WLine -> In 10 (wbuf (swr s')) -> In 10 (wbuf (swr s)) \/ bad_in orc (calls (sdev s)) (calls (sdev s'))) /\
    ((w < length data)%nat -> nl_ok k orc s s').
Proof.
  induction fuel as [|f IH]; intros s data w I L F; [lia|]. cbn [write_loop].
  destruct (Nat.ltb_spec w (length data)) as [LT|GE].
  - destruct (f_write_spec k cap orc s (skipn w data) I) as (s1 & r & E & (P1 & P2 & P3 & P4) & I1 & N1 & _). rewrite E.
    rewrite skipn_length in P1.
    assert (NE : skipn w data <> []). { intro H. apply (f_equal (@length Z)) in H. rewrite skipn_length in H. cbn in H. lia. }
    destruct r as [[|n]|]; cbn [got] in *.
    + exists s1, w. rewrite Nat.sub_diag. split; [reflexivity|]. split; [lia|]. split; [exact P2|]. split; [exact P3|]. split; [exact I1|].
      split; [right; destruct P4; [contradiction|auto]|]. split; [intros K H; right; apply N1; auto|intros _; exact N1].
    + destruct (IH s1 data (w + S n)%nat I1) as (s2 & w2 & E2 & L2 & O2 & C2 & I2 & D2 & N2 & N3); [lia|lia|].
      exists s2, w2. split; [exact E2|]. split; [lia|]. split; [|split; [lia|split; [exact I2|split; [|]]]].
      * rewrite O2, app_assoc, P2, <- !app_assoc. f_equal. f_equal. rewrite skipn_add. rewrite <- firstn_add. f_equal. lia.
      * destruct D2 as [D2|D2]; [left; exact D2|right]. eapply bad_in_mono; [exact D2|lia|lia].
      * assert (X : nl_ok k orc s s2).
        { intros K H. destruct (N2 K H) as [H1|H1]; [eapply bad_in_mono; [apply (N1 K H1)|lia|lia]|eapply bad_in_mono; [exact H1|lia|lia]]. }
        split; [intros K H; right; apply X; auto|intros _; exact X].
    + exists s1, w. rewrite Nat.sub_diag. split; [reflexivity|]. split; [lia|]. split; [exact P2|]. split; [exact P3|]. split; [exact I1|].
      split; [right; exact P4|]. split; [intros K H; right; apply N1; auto|intros _; exact N1].
  - exists s, w. rewrite Nat.sub_diag. cbn [firstn]. rewrite app_nil_r. split; [reflexivity|]. split; [lia|]. split; [reflexivity|].
    split; [lia|]. split; [exact I|]. split; [left; lia|]. split; [auto|lia].
Qed.

Lemma write_bytes_spec k cap orc s data : sinv k s ->
  exists s' w, write_bytes k cap orc s data = Some (s', w) /\ (w <= length data)%nat /\
    out (sdev s') ++ wbuf (swr s') = out (sdev s) ++ wbuf (swr s) ++ firstn w data /\
    (calls (sdev s) <= calls (sdev s'))%nat /\ sinv k s' /\
    (w = length data \/ bad_in orc (calls (sdev s)) (calls (sdev s'))) /\
    (k = WLine -> In 10 (wbuf (swr s')) -> In 10 (wbuf (swr s)) \/ bad_in orc (calls (sdev s)) (calls (sdev s'))) /\
    (data <> [] -> nl_ok k orc s s').
Proof.
  intro I. unfold write_bytes. destruct (write_loop_spec k cap orc (S (length data)) s data 0 I) as (s' & w & E & L & O & C & I1 & D & N1 & N2); [lia|lia|].
  exists s', w. cbn [skipn] in O. rewrite Nat.sub_0_r in O. repeat split; auto; try lia. intro NE. apply N2. destruct data; [congruence|cbn; lia].
Qed.

Lemma concat_length (items : list (list Z)) size : (forall i, In i items -> length i = size) ->
  length (concat items) = (length items * size)%nat.
Proof.
  induction items as [|a r IH]; intro H; [reflexivity|]. cbn [concat length]. rewrite app_length, IH by (intros; apply H; right; auto).
  rewrite (H a) by (left; reflexivity). lia.
Qed.

Lemma firstn_short (n : nat) (l : list Z) : (n <= length l)%nat -> (firstn n l = l <-> n = length l).
Proof.
  intro L. split; intro H; [apply (f_equal (@length Z)) in H; rewrite firstn_length in H; lia|subst; apply firstn_all].
Qed.

Lemma o_exec_spec k cap orc s o : sinv k s -> valid_op o -> exists s' v acc, o_exec k cap orc s o = Some (s', v) /\
  accepts o v acc /\ out (sdev s') ++ wbuf (swr s') = (out (sdev s) ++ wbuf (swr s)) ++ acc /\ sinv k s' /\
  (calls (sdev s) <= calls (sdev s'))%nat /\
  (o = OpFlush -> v = 0 -> wbuf (swr s') = []) /\
  (~ bad_in orc (calls (sdev s)) (calls (sdev s')) -> acc = given o /\ v = success o) /\
  (~ bad_in orc (calls (sdev s)) (calls (sdev s')) -> k = WLine -> given o <> [] \/ o = OpFlush -> ~ In 10 (wbuf (swr s'))) /\
  (forall b, o = OpPuts b -> v = 0 -> acc = given o \/ bad_in orc (calls (sdev s)) (calls (sdev s'))).
Proof.
  intros I V. destruct o as [size items|b|c|b|]; cbn [o_exec valid_op] in *.
  - destruct V as (SZ & IL). pose proof (concat_length items size IL) as CL.
    destruct (Nat.eqb_spec size 0) as [->|_]; [lia|]. cbn [orb].
    destruct (Nat.eqb_spec (length items) 0) as [E0|NE0].
    + destruct items; [|discriminate]. exists s, 0, []. cbn [given concat]. split; [reflexivity|].
      split; [split; [exists []; reflexivity|cbn; rewrite Nat.div_0_l by lia; split; [reflexivity|tauto]]|].
      rewrite app_nil_r. split; [reflexivity|]. split; [exact I|]. split; [lia|]. split; [discriminate|]. split; [auto|].
      split; [intros _ _ [H|H]; [destruct H; reflexivity|discriminate]|]. discriminate.
    + destruct (write_bytes_spec k cap orc s (concat items) I) as (s' & w & E & WL & O & C & I1 & D & N1 & N2). rewrite E.
      exists s', (Z.of_nat (w / size)), (firstn w (concat items)). split; [reflexivity|].
      assert (FL : length (firstn w (concat items)) = w) by (rewrite firstn_length; lia).
      assert (WV : w = length (concat items) <-> Z.of_nat (w / size) = Z.of_nat (length items)).
      { rewrite CL in *. split; intro H; [subst w; rewrite Nat.div_mul by lia; reflexivity|].
        apply Nat2Z.inj in H. pose proof (Nat.mul_div_le w size ltac:(lia)) as M. rewrite H in M. nia. }
      split; [split; [exists (skipn w (concat items)); symmetry; apply firstn_skipn|]|].
      * split; [rewrite FL; reflexivity|]. rewrite <- WV. symmetry. apply firstn_short. exact WL.
      * split; [rewrite O, app_assoc; reflexivity|]. split; [exact I1|]. split; [exact C|]. split; [discriminate|].
        split; [intro NB; destruct D as [D|D]; [|contradiction]; split; [apply firstn_short; auto|apply WV; exact D]|].
        split; [|discriminate]. intros NB K [G|G] H; [|discriminate]. apply NB. apply (N2 G K H).
  - destruct (write_bytes_spec k cap orc s b I) as (s' & w & E & WL & O & C & I1 & D & N1 & N2). rewrite E.
    exists s', (if (w =? length b)%nat then 0 else -1), (firstn w b). split; [reflexivity|].
    split; [split; [exists (skipn w b); symmetry; apply firstn_skipn|]|].
    + destruct (Nat.eqb_spec w (length b)) as [EQ|NE]; [left|right]; split; auto; [apply firstn_short; auto|]. intro H. apply firstn_short in H; auto.
    + split; [rewrite O, app_assoc; reflexivity|]. split; [exact I1|]. split; [exact C|]. split; [discriminate|].
      split; [intro NB; destruct D as [D|D]; [|contradiction]; split; [apply firstn_short; auto|]; subst w; rewrite Nat.eqb_refl; reflexivity|].
      split; [|discriminate]. intros NB K [G|G] H; [|discriminate]. apply NB. apply (N2 G K H).
  - destruct (f_write_spec k cap orc s [c mod 256] I) as (s' & r & E & (P1 & P2 & P3 & P4) & I1 & N1 & _). rewrite E.
    assert (NL : ~ bad_in orc (calls (sdev s)) (calls (sdev s')) -> k = WLine -> ~ In 10 (wbuf (swr s'))).
    { intros NB K H. apply NB. apply (N1 K H). }
    destruct r as [[|n]|]; cbn [got length firstn] in *.
    + exists s', EOF, []. split; [reflexivity|]. split; [split; [exists [c mod 256]; reflexivity|right; auto]|].
      split; [rewrite P2, !app_nil_r; reflexivity|]. split; [exact I1|]. split; [exact P3|]. split; [discriminate|].
      split; [intro NB; destruct P4; [discriminate|contradiction]|]. split; [auto|discriminate].
    + assert (n = 0%nat) by lia. subst n. exists s', c, [c mod 256]. split; [reflexivity|].
      split; [split; [exists []; reflexivity|left; auto]|]. cbn [firstn] in P2.
      split; [rewrite P2, app_assoc; reflexivity|]. split; [exact I1|]. split; [exact P3|]. split; [discriminate|].
      split; [auto|]. split; [auto|discriminate].
    + exists s', EOF, []. split; [reflexivity|]. split; [split; [exists [c mod 256]; reflexivity|right; auto]|].
      split; [rewrite P2, !app_nil_r; reflexivity|]. split; [exact I1|]. split; [exact P3|]. split; [discriminate|].
      split; [intro NB; contradiction|]. split; [auto|discriminate].
  - destruct (write_bytes_spec k cap orc s b I) as (s1 & w & E & WL & O & C & I1 & D & N1 & N2). rewrite E.
    destruct (Nat.eqb_spec w (length b)) as [EQ|NE].
    + subst w. rewrite firstn_all in O.
      destruct (f_write_spec k cap orc s1 [10] I1) as (s' & r & E1 & (P1 & P2 & P3 & P4) & I2 & N3 & _). rewrite E1.
      assert (NL : ~ bad_in orc (calls (sdev s)) (calls (sdev s')) -> k = WLine -> ~ In 10 (wbuf (swr s'))).
      { intros NB K H. apply NB. eapply bad_in_mono; [apply (N3 K H)|lia|lia]. }
      destruct r as [[|n]|]; cbn [got length firstn] in *.
      * exists s', 0, b. split; [reflexivity|]. split; [split; [exists [10]; reflexivity|left; reflexivity]|].
        split; [rewrite P2, app_nil_r, O, app_assoc; reflexivity|]. split; [exact I2|]. split; [lia|]. split; [discriminate|].
        assert (B : bad_in orc (calls (sdev s)) (calls (sdev s'))). { destruct P4 as [P4|P4]; [discriminate|]. eapply bad_in_mono; [exact P4|lia|lia]. }
        split; [intro NB; contradiction|]. split; [auto|]. intros; right; exact B.
      * assert (n = 0%nat) by lia. subst n. cbn [firstn] in P2. exists s', 0, (b ++ [10]). split; [reflexivity|].
        split; [split; [exists []; rewrite app_nil_r; reflexivity|left; reflexivity]|].
        split; [rewrite P2, app_assoc, O, <- !app_assoc; reflexivity|]. split; [exact I2|]. split; [lia|]. split; [discriminate|].
        split; [auto|]. split; [auto|]. intros; left; reflexivity.
      * exists s', (-1), b. split; [reflexivity|]. split; [split; [exists [10]; reflexivity|right; reflexivity]|].
        split; [rewrite P2, app_nil_r, O, app_assoc; reflexivity|]. split; [exact I2|]. split; [lia|]. split; [discriminate|].
        assert (B : bad_in orc (calls (sdev s)) (calls (sdev s'))). { eapply bad_in_mono; [exact P4|lia|lia]. }
        split; [intro NB; contradiction|]. split; [auto|]. intros; right; exact B.
    + assert (B : bad_in orc (calls (sdev s)) (calls (sdev s1))) by (destruct D; [contradiction|auto]).
      exists s1, (-1), (firstn w b). split; [reflexivity|].
      split; [split; [exists (skipn w b ++ [10]); cbn [given]; rewrite app_assoc, firstn_skipn; reflexivity|right; reflexivity]|].
      split; [rewrite O, app_assoc; reflexivity|]. split; [exact I1|]. split; [lia|]. split; [discriminate|].
      split; [intro NB; contradiction|]. split; [intro NB; contradiction|]. intros; right; exact B.
  - destruct (f_flush_spec k orc s I) as (s' & ok & E & O & C & I1 & N1 & OK & _). rewrite E.
    exists s', (if ok then 0 else EOF), []. split; [reflexivity|]. split; [split; [exists []; reflexivity|destruct ok; auto]|].
    split; [rewrite app_nil_r; exact O|]. split; [exact I1|]. split; [exact C|].
    split; [intros _ H; destruct ok; [exact OK|discriminate]|].
    split; [intro NB; destruct ok; [auto|contradiction]|].
    split; [|discriminate]. intros NB K _ H. apply NB. apply (N1 K H).
Qed.

Lemma sinv_open k : sinv k o_open.
Proof. destruct k; cbn; auto. intros []. Qed.

Lemma o_run_spec k cap orc : forall l s, sinv k s -> (forall o, In o l -> valid_op o) ->
  exists s' vs acs, o_run k cap orc s l = Some (s', vs) /\ all_accept l vs acs /\ sinv k s' /\
    out (sdev s') ++ wbuf (swr s') = (out (sdev s) ++ wbuf (swr s)) ++ concat acs.
Proof.
  induction l as [|o l IH]; intros s I V.
  - exists s, [], []. cbn [o_run concat]. rewrite app_nil_r. repeat split; auto. constructor.
  - destruct (o_exec_spec k cap orc s o I) as (s1 & v & acc & E & A & O & I1 & _); [apply V; left; reflexivity|].
    destruct (IH s1 I1) as (s2 & vs & acs & E2 & A2 & I2 & O2); [intros; apply V; right; auto|].
    exists s2, (v :: vs), (acc :: acs). cbn [o_run concat]. rewrite E, E2. repeat split; auto; [constructor; auto|].
    rewrite O2, O, <- !app_assoc. reflexivity.
Qed.

Lemma o_run_reach k cap orc l s vs : (forall o, In o l -> valid_op o) -> o_run k cap orc o_open l = Some (s, vs) -> sinv k s.
Proof.
  intros V R. destruct (o_run_spec k cap orc l o_open (sinv_open k) V) as (s' & vs' & acs & E & _ & I & _). congruence.
Qed.

Lemma o_ordered k cap orc l : (forall o, In o l -> valid_op o) ->
  exists s vs acs, o_run k cap orc o_open l = Some (s, vs) /\ all_accept l vs acs /\
    out (sdev s) ++ wbuf (swr s) = concat acs /\ (k = WUnbuf -> wbuf (swr s) = []).
Proof.
  intro V. destruct (o_run_spec k cap orc l o_open (sinv_open k) V) as (s & vs & acs & E & A & I & O).
  exists s, vs, acs. repeat split; auto. intros ->. exact I.
Qed.

Lemma o_no_failure k cap orc l s vs o s' v : (forall o, In o l -> valid_op o) -> valid_op o ->
  o_run k cap orc o_open l = Some (s, vs) -> o_exec k cap orc s o = Some (s', v) ->
  (forall j, (calls (sdev s) <= j < calls (sdev s'))%nat -> ~ bad orc j) ->
  v = success o /\ out (sdev s') ++ wbuf (swr s') = (out (sdev s) ++ wbuf (swr s)) ++ given o /\
  (k = WLine -> given o <> [] \/ o = OpFlush -> ~ In 10 (wbuf (swr s'))).
Proof.
  intros V V1 R E NB. pose proof (o_run_reach k cap orc l s vs V R) as I.
  destruct (o_exec_spec k cap orc s o I V1) as (s1 & v1 & acc & E1 & A & O & I1 & C & FL & GD & NL & PU).
  rewrite E in E1. inversion E1; subst s1 v1. assert (N : ~ bad_in orc (calls (sdev s)) (calls (sdev s'))).
  { intros (x & H & B). apply (NB x H B). }
  destruct (GD N) as (-> & ->). split; [reflexivity|]. split; [exact O|]. intros K G. apply (NL N K G).
Qed.

Lemma o_flush k cap orc l s vs s' : (forall o, In o l -> valid_op o) ->
  o_run k cap orc o_open l = Some (s, vs) -> o_exec k cap orc s OpFlush = Some (s', 0) ->
  wbuf (swr s') = [] /\ out (sdev s') = out (sdev s) ++ wbuf (swr s).
Proof.
  intros V R E. pose proof (o_run_reach k cap orc l s vs V R) as I.
  destruct (o_exec_spec k cap orc s OpFlush I Logic.I) as (s1 & v1 & acc & E1 & A & O & I1 & C & FL & _).
  rewrite E in E1. inversion E1; subst s1 v1. specialize (FL eq_refl eq_refl). split; [exact FL|].
  destruct A as ((rest & G) & _). cbn in G. symmetry in G. apply app_eq_nil in G. destruct G as (-> & _).
  rewrite FL, !app_nil_r in O. exact O.
Qed.

