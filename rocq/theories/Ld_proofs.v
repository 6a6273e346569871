From Coq Require Import ZArith List Bool Arith Lia Permutation.
From Verif Require Import Base Ld_model Ld_spec.
Import ListNotations.
Open Scope nat_scope.

(* ---------- lists of objects ---------- *)
Lemma by_id_in l i o : by_id l i = Some o -> In o l /\ oid o = i.
Proof. unfold by_id. intro H. apply find_some in H. destruct H as (A & B). apply Nat.eqb_eq in B. auto. Qed.
Lemma by_name_in l n o : by_name l n = Some o -> In o l /\ onam o = n.
Proof. unfold by_name. intro H. apply find_some in H. destruct H as (A & B). apply Nat.eqb_eq in B. auto. Qed.
Lemma by_id_none l i : by_id l i = None -> ~ In i (map oid l).
Proof.
  intros H IN. apply in_map_iff in IN. destruct IN as (o & E & I). unfold by_id in H.
  apply (find_none _ _ H) in I. rewrite E, Nat.eqb_refl in I. discriminate.
Qed.
Lemma by_name_none l n : by_name l n = None -> ~ In n (map onam l).
Proof.
  intros H IN. apply in_map_iff in IN. destruct IN as (o & E & I). unfold by_name in H.
  apply (find_none _ _ H) in I. rewrite E, Nat.eqb_refl in I. discriminate.
Qed.
Lemma same_by {A} (f : A -> nat) l x y : NoDup (map f l) -> In x l -> In y l -> f x = f y -> x = y.
Proof.
  induction l as [|a l IH]; intros N X Y E; [destruct X|]. cbn [map] in N. apply NoDup_cons_iff in N. destruct N as (N1 & N2).
  destruct X as [->|X], Y as [->|Y]; auto.
  - exfalso. apply N1. rewrite E. apply in_map. exact Y.
  - exfalso. apply N1. rewrite <- E. apply in_map. exact X.
Qed.
Lemma by_id_some l o : NoDup (map oid l) -> In o l -> by_id l (oid o) = Some o.
Proof.
  intros N I. destruct (by_id l (oid o)) as [p|] eqn:E.
  - apply by_id_in in E. destruct E as (I2 & E). f_equal. apply (same_by oid l); auto.
  - apply by_id_none in E. destruct E. apply in_map. exact I.
Qed.
Lemma ins_perm o l : ~ In (oid o) (map oid l) -> Permutation (ins o l) (o :: l).
Proof.
  induction l as [|p l IH]; intro N; [reflexivity|]. cbn [ins]. destruct (oid o <? oid p); [reflexivity|].
  destruct (Nat.eqb_spec (oid o) (oid p)) as [E|E]; [destruct N; left; auto|].
  rewrite IH by (intro H; apply N; right; exact H). apply perm_swap.
Qed.

Lemma drop_split (l : list obj) o : NoDup (map oid l) -> In o l ->
  exists l1 l2, l = l1 ++ o :: l2 /\ filter (fun p => negb (oid p =? oid o)) l = l1 ++ l2.
Proof.
  intros N I. destruct (in_split _ _ I) as (l1 & l2 & ->). exists l1, l2. split; [reflexivity|].
  rewrite map_app in N. cbn [map] in N. apply NoDup_remove_2 in N. rewrite <- map_app in N.
  assert (F : forall l', (forall p, In p l' -> oid p <> oid o) -> filter (fun p => negb (oid p =? oid o)) l' = l').
  { induction l' as [|p l' IH]; intro H; [reflexivity|]. cbn [filter]. destruct (Nat.eqb_spec (oid p) (oid o)) as [E|E].
    - destruct (H p); [left; reflexivity|exact E].
    - cbn [negb]. rewrite IH; [reflexivity|]. intros q Q. apply H. right. exact Q. }
  rewrite filter_app. cbn [filter]. rewrite Nat.eqb_refl. cbn [negb].
  rewrite !F; [reflexivity| |].
  - intros p P E. apply N. rewrite <- E. apply in_map, in_or_app. right. exact P.
  - intros p P E. apply N. rewrite <- E. apply in_map, in_or_app. left. exact P.
Qed.

Lemma assoc_filter n m l : n <> m -> assoc n (filter (fun p => negb (fst p =? m)) l) = assoc n l.
Proof.
  intro N. induction l as [|(a, i) l IH]; [reflexivity|]. cbn [filter fst assoc].
  destruct (Nat.eqb_spec a m) as [->|E]; cbn [negb].
  - destruct (Nat.eqb_spec m n); [congruence|]. exact IH.
  - cbn [assoc]. destruct (a =? n); [reflexivity|exact IH].
Qed.
Lemma assoc_filter_same n l : assoc n (filter (fun p => negb (fst p =? n)) l) = None.
Proof.
  induction l as [|(a, i) l IH]; [reflexivity|]. cbn [filter fst]. destruct (Nat.eqb_spec a n) as [->|E]; cbn [negb]; [exact IH|].
  cbn [assoc]. destruct (Nat.eqb_spec a n); [congruence|exact IH].
Qed.

Lemma add_in s i : In i (add s i) /\ incl s (add s i).
Proof.
  unfold add. destruct (existsb (Nat.eqb i) s) eqn:E.
  - apply existsb_exists in E. destruct E as (j & J & E). apply Nat.eqb_eq in E. subst. split; [exact J|apply incl_refl].
  - split; [apply in_or_app; right; left; reflexivity|apply incl_appl, incl_refl].
Qed.

Section fsys.
Variables (fs : name -> option desc) (rank : name -> nat).
Hypothesis AC : acyclic fs rank.
Hypothesis SO : sonames fs.

Lemma reach_rank n m : reach fs n m -> rank m <= rank n.
Proof. induction 1 as [|m d x R IH F I]; [lia|]. specialize (AC _ _ _ F I). lia. Qed.
Lemma reach_head n d x m : fs n = Some d -> In x (needed d) -> reach fs x m -> reach fs n m.
Proof.
  intros F I. induction 1 as [|m d' y R IH F' I']; [eapply r_step; [apply r_refl|eassumption|eassumption]|].
  eapply r_step; eassumption.
Qed.

(* ---------- the invariant ---------- *)
Record W (s : ld) (held : list obj) : Prop := mkW {
  w_id : NoDup (map oid (objs s ++ held));
  w_nm : NoDup (map onam (objs s ++ held));
  w_lt : forall o, In o (objs s ++ held) -> oid o < nid s;
  w_as : forall n i, assoc n (names s) = Some i -> exists o, In o (objs s ++ held) /\ onam o = n /\ oid o = i;
  w_ob : forall o, In o (objs s) -> assoc (onam o) (names s) = Some (oid o);
  w_fs : forall o, In o (objs s) -> exists d, fs (onam o) = Some d /\ odeps o = needed d;
  w_hd : forall i, In i (handles s) -> present s i;
  w_fn : NoDup (finis s) /\ (forall i, In i (finis s) -> i < nid s /\ ~ In i (map oid (objs s ++ held)));
  w_in : NoDup (inits s) /\ (forall i, In i (inits s) -> i < nid s) /\ (forall o, In o (objs s) -> In (oid o) (inits s)) }.

Definition dep_ok (b : bool) (ob : list obj) (o : obj) (x : name) : Prop :=
  exists p, In p ob /\ onam p = x /\ (b = true \/ odl p = false \/ In (oid p) (oscope o)).
Definition C (b : bool) (ob : list obj) : Prop := forall o x, In o ob -> In x (odeps o) -> dep_ok b ob o x.

Lemma dep_ok_incl b ob ob' o x : incl ob ob' -> dep_ok b ob o x -> dep_ok b ob' o x.
Proof. intros I (p & A & B). exists p. split; [apply I, A|exact B]. Qed.

(* ---------- load ---------- *)
Section load.
Variables (dl : bool) (k : kind) (b : bool) (nm : list (name * nat)) (ob : list obj).
Hypothesis KB : k = Local \/ b = true \/ (dl = false /\ forall p, In p ob -> odl p = false).

Inductive J : list obj -> Prop :=
| J_nil : J []
| J_snoc new o : J new -> (exists d, fs (onam o) = Some d /\ odeps o = needed d) -> odl o = dl ->
    assoc (onam o) nm = None -> ~ In (onam o) (map onam new) ->
    (forall x, In x (odeps o) -> dep_ok b (ob ++ new) o x) -> J (new ++ [o]).

Lemma J_dl new : J new -> forall o, In o new -> odl o = dl.
Proof. induction 1 as [|new o _ IH _ D _ _ _]; intros p P; [destruct P|]. apply in_app_or in P. destruct P as [P|[<-|[]]]; auto. Qed.

Definition same (s s' : ld) : Prop :=
  names s' = names s /\ objs s' = objs s /\ inits s' = inits s /\ finis s' = finis s /\ handles s' = handles s.
Lemma same_refl s : same s s. Proof. repeat split. Qed.
Lemma same_trans s1 s2 s3 : same s1 s2 -> same s2 s3 -> same s1 s3.
Proof. intros (A1 & A2 & A3 & A4 & A5) (B1 & B2 & B3 & B4 & B5). repeat split; congruence. Qed.

Lemma enter_spec s ds i s' ds' : enter k s ds i = (s', ds') -> same s s' /\ nid s' = nid s /\
  (k = Local -> forall d, ds = Some d -> ds' = Some (add d i)) /\ (ds = None <-> ds' = None).
Proof.
  unfold enter. destruct k; intro H; injection H as <- <-.
  - repeat split; auto; discriminate.
  - split; [apply same_refl|]. split; [reflexivity|]. split; [intros _ d ->; reflexivity|]. destruct ds; split; intro; congruence.
Qed.

(* dlopen's set of ids with nothing missing *)
Definition post (s : ld) (new : list obj) (n : name) (s' : ld) (more : list obj) : Prop :=
  same s s' /\ nid s <= nid s' /\ J (new ++ more) /\ NoDup (map oid more) /\
  (forall o, In o more -> nid s <= oid o < nid s') /\ (forall o, In o more -> reach fs n (onam o)).

Lemma load_spec : forall fuel n s new ds, rank n < fuel -> names s = nm -> objs s = ob ->
  (forall n i, assoc n nm = Some i -> exists o, In o ob /\ onam o = n /\ oid o = i) -> NoDup (map oid ob) -> J new ->
  exists s' more ds' r, load fuel fs dl k s new n ds = Ok (s', new ++ more, ds', r) /\ post s new n s' more /\
    (ds = None <-> ds' = None) /\
    match r with
    | Some i => (exists p, In p (ob ++ new ++ more) /\ onam p = n /\ oid p = i) /\
                (k = Local -> forall d, ds = Some d -> exists d', ds' = Some d' /\ In i d' /\ incl d d')
    | None => exists m, reach fs n m /\ fs m = None
    end.
Proof.
  induction fuel as [|f IH]; intros n s new ds RK EN EO AS ND JN; [lia|]. cbn [load].
  destruct (known s new n) as [i|] eqn:KN.
  - destruct (enter k s ds i) as (s', ds') eqn:EE. destruct (enter_spec _ _ _ _ _ EE) as (SM & NI & DS & DN).
    exists s', [], ds', (Some i). rewrite app_nil_r. split; [reflexivity|]. split.
    { split; [exact SM|]. split; [lia|]. split; [rewrite app_nil_r; exact JN|]. split; [constructor|]. split; intros o []. }
    split; [exact DN|]. split.
    + unfold known in KN. rewrite EN, EO in KN. destruct (assoc n nm) as [j|] eqn:A.
      * destruct (by_id ob j) eqn:B; [|discriminate]. injection KN as ->. destruct (AS _ _ A) as (p & P & Q).
        exists p. split; [apply in_or_app; left; exact P|exact Q].
      * destruct (by_name new n) as [p|] eqn:B; [|discriminate]. injection KN as <-. apply by_name_in in B. destruct B as (P & Q).
        exists p. split; [apply in_or_app; right; exact P|auto].
    + intros KL d ED. specialize (DS KL d ED). exists (add d i). split; [exact DS|apply add_in].
  - assert (FRESH : assoc n nm = None /\ ~ In n (map onam new)).
    { unfold known in KN. rewrite EN, EO in KN. destruct (assoc n nm) as [j|] eqn:A.
      - destruct (AS _ _ A) as (p & P & _ & <-). destruct (by_id ob (oid p)) eqn:B; [discriminate|].
        apply by_id_none in B. destruct B. apply in_map. exact P.
      - split; [reflexivity|]. destruct (by_name new n) eqn:B; [discriminate|]. apply by_name_none, B. }
    destruct FRESH as (FR1 & FR2).
    destruct (fs n) as [d|] eqn:FD.
    2:{ exists s, [], ds, None. rewrite app_nil_r. split; [reflexivity|]. split.
        { split; [apply same_refl|]. split; [lia|]. split; [rewrite app_nil_r; exact JN|]. split; [constructor|]. split; intros o []. }
        split; [tauto|]. exists n. split; [apply r_refl|exact FD]. }
    set (s1 := LD (S (nid s)) (names s) (objs s) (gsc s) (inits s) (finis s) (handles s)).
    destruct (enter k s1 ds (nid s)) as (s2, ds2) eqn:EE. destruct (enter_spec _ _ _ _ _ EE) as (SM & NI & DS & DN).
    assert (LOOP : forall l s3 new3 sc, incl l (needed d) -> same s2 s3 -> nid s2 <= nid s3 -> J new3 ->
      exists s4 more sc' ok, dep_loop (load f fs dl k) l s3 new3 sc = Ok (s4, new3 ++ more, sc', ok) /\
        same s3 s4 /\ nid s3 <= nid s4 /\ J (new3 ++ more) /\ NoDup (map oid more) /\ (forall o, In o more -> nid s3 <= oid o < nid s4) /\
        (forall o, In o more -> reach fs n (onam o) /\ rank (onam o) < rank n) /\ incl sc sc' /\
        if ok : bool then forall x, In x l -> exists p, In p (ob ++ new3 ++ more) /\ onam p = x /\ (k = Local -> In (oid p) sc')
        else exists m, reach fs n m /\ fs m = None).
    { induction l as [|x l IHl]; intros s3 new3 sc IN SS NN JJ; cbn [dep_loop].
      - exists s3, [], sc, true. rewrite app_nil_r. split; [reflexivity|]. split; [apply same_refl|]. split; [lia|]. split; [exact JJ|].
        split; [constructor|]. split; [intros o []|]. split; [intros o []|]. split; [apply incl_refl|]. intros x [].
      - assert (XD : In x (needed d)) by (apply IN; left; reflexivity). pose proof (AC _ _ _ FD XD) as RX.
        assert (S3 : same s s3). { eapply same_trans; [|exact SS]. eapply same_trans; [|exact SM]. repeat split. }
        destruct S3 as (N3 & O3 & _).
        destruct (IH x s3 new3 (Some sc)) as (s4 & m1 & ds' & r & E & P & DN' & M); [lia|congruence|congruence|exact AS|exact ND|exact JJ|].
        rewrite E. cbn [bind]. destruct P as (P1 & P2 & P3 & P4 & P5 & P6).
        assert (PR : forall o, In o m1 -> reach fs n (onam o) /\ rank (onam o) < rank n).
        { intros o O. specialize (P6 _ O). split; [eapply reach_head; eassumption|]. apply reach_rank in P6. lia. }
        destruct ds' as [sc1|]; [|destruct DN' as (_ & DN'); specialize (DN' eq_refl); discriminate].
        destruct r as [i|].
        + destruct M as ((p & PI & PN & PO) & ML).
          destruct (IHl s4 (new3 ++ m1) sc1) as (s5 & m2 & sc2 & ok & E2 & Q1 & Q2 & Q3 & Q4 & Q5 & Q6 & Q7 & Q8);
            [intros y Y; apply IN; right; exact Y|eapply same_trans; eassumption|lia|exact P3|].
          rewrite E2. exists s5, (m1 ++ m2), sc2, ok. rewrite app_assoc. split; [reflexivity|].
          split; [eapply same_trans; eassumption|]. split; [lia|]. split; [exact Q3|]. split.
          { rewrite map_app. clear -P4 Q4 P5 Q5.
            induction m1 as [|a m1 IHm]; [exact Q4|]. cbn [map List.app]. cbn [map] in P4. apply NoDup_cons_iff in P4. destruct P4 as (A & B).
            constructor; [|apply IHm; [exact B|intros; apply P5; right; assumption]].
            intro H. apply in_app_or in H. destruct H as [H|H]; [exact (A H)|]. apply in_map_iff in H. destruct H as (o & E & O).
            specialize (Q5 _ O). specialize (P5 a (or_introl eq_refl)). lia. }
          split. { intros o O. apply in_app_or in O. destruct O as [O|O]; [specialize (P5 _ O); lia|specialize (Q5 _ O); lia]. }
          split. { intros o O. apply in_app_or in O. destruct O as [O|O]; auto. }
          assert (SCI : k = Local -> incl sc sc1 /\ In i sc1).
          { intro KL. destruct (ML KL sc eq_refl) as (d' & D1 & D2 & D3). injection D1 as <-. auto. }
          split.
          { destruct KB as [KL|KX]; [intros y Y; apply Q7; apply SCI; auto|].
            assert (DD : k = Local \/ sc1 = sc).
            { destruct k eqn:KE; [|left; reflexivity]. right. clear -E KE.
              assert (G : forall f' s3 new3 x ds s4 nw ds' r, load f' fs dl Global s3 new3 x ds = Ok (s4, nw, ds', r) -> ds' = ds).
              { intros f' s3' new3' x' ds0 s4' nw ds' r' H. destruct f'; [discriminate|]. cbn [load] in H.
                destruct (known s3' new3' x'); cbn [enter] in H; [injection H as _ _ <- _; reflexivity|].
                destruct (fs x'); [|injection H as _ _ <- _; reflexivity].
                destruct (dep_loop _ _ _ _ _) as [[[[? ?] ?] []]| | |]; cbn [bind] in H; try discriminate; injection H as _ _ <- _; reflexivity. }
              apply G in E. congruence. }
            destruct DD as [KL| ->]; [intros y Y; apply Q7; apply SCI; auto|exact Q7]. }
          destruct ok; [|exact Q8]. intros y [<-|Y].
          * exists p. split; [|split; [exact PN|]].
            { rewrite <- app_assoc. apply in_app_or in PI. apply in_or_app. destruct PI as [PI|PI]; [left; exact PI|right].
              apply in_app_or in PI. apply in_or_app. destruct PI as [PI|PI]; [left; exact PI|right]. apply in_or_app. left. exact PI. }
            intro KL. rewrite PO. apply Q7. apply SCI, KL.
          * destruct (Q8 _ Y) as (q & A & B). exists q. split; [exact A|exact B].
        + exists s4, m1, sc1, false. split; [reflexivity|]. split; [exact P1|]. split; [exact P2|]. split; [exact P3|].
          split; [exact P4|]. split; [exact P5|]. split; [exact PR|]. split.
          { assert (G : incl sc sc1).
            { clear -E. revert E.
              assert (G : forall f' s3 new3 x d0 s4 nw ds' r, load f' fs dl k s3 new3 x (Some d0) = Ok (s4, nw, ds', r) ->
                 exists d1, ds' = Some d1 /\ incl d0 d1).
              { intros f' s3' new3' x' d0 s4' nw ds' r' H. destruct f'; [discriminate|]. cbn [load] in H.
                assert (EN : forall st i s' d', enter k st (Some d0) i = (s', d') -> exists d1, d' = Some d1 /\ incl d0 d1).
                { intros st i s' d' HE. unfold enter in HE. destruct k; injection HE as _ <-; eexists; split; try reflexivity; [apply incl_refl|apply add_in]. }
                destruct (known s3' new3' x') as [j|]; [destruct (enter k s3' (Some d0) j) eqn:EE; injection H as _ _ <- _; eapply EN; eassumption|].
                destruct (fs x'); [|injection H as _ _ <- _; eexists; split; [reflexivity|apply incl_refl]].
                destruct (enter _ _ (Some d0) _) eqn:EE.
                destruct (dep_loop _ _ _ _ _) as [[[[? ?] ?] []]| | |]; cbn [bind] in H; try discriminate; injection H as _ _ <- _; eapply EN; eassumption. }
              intro E. apply G in E. destruct E as (d1 & D1 & D2). injection D1 as <-. exact D2. }
            exact G. }
          destruct M as (m & M1 & M2). exists m. split; [eapply reach_head; eassumption|exact M2]. }
    destruct (LOOP (needed d) s2 new []) as (s4 & more & sc & ok & E & Q1 & Q2 & Q3 & Q4 & Q5 & Q6 & Q7 & Q8);
      [apply incl_refl|apply same_refl|lia|exact JN|]. clear LOOP.
    rewrite E. cbn [bind].
    assert (SS : same s s4). { eapply same_trans; [|exact Q1]. eapply same_trans; [|exact SM]. repeat split. }
    cbn [nid s1] in NI.
    destruct ok.
    + set (o := Obj (nid s) (so d) (needed d) dl sc).
      assert (ON : onam o = n) by (apply SO; exact FD).
      exists s4, (more ++ [o]), ds2, (Some (nid s)). rewrite app_assoc. split; [reflexivity|]. split.
      { split; [exact SS|]. split; [lia|]. split.
        { rewrite app_assoc. apply J_snoc; [exact Q3| |reflexivity| | |].
          - rewrite ON. exists d. auto.
          - rewrite ON. exact FR1.
          - rewrite ON, map_app. intro H. apply in_app_or in H. destruct H as [H|H]; [exact (FR2 H)|].
            apply in_map_iff in H. destruct H as (p & EP & P). specialize (Q6 _ P). rewrite EP in Q6. lia.
          - intros x X. destruct (Q8 _ X) as (p & P1 & P2 & P3). exists p. split; [exact P1|]. split; [exact P2|].
            destruct KB as [KL|[->|(DL & OB)]]; [right; right; apply P3, KL|left; reflexivity|].
            right. left. apply in_app_or in P1. destruct P1 as [P1|P1]; [apply OB, P1|]. rewrite (J_dl _ Q3 _ P1). exact DL. }
        split. { rewrite map_app. cbn [map]. apply (NoDup_Add (a := oid o) (l := map oid more)); [rewrite <- (app_nil_r (map oid more)) at 1; apply Add_app|].
          split; [exact Q4|]. intro H. apply in_map_iff in H. destruct H as (p & EP & P). specialize (Q5 _ P). cbn [oid o] in EP. lia. }
        split. { intros p P. apply in_app_or in P. destruct P as [P|[<-|[]]]; [specialize (Q5 _ P); lia|cbn [oid o]; lia]. }
        intros p P. apply in_app_or in P. destruct P as [P|[<-|[]]]; [apply Q6, P|rewrite ON; apply r_refl]. }
      split; [exact DN|]. split.
      { exists o. split; [|auto]. rewrite !in_app_iff. cbn [In]. tauto. }
      intros KL d0 D0. exists (add d0 (nid s)). split; [apply DS; auto|apply add_in].
    + exists s4, more, ds2, None. split; [reflexivity|]. split.
      { split; [exact SS|]. split; [lia|]. split; [exact Q3|]. split; [exact Q4|]. split.
        - intros p P. specialize (Q5 _ P). lia.
        - intros p P. apply Q6, P. }
      split; [exact DN|exact Q8].
Qed.
End load.

Lemma J_in dl b nm ob new : J dl b nm ob new ->
  NoDup (map onam new) /\
  (forall o, In o new -> (exists d, fs (onam o) = Some d /\ odeps o = needed d) /\ assoc (onam o) nm = None /\
     forall x, In x (odeps o) -> dep_ok b (ob ++ new) o x) /\
  (forall l1 o l2 x, new = l1 ++ o :: l2 -> In x (odeps o) -> dep_ok b (ob ++ l1) o x).
Proof.
  induction 1 as [|new o JN (N & A & B) D DL AS FR DP].
  - split; [constructor|]. split; [intros o []|]. intros l1 o l2 x E. destruct l1; discriminate.
  - split; [|split].
    + rewrite map_app. cbn [map]. apply (NoDup_Add (a := onam o) (l := map onam new)); [rewrite <- (app_nil_r (map onam new)) at 1; apply Add_app|].
      split; assumption.
    + intros p P. apply in_app_or in P. destruct P as [P|[<-|[]]].
      * destruct (A _ P) as (A1 & A2 & A3). split; [exact A1|]. split; [exact A2|]. intros x X. eapply dep_ok_incl; [|apply A3, X].
        rewrite app_assoc. apply incl_appl, incl_refl.
      * split; [exact D|]. split; [exact AS|]. intros x X. eapply dep_ok_incl; [|apply DP, X]. rewrite app_assoc. apply incl_appl, incl_refl.
    + intros l1 p l2 x E X. destruct l2 as [|q l2] using rev_ind.
      * apply app_inj_tail in E. destruct E as (-> & ->). apply DP, X.
      * clear IHl2. rewrite app_comm_cons, app_assoc in E. apply app_inj_tail in E. destruct E as (E & _). eapply B; eassumption.
Qed.

Lemma perm_nodup {A} (f : A -> nat) l l' : Permutation l l' -> NoDup (map f l) -> NoDup (map f l').
Proof. intros P N. eapply Permutation_NoDup; [apply Permutation_map, P|exact N]. Qed.

Lemma register_W s o : W s [] -> oid o < nid s -> ~ In (oid o) (map oid (objs s)) -> ~ In (oid o) (inits s) -> ~ In (oid o) (finis s) ->
  assoc (onam o) (names s) = None -> (exists d, fs (onam o) = Some d /\ odeps o = needed d) ->
  W (register s o) [] /\ Permutation (objs (register s o)) (o :: objs s).
Proof.
  intros [W1 W2 W3 W4 W5 W6 W7 W8 W9] L NI NN NF AS FD. rewrite app_nil_r in *.
  assert (PM : Permutation (objs (register s o)) (o :: objs s)) by (apply ins_perm; exact NI).
  split; [|exact PM].
  assert (NL : ~ In (onam o) (map onam (objs s))).
  { intro H. apply in_map_iff in H. destruct H as (p & E & P). apply W5 in P. rewrite E, AS in P. discriminate. }
  assert (INO : forall p, In p (objs (register s o)) <-> p = o \/ In p (objs s)).
  { intro p. split; intro H; [apply (Permutation_in _ PM) in H; destruct H; auto|]. apply (Permutation_in _ (Permutation_sym PM)). destruct H; [left|right]; auto. }
  constructor; rewrite ?app_nil_r.
  - eapply perm_nodup; [apply Permutation_sym, PM|]. cbn [map]. constructor; assumption.
  - eapply perm_nodup; [apply Permutation_sym, PM|]. cbn [map]. constructor; assumption.
  - intros p P. apply INO in P. cbn [nid register]. destruct P as [->|P]; [exact L|apply W3, P].
  - intros n i. cbn [names register assoc]. destruct (Nat.eqb_spec (onam o) n) as [<-|NE]; intro H.
    + injection H as <-. exists o. split; [apply INO; left; reflexivity|auto].
    + destruct (W4 _ _ H) as (p & P & Q). exists p. split; [apply INO; right; exact P|exact Q].
  - intros p P. apply INO in P. cbn [names register assoc]. destruct P as [->|P]; [rewrite Nat.eqb_refl; reflexivity|].
    destruct (Nat.eqb_spec (onam o) (onam p)) as [E|E]; [destruct NL; rewrite E; apply in_map, P|apply W5, P].
  - intros p P. apply INO in P. destruct P as [->|P]; auto.
  - intros i H. destruct (W7 _ H) as (p & P & E). exists p. split; [apply INO; right; exact P|exact E].
  - destruct W8 as (A & B). split; [exact A|]. intros i I. destruct (B _ I) as (B1 & B2). split; [exact B1|].
    intro H. apply in_map_iff in H. destruct H as (p & E & P). apply INO in P. destruct P as [->|P]; [subst; exact (NF I)|].
    apply B2. rewrite <- E. apply in_map, P.
  - destruct W9 as (A & B & D). cbn [inits register nid]. split; [|split].
    + apply (NoDup_Add (a := oid o) (l := inits s)); [rewrite <- (app_nil_r (inits s)) at 1; apply Add_app|]. split; assumption.
    + intros i I. apply in_app_or in I. destruct I as [I|[<-|[]]]; [apply B, I|exact L].
    + intros p P. apply INO in P. apply in_or_app. destruct P as [->|P]; [right; left; reflexivity|left; apply D, P].
Qed.

Lemma fold_W : forall l s, W s [] -> NoDup (map oid l) -> NoDup (map onam l) ->
  (forall o, In o l -> oid o < nid s /\ ~ In (oid o) (map oid (objs s)) /\ ~ In (oid o) (inits s) /\ ~ In (oid o) (finis s) /\
     assoc (onam o) (names s) = None /\ (exists d, fs (onam o) = Some d /\ odeps o = needed d)) ->
  let s' := fold_left register l s in
  W s' [] /\ Permutation (objs s') (l ++ objs s) /\ inits s' = inits s ++ map oid l /\ finis s' = finis s /\ handles s' = handles s.
Proof.
  induction l as [|o l IH]; intros s WS N1 N2 H; cbn [fold_left].
  - cbn [map List.app]. rewrite app_nil_r. auto.
  - cbn [map] in N1, N2. apply NoDup_cons_iff in N1, N2. destruct N1 as (N1 & N1'), N2 as (N2 & N2').
    destruct (H o (or_introl eq_refl)) as (A1 & A2 & A3 & A4 & A5 & A6).
    destruct (register_W s o WS A1 A2 A3 A4 A5 A6) as (W1 & PM).
    destruct (IH (register s o) W1 N1' N2') as (B1 & B2 & B3 & B4 & B5).
    { intros p P. destruct (H p (or_intror P)) as (C1 & C2 & C3 & C4 & C5 & C6).
      assert (NE : oid p <> oid o) by (intro E; apply N1; rewrite <- E; apply in_map, P).
      assert (NM : onam p <> onam o) by (intro E; apply N2; rewrite <- E; apply in_map, P).
      split; [exact C1|]. split.
      { intro I. apply (Permutation_in _ (Permutation_map oid PM)) in I. destruct I as [I|I]; [congruence|exact (C2 I)]. }
      split. { cbn [inits register]. intro I. apply in_app_or in I. destruct I as [I|[I|[]]]; [exact (C3 I)|congruence]. }
      split; [exact C4|]. split; [|exact C6]. cbn [names register assoc]. destruct (Nat.eqb_spec (onam o) (onam p)); [congruence|exact C5]. }
    split; [exact B1|]. split.
    { rewrite B2. rewrite (Permutation_app_head l PM). cbn [List.app]. symmetry. apply Permutation_middle. }
    split; [rewrite B3; cbn [inits register map]; rewrite <- app_assoc; reflexivity|]. split; [exact B4|exact B5].
Qed.

Lemma W_same s s' held : W s held -> same s s' -> nid s <= nid s' -> W s' held.
Proof.
  intros [W1 W2 W3 W4 W5 W6 W7 W8 W9] (A1 & A2 & A3 & A4 & A5) L. constructor; unfold present; rewrite ?A1, ?A2, ?A3, ?A4, ?A5; auto.
  - intros o O. specialize (W3 o O). lia.
  - destruct W8 as (X & Y). split; [exact X|]. intros i I. destruct (Y _ I). split; [lia|assumption].
  - destruct W9 as (X & Y & Z). split; [exact X|]. split; [|exact Z]. intros i I. specialize (Y i I). lia.
Qed.

Lemma loaded_perm s s' l : Permutation (objs s') (l ++ objs s) -> forall m, loaded s' m <-> loaded s m \/ In m (map onam l).
Proof.
  intros PM m. split.
  - intros (o & O & <-). apply (Permutation_in _ PM) in O. apply in_app_or in O. destruct O as [O|O]; [right; apply in_map, O|left; exists o; auto].
  - intros [(o & O & <-)|H].
    + exists o. split; [|reflexivity]. apply (Permutation_in _ (Permutation_sym PM)), in_or_app. right. exact O.
    + apply in_map_iff in H. destruct H as (o & <- & O). exists o. split; [|reflexivity].
      apply (Permutation_in _ (Permutation_sym PM)), in_or_app. left. exact O.
Qed.

Lemma closed_reach b s n : W s [] -> C b (objs s) -> loaded s n -> forall m, reach fs n m -> loaded s m.
Proof.
  intros WS CC L m. induction 1 as [|m d x R IH F I]; [exact L|]. destruct IH as (o & O & E).
  destruct (w_fs _ _ WS _ O) as (d' & F' & D). rewrite E, F in F'. injection F' as <-. rewrite <- D in I.
  destruct (CC o x O I) as (p & P & Q & _). exists p. auto.
Qed.

Lemma load_object_W b dl k fuel s n : (k = Local \/ b = true \/ (dl = false /\ forall p, In p (objs s) -> odl p = false)) ->
  rank n < fuel -> W s [] ->
  exists s' r, load_object fuel fs s n dl k = Ok (s', r) /\ W s' [] /\ handles s' = handles s /\ finis s' = finis s /\
    (forall i, r = Some i -> present s' i) /\ (forall o, In o (objs s) -> In o (objs s')) /\
    (C b (objs s) -> C b (objs s') /\ loads fs s n s' r).
Proof.
  intros KB RK WS. unfold load_object. pose proof WS as [W1 W2 W3 W4 W5 W6 W7 W8 W9]. rewrite app_nil_r in *.
  destruct (load_spec dl k b (names s) (objs s) KB fuel n s [] None) as (s1 & more & ds & r & E & P & _ & M); auto; [constructor|].
  rewrite E. cbn [List.app] in *. destruct P as (SM & LE & JM & N1 & RG & RC). cbn [bind].
  pose proof (W_same _ _ _ WS SM LE) as W1'. cbn [List.app] in JM.
  destruct SM as (S1 & S2 & S3 & S4 & S5).
  destruct (J_in _ _ _ _ _ JM) as (JN & JI & JO).
  destruct r as [i|].
  - destruct (fold_W more s1 W1' N1 JN) as (F1 & F2 & F3 & F4 & F5).
    { intros o O. specialize (RG _ O). destruct (JI _ O) as (J1 & J2 & J3). rewrite S1, S2, S3, S4. split; [lia|].
      split. { intro I. apply in_map_iff in I. destruct I as (p & EP & PI). specialize (W3 _ PI). lia. }
      split. { intro I. destruct W9 as (_ & W9 & _). specialize (W9 _ I). lia. }
      split. { intro I. destruct W8 as (_ & W8). destruct (W8 _ I). lia. }
      split; [exact J2|exact J1]. }
    set (s' := fold_left register more s1) in *. rewrite S2 in F2.
    assert (INO : forall o, In o (objs s') <-> In o (objs s) \/ In o more).
    { intro o. split; intro H.
      - apply (Permutation_in _ F2) in H. apply in_app_or in H. tauto.
      - apply (Permutation_in _ (Permutation_sym F2)), in_or_app. tauto. }
    destruct M as ((p & PI & PN & PO) & _).
    assert (PI' : In p (objs s')) by (apply INO; apply in_app_or in PI; tauto).
    exists s', (Some i). split; [reflexivity|]. split; [exact F1|]. split; [congruence|]. split; [congruence|].
    split; [intros j H; injection H as <-; exists p; auto|]. split; [intros o O; apply INO; auto|]. intro CC.
    assert (CC' : C b (objs s')).
    { intros o x O X. apply INO in O. destruct O as [O|O].
      - eapply dep_ok_incl; [|apply CC; eassumption]. intros q Q. apply INO. auto.
      - destruct (JI _ O) as (_ & _ & J3). eapply dep_ok_incl; [|apply J3, X]. intros q Q. apply INO. apply in_app_or in Q. tauto. }
    split; [exact CC'|]. cbn [loads]. split; [exists p; auto|]. split.
    + intro m. rewrite (loaded_perm s s' more F2). split.
      * intros [H|H]; [left; exact H|]. right. apply in_map_iff in H. destruct H as (o & <- & O). apply RC, O.
      * intros [H|H]; [left; exact H|]. rewrite <- (loaded_perm s s' more F2). eapply closed_reach; eauto. exists p. auto.
    + exists more. split; [congruence|]. split; [exact JN|]. split; [exact N1|]. split; [exact INO|]. split.
      * intros o O. split.
        { intros (q & Q & EQ). specialize (RG _ O). specialize (W3 _ Q). lia. }
        intros (q & Q & EQ). destruct (JI _ O) as (_ & J2 & _). rewrite <- EQ, (W5 _ Q) in J2. discriminate.
      * intros l1 o l2 d x EL FD X. destruct (JI o) as ((d' & FD' & DD) & _); [rewrite EL; apply in_or_app; right; left; reflexivity|].
        rewrite FD in FD'. injection FD' as <-. rewrite <- DD in X. destruct (JO _ _ _ _ EL X) as (q & Q & EQ & _).
        apply in_app_or in Q. destruct Q as [Q|Q]; [left; exists q; auto|right; rewrite <- EQ; apply in_map, Q].
  - exists s1, None. split; [reflexivity|]. split; [exact W1'|]. split; [exact S5|]. split; [exact S4|].
    split; [discriminate|]. rewrite S2. split; [auto|]. intro CC. split; [exact CC|]. cbn [loads]. auto.
Qed.

Lemma hand_W s i : W s [] -> present s i -> W (hand s i) [].
Proof.
  intros [W1 W2 W3 W4 W5 W6 W7 W8 W9] P. constructor; auto. cbn [handles hand]. intros j [<-|H]; [exact P|apply W7, H].
Qed.
Lemma gsc_W s g : W s [] -> W (set_gsc s g) [].
Proof. intro WS. eapply W_same; [exact WS|repeat split|reflexivity]. Qed.

Definition step_g (k : kind) (g : bool) : bool := match k with Global => true | Local => g end.
Lemma C_mono g ob : C false ob -> C g ob.
Proof. intros H o x O X. destruct (H o x O X) as (p & A & B & D). exists p. split; [exact A|]. split; [exact B|]. destruct D as [D|D]; [discriminate|auto]. Qed.
Lemma C_step k g ob : C g ob -> C (step_g k g) ob.
Proof. intro H. destruct k; [|exact H]. destruct g; [exact H|apply C_mono, H]. Qed.

(* dlopen on a state with the invariant *)
Lemma dlopen_W fuel s n k now noload g : (forall n, rank n < fuel) -> W s [] -> noload && now = false ->
  exists s' r, dlopen fuel fs s n k now noload = Ok (s', r) /\ W s' [] /\ (forall o, In o (objs s) -> In o (objs s')) /\ finis s' = finis s /\
    (C g (objs s) -> C (step_g k g) (objs s') /\ forall m, n = Some m -> noload = false -> loads fs s m s' r).
Proof.
  intros RK WS NN. unfold dlopen. rewrite NN. destruct n as [n|].
  - destruct (assoc n (names s)) as [i|] eqn:AS.
    + pose proof (w_as _ _ WS _ _ AS) as (o & O & ON & OI). rewrite app_nil_r in O.
      assert (BI : by_id (objs s) i = Some o). { rewrite <- OI. apply by_id_some; [|exact O]. pose proof (w_id _ _ WS) as H. rewrite app_nil_r in H. exact H. }
      rewrite BI. eexists _, _. split; [reflexivity|]. split.
      { apply hand_W; [destruct k; [apply gsc_W, WS|exact WS]|]. exists o. split; [destruct k; exact O|exact OI]. }
      split; [destruct k; auto|]. split; [destruct k; reflexivity|]. intro CC. split; [apply C_step; destruct k; exact CC|].
      intros m E _. injection E as <-. cbn [loads]. split; [exists o; destruct k; auto|]. split.
      * intro m. assert (LL : loaded (hand (match k with Global => copy_into s o | Local => s end) i) m <-> loaded s m) by (destruct k; reflexivity).
        rewrite LL. split; [auto|]. intros [H|H]; [exact H|]. eapply closed_reach; eauto. exists o. auto.
      * exists []. rewrite app_nil_r. split; [destruct k; reflexivity|]. split; [constructor|]. split; [constructor|].
        split; [intro p; destruct k; cbn; tauto|]. split; [intros p []|]. intros l1 p l2 d x E. destruct l1; discriminate.
    + destruct noload.
      * exists s, None. split; [reflexivity|]. split; [exact WS|]. split; [auto|]. split; [reflexivity|]. intro CC. split; [apply C_step, CC|]. discriminate.
      * destruct (load_object_W (step_g k g) true k fuel s n) as (s' & r & E & W1 & HH & FF & PR & IN & CL); auto.
        { destruct k; [right; left; reflexivity|left; reflexivity]. }
        rewrite E. cbn [bind]. destruct r as [i|].
        -- exists (hand s' i), (Some i). split; [reflexivity|]. split; [apply hand_W; auto|]. split; [exact IN|]. split; [exact FF|].
           intro CC. destruct (CL (C_step k g _ CC)) as (C1 & L1). split; [exact C1|]. intros m EM _. injection EM as <-. exact L1.
        -- exists s', None. split; [reflexivity|]. split; [exact W1|]. split; [exact IN|]. split; [exact FF|].
           intro CC. destruct (CL (C_step k g _ CC)) as (C1 & L1). split; [exact C1|]. intros m EM _. injection EM as <-. exact L1.
  - destruct (by_id (objs s) 1) as [o|] eqn:B.
    + apply by_id_in in B. exists (hand s 1), (Some 1). split; [reflexivity|]. split; [apply hand_W; [exact WS|exists o; auto]|].
      split; [auto|]. split; [reflexivity|]. intro CC. split; [apply C_step, CC|]. discriminate.
    + exists s, None. split; [reflexivity|]. split; [exact WS|]. split; [auto|]. split; [reflexivity|]. intro CC. split; [apply C_step, CC|]. discriminate.
Qed.

(* ---------- unload ---------- *)
Lemma drop_W s held o : W s held -> In o (objs s) -> count_occ Nat.eq_dec (handles s) (oid o) = 0 ->
  W (drop_obj s (oid o)) (o :: held) /\ exists l1 l2, objs s = l1 ++ o :: l2 /\ objs (drop_obj s (oid o)) = l1 ++ l2.
Proof.
  intros [W1 W2 W3 W4 W5 W6 W7 W8 W9] O HC.
  assert (N0 : NoDup (map oid (objs s))). { rewrite map_app in W1. clear -W1. induction (map oid (objs s)); [constructor|]. cbn in W1. apply NoDup_cons_iff in W1. destruct W1 as (A & B). constructor; [intro; apply A, in_or_app; auto|auto]. }
  destruct (drop_split _ _ N0 O) as (l1 & l2 & E1 & E2).
  assert (EO : objs (drop_obj s (oid o)) = l1 ++ l2) by exact E2.
  assert (PM : Permutation (objs s ++ held) (objs (drop_obj s (oid o)) ++ o :: held)).
  { rewrite EO, E1. transitivity ((o :: l1 ++ l2) ++ held).
    - apply Permutation_app_tail, Permutation_sym, Permutation_middle.
    - apply Permutation_middle. }
  assert (SUB : forall p, In p (objs (drop_obj s (oid o))) -> In p (objs s)) by (intros p P; rewrite EO in P; rewrite E1; apply in_app_or in P; apply in_or_app; cbn [In]; tauto).
  split; [|exists l1, l2; auto]. constructor.
  - eapply perm_nodup; eassumption.
  - eapply perm_nodup; eassumption.
  - intros p P. apply W3. eapply Permutation_in; [apply Permutation_sym, PM|exact P].
  - intros n i A. destruct (W4 _ _ A) as (p & P & Q). exists p. split; [eapply Permutation_in; eassumption|exact Q].
  - intros p P. apply W5, SUB, P.
  - intros p P. apply W6, SUB, P.
  - cbn [handles drop_obj]. intros i I. destruct (W7 _ I) as (p & P & EP). exists p. split; [|exact EP]. rewrite EO. rewrite E1 in P.
    apply in_app_or in P. apply in_or_app. destruct P as [P|[<-|P]]; auto. exfalso.
    apply (proj2 (count_occ_not_In Nat.eq_dec _ _)) in HC. apply HC. rewrite EP. exact I.
  - destruct W8 as (A & B). split; [exact A|]. intros i I. destruct (B _ I) as (B1 & B2). split; [exact B1|]. intro H. apply B2.
    eapply Permutation_in; [apply Permutation_map, Permutation_sym, PM|exact H].
  - destruct W9 as (A & B & D). split; [exact A|]. split; [exact B|]. intros p P. apply D, SUB, P.
Qed.

Lemma undrop_W s held o : W s (o :: held) ->
  W (LD (nid s) (filter (fun p => negb (fst p =? onam o)) (names s)) (objs s) (gsc s) (inits s) (finis s ++ [oid o]) (handles s)) held.
Proof.
  intros [W1 W2 W3 W4 W5 W6 W7 W8 W9].
  assert (PM : Permutation (objs s ++ o :: held) (o :: objs s ++ held)) by (symmetry; apply Permutation_middle).
  pose proof (perm_nodup oid _ _ PM W1) as V1. pose proof (perm_nodup onam _ _ PM W2) as V2. cbn [map] in V1, V2.
  apply NoDup_cons_iff in V1, V2. destruct V1 as (V1 & V1'), V2 as (V2 & V2').
  constructor; cbn [names objs nid handles finis inits].
  - exact V1'.
  - exact V2'.
  - intros p P. apply W3. rewrite in_app_iff in *. cbn [In]. tauto.
  - intros n i A. destruct (Nat.eq_dec n (onam o)) as [->|NE]; [rewrite assoc_filter_same in A; discriminate|].
    rewrite assoc_filter in A by exact NE. destruct (W4 _ _ A) as (p & P & PN & PI). exists p. split; [|auto].
    rewrite in_app_iff in *. cbn [In] in P. destruct P as [P|[P|P]]; auto. subst p. congruence.
  - intros p P. rewrite assoc_filter; [apply W5, P|]. intro E. apply V2. rewrite <- E. apply in_map, in_or_app. left. exact P.
  - exact W6.
  - exact W7.
  - destruct W8 as (A & B). split.
    + apply (NoDup_Add (a := oid o) (l := finis s)); [rewrite <- (app_nil_r (finis s)) at 1; apply Add_app|]. split; [exact A|].
      intro I. apply B in I. apply I. rewrite map_app. apply in_or_app. right. left. reflexivity.
    + intros i I. apply in_app_or in I. destruct I as [I|[<-|[]]].
      * destruct (B _ I) as (B1 & B2). split; [exact B1|]. intro H. apply B2. rewrite map_app, in_app_iff in *. cbn [map In]. tauto.
      * split; [|exact V1]. apply W3. apply in_or_app. right. left. reflexivity.
  - exact W9.
Qed.

Lemma unload_W : forall fuel o s held, rank (onam o) < fuel -> In o (objs s) -> W s held ->
  exists s' more, unload fuel s held o = Ok s' /\ W s' held /\ incl (objs s') (objs s) /\ handles s' = handles s /\ inits s' = inits s /\
    (forall p, In p (objs s) -> odl p = false -> In p (objs s')) /\ finis s' = finis s ++ more /\
    (odl o = true -> strong s held (oid o) = 1 -> In (oid o) more /\ ~ In o (objs s')).
Proof.
  induction fuel as [|f IH]; intros o s held RK O WS; [lia|]. cbn [unload].
  destruct (odl o) eqn:DL; cbn [negb].
  2:{ exists s, []. rewrite app_nil_r. split; [reflexivity|]. split; [exact WS|]. split; [apply incl_refl|]. split; [reflexivity|]. split; [reflexivity|]. split; [auto|]. split; [reflexivity|discriminate]. }
  destruct (Nat.eqb_spec (strong s held (oid o)) 1) as [ST|ST].
  2:{ exists s, []. rewrite app_nil_r. split; [reflexivity|]. split; [exact WS|]. split; [apply incl_refl|]. split; [reflexivity|]. split; [reflexivity|]. split; [auto|]. split; [reflexivity|]. intros _ H. destruct (ST H). }
  assert (N0 : NoDup (map oid (objs s))). { pose proof (w_id _ _ WS) as W1. rewrite map_app in W1. clear -W1. induction (map oid (objs s)); [constructor|]. cbn in W1. apply NoDup_cons_iff in W1. destruct W1 as (A & B). constructor; [intro; apply A, in_or_app; auto|auto]. }
  assert (HC : count_occ Nat.eq_dec (handles s) (oid o) = 0).
  { unfold strong in ST. rewrite (by_id_some _ _ N0 O) in ST. lia. }
  destruct (drop_W s held o WS O HC) as (WD & l1 & l2 & E1 & E2).
  destruct (w_fs _ _ WS _ O) as (d & FD & DD).
  assert (LOOP : forall l s1, incl l (needed d) -> W s1 (o :: held) -> exists s2 more,
     undep_loop (fun s p => unload f s (o :: held) p) l s1 = Ok s2 /\ W s2 (o :: held) /\ incl (objs s2) (objs s1) /\
     handles s2 = handles s1 /\ inits s2 = inits s1 /\ (forall p, In p (objs s1) -> odl p = false -> In p (objs s2)) /\ finis s2 = finis s1 ++ more).
  { induction l as [|x l IHl]; intros s1 IN W1; cbn [undep_loop].
    - exists s1, []. rewrite app_nil_r. split; [reflexivity|]. split; [exact W1|]. split; [apply incl_refl|]. split; [reflexivity|]. split; [reflexivity|]. split; [auto|reflexivity].
    - assert (IN' : incl l (needed d)) by (intros y Y; apply IN; right; exact Y).
      destruct (assoc x (names s1)) as [j|] eqn:A; [|apply IHl; assumption].
      destruct (by_id (objs s1) j) as [p|] eqn:B; [|apply IHl; assumption].
      apply by_id_in in B. destruct B as (P & PJ).
      destruct (w_as _ _ W1 _ _ A) as (q & Q & QN & QJ).
      assert (q = p) as ->. { apply (same_by oid _ q p (w_id _ _ W1) Q); [apply in_or_app; left; exact P|congruence]. }
      destruct (IH p s1 (o :: held)) as (s2 & m1 & F1 & F2 & F3 & F4 & F5 & F6 & F7 & _); [|exact P|exact W1|].
      { rewrite QN. specialize (AC _ _ x FD (IN x (or_introl eq_refl))). lia. }
      rewrite F1. cbn [bind]. destruct (IHl s2 IN' F2) as (s3 & m2 & G1 & G2 & G3 & G4 & G5 & G6 & G7).
      exists s3, (m1 ++ m2). split; [exact G1|]. split; [exact G2|]. split; [eapply incl_tran; eassumption|].
      split; [congruence|]. split; [congruence|]. split; [auto|]. rewrite G7, F7, app_assoc. reflexivity. }
  destruct (LOOP (odeps o) (drop_obj s (oid o))) as (s2 & more & G1 & G2 & G3 & G4 & G5 & G6 & G7); [rewrite DD; apply incl_refl|exact WD|].
  rewrite G1. cbn [bind]. eexists _, (more ++ [oid o]). split; [reflexivity|]. split; [apply undrop_W, G2|].
  cbn [objs handles inits finis]. split. { eapply incl_tran; [exact G3|]. rewrite E2, E1. intros p P. apply in_app_or in P. apply in_or_app. cbn [In]. tauto. }
  split; [exact G4|]. split; [exact G5|]. split.
  { intros p P DP. apply G6; [|exact DP]. rewrite E2. rewrite E1 in P. apply in_app_or in P. apply in_or_app. destruct P as [P|[->|P]]; auto. congruence. }
  split; [rewrite G7; cbn [finis drop_obj]; rewrite app_assoc; reflexivity|]. intros _ _. split; [apply in_or_app; right; left; reflexivity|].
  intro H. pose proof (w_id _ _ G2) as N. rewrite map_app in N. cbn [map] in N. apply NoDup_remove_2 in N. apply N. apply in_or_app. left. apply in_map, H.
Qed.

Lemma remove1_incl i l : incl (remove1 i l) l.
Proof. induction l as [|j l IH]; [apply incl_refl|]. cbn [remove1]. destruct (j =? i); [apply incl_tl, incl_refl|]. intros x [X|X]; [left; exact X|right; apply IH, X]. Qed.
Lemma remove1_count i j l : count_occ Nat.eq_dec (remove1 i l) j = count_occ Nat.eq_dec l j - if Nat.eq_dec i j then 1 else 0.
Proof.
  induction l as [|x l IH]; cbn [remove1 count_occ]; [lia|]. destruct (Nat.eqb_spec x i) as [->|NE].
  - destruct (Nat.eq_dec i j); lia.
  - cbn [count_occ]. rewrite IH. destruct (Nat.eq_dec x j), (Nat.eq_dec i j); subst; try congruence; lia.
Qed.

Lemma rm_W s i : W s [] -> W (LD (nid s) (names s) (objs s) (gsc s) (inits s) (finis s) (remove1 i (handles s))) [].
Proof. intros [W1 W2 W3 W4 W5 W6 W7 W8 W9]. constructor; auto. cbn [handles]. intros j J. apply W7. eapply remove1_incl, J. Qed.

Lemma dlclose_W fuel s i : (forall n, rank n < fuel) -> W s [] -> In i (handles s) ->
  exists s' more, dlclose fuel s i = Ok s' /\ W s' [] /\ incl (objs s') (objs s) /\ handles s' = remove1 i (handles s) /\ inits s' = inits s /\
    (forall p, In p (objs s) -> odl p = false -> In p (objs s')) /\ finis s' = finis s ++ more /\
    (forall o, In o (objs s) -> oid o = i -> odl o = true -> count_occ Nat.eq_dec (handles s) i = 1 -> (forall p, In p (objs s) -> ~ In i (oscope p)) ->
       In i more /\ ~ present s' i).
Proof.
  intros RK WS HI. unfold dlclose. cbn [objs].
  pose proof (w_id _ _ WS) as N0. rewrite app_nil_r in N0.
  destruct (w_hd _ _ WS _ HI) as (o & O & OI). assert (BI : by_id (objs s) i = Some o) by (rewrite <- OI; apply by_id_some; assumption). rewrite BI.
  set (s1 := LD _ _ _ _ _ _ _).
  destruct (unload_W fuel o s1 []) as (s' & more & E & W1 & IN & HH & II & PP & FF & ST); [apply RK|exact O|apply rm_W, WS|].
  exists s', more. split; [exact E|]. split; [exact W1|]. split; [exact IN|]. split; [exact HH|]. split; [exact II|]. split; [exact PP|]. split; [exact FF|].
  intros o' O' OI' DL CO SC. assert (o' = o) as -> by (apply (same_by oid _ o' o N0); congruence || assumption).
  destruct (ST DL) as (S1 & S2).
  { unfold strong. cbn [s1 handles objs]. rewrite (by_id_some _ _ N0 O), remove1_count, OI, CO. destruct (Nat.eq_dec i i); [|congruence].
    rewrite app_nil_r. replace (filter _ (objs s)) with (@nil obj); [reflexivity|]. symmetry. clear -SC.
    induction (objs s) as [|p l IHl]; [reflexivity|]. cbn [filter]. destruct (existsb (Nat.eqb i) (oscope p)) eqn:EX.
    - apply existsb_exists in EX. destruct EX as (j & J & EJ). apply Nat.eqb_eq in EJ. subst j. destruct (SC p (or_introl eq_refl) J).
    - apply IHl. intros q Q. apply SC. right. exact Q. }
  split; [rewrite <- OI; exact S1|]. intros (q & Q & QI). apply S2.
  assert (q = o) as <-; [|exact Q]. apply (same_by oid _ q o N0); [apply IN, Q|exact O|congruence].
Qed.

(* closing keeps the dependencies of what stays, if local scopes hold them *)
Lemma unload_C fuel s o : W s [] -> In o (objs s) -> C false (objs s) ->
  forall s', unload fuel s [] o = Ok s' -> C false (objs s').
Proof.
  intros WS O CC s' E. destruct fuel as [|f]; [discriminate|]. cbn [unload] in E.
  destruct (odl o) eqn:DL; cbn [negb] in E; [|injection E as <-; exact CC].
  destruct (Nat.eqb_spec (strong s [] (oid o)) 1) as [ST|ST]; [|injection E as <-; exact CC].
  pose proof (w_id _ _ WS) as N0. rewrite app_nil_r in N0.
  assert (HC : count_occ Nat.eq_dec (handles s) (oid o) = 0).
  { unfold strong in ST. rewrite (by_id_some _ _ N0 O) in ST. lia. }
  assert (NS : forall p, In p (objs s) -> ~ In (oid o) (oscope p)).
  { intros p P H. unfold strong in ST. rewrite (by_id_some _ _ N0 O), HC, app_nil_r in ST.
    assert (FI : In p (filter (fun p => existsb (Nat.eqb (oid o)) (oscope p)) (objs s))).
    { apply filter_In. split; [exact P|]. apply existsb_exists. exists (oid o). split; [exact H|apply Nat.eqb_refl]. }
    destruct (filter _ (objs s)); [destruct FI|cbn [length] in ST; lia]. }
  destruct (drop_W s [] o WS O HC) as (WD & l1 & l2 & E1 & E2).
  assert (INC : forall p, In p (objs (drop_obj s (oid o))) <-> In p (objs s) /\ p <> o).
  { intro p. rewrite E2, E1, !in_app_iff. cbn [In]. rewrite E1, map_app in N0. cbn [map] in N0. apply NoDup_remove_2 in N0. rewrite <- map_app in N0.
    split; [intro P|intros ([P|[P|P]] & NE); auto; congruence]. split; [tauto|]. intros ->. apply N0. apply in_map, in_or_app. exact P. }
  (* every dependency is kept *)
  assert (LOOP : forall l, incl l (odeps o) -> forall s2, undep_loop (fun s p => unload f s [o] p) l (drop_obj s (oid o)) = Ok s2 -> s2 = drop_obj s (oid o)).
  { induction l as [|x l IHl]; intros IN s2 H; cbn [undep_loop] in H; [congruence|].
    assert (IN' : incl l (odeps o)) by (intros y Y; apply IN; right; exact Y).
    destruct (assoc x (names (drop_obj s (oid o)))) as [j|] eqn:A; [|apply IHl; assumption].
    destruct (by_id (objs (drop_obj s (oid o))) j) as [p|] eqn:B; [|apply IHl; assumption].
    apply by_id_in in B. destruct B as (P & PJ).
    assert (PS : In p (objs s)) by (apply INC in P; apply P).
    destruct (w_as _ _ WD _ _ A) as (q & Q & QN & QJ).
    assert (q = p) as ->. { apply (same_by oid _ q p (w_id _ _ WD) Q); [apply in_or_app; left; exact P|congruence]. }
    destruct (CC o x O (IN x (or_introl eq_refl))) as (q & QI & QX & QK).
    assert (q = p) as ->. { pose proof (w_nm _ _ WS) as N1. rewrite app_nil_r in N1. apply (same_by onam _ q p N1); auto. congruence. }
    destruct (unload f (drop_obj s (oid o)) [o] p) as [s3| | |] eqn:U; cbn [bind] in H; try discriminate.
    assert (s3 = drop_obj s (oid o)) as ->; [|apply IHl; assumption].
    destruct f as [|f']; [discriminate|]. cbn [unload] in U. destruct QK as [QK|[QK|QK]]; [discriminate| |].
    - rewrite QK in U. cbn [negb] in U. congruence.
    - destruct (negb (odl p)); [congruence|].
      destruct (Nat.eqb_spec (strong (drop_obj s (oid o)) [o] (oid p)) 1) as [X|X]; [|congruence]. exfalso. unfold strong in X.
      pose proof (w_id _ _ WD) as ND. rewrite map_app in ND.
      assert (ND' : NoDup (map oid (objs (drop_obj s (oid o))))). { clear -ND. induction (map oid (objs (drop_obj s (oid o)))); [constructor|]. cbn in ND. apply NoDup_cons_iff in ND. destruct ND as (A & B). constructor; [intro; apply A, in_or_app; auto|auto]. }
      rewrite (by_id_some _ _ ND' P), filter_app, app_length in X. cbn [filter] in X.
      assert (EX : existsb (Nat.eqb (oid p)) (oscope o) = true). { apply existsb_exists. exists (oid p). split; [exact QK|apply Nat.eqb_refl]. }
      rewrite EX in X. cbn [length] in X. lia. }
  destruct (undep_loop _ _ _) as [s2| | |] eqn:U; cbn [bind] in E; try discriminate.
  apply LOOP in U; [|apply incl_refl]. subst s2. injection E as <-. cbn [objs].
  intros p x P X. apply INC in P. destruct P as (P & PN). destruct (CC p x P X) as (q & Q & QX & QK). exists q. split; [|auto].
  apply INC. split; [exact Q|]. intros ->. destruct QK as [QK|[QK|QK]]; [discriminate|congruence|]. exact (NS _ P QK).
Qed.

(* ---------- histories ---------- *)
Lemma W_init : W ld_init [].
Proof. constructor; cbn; try constructor; try (intros; contradiction); try (intros; discriminate); try constructor; intros; contradiction. Qed.

Section hist.
Variable fuel : nat.
Hypothesis RK : forall n, rank n < fuel.

Lemma start_ok n : exists s r, load_object fuel fs ld_init n false Global = Ok (s, r) /\ W s [] /\ C false (objs s) /\ loads fs ld_init n s r.
Proof.
  destruct (load_object_W false false Global fuel ld_init n) as (s & r & E & W1 & _ & _ & _ & _ & CL); auto using W_init.
  { right. right. split; [reflexivity|intros p []]. }
  destruct CL as (C1 & L1); [intros o x []|]. exists s, r. auto.
Qed.

Lemma dlopen_flags s n k now noload s' r : dlopen fuel fs s n k now noload = Ok (s', r) -> noload && now = false.
Proof. unfold dlopen. destruct (noload && now); [discriminate|reflexivity]. Qed.

Lemma history_W g s : history fuel fs g s -> W s [].
Proof.
  induction 1 as [n s i E|g s n k now noload s' r H IH E|g s i s' H IH I E].
  - destruct (start_ok n) as (s' & r & E' & W1 & _). congruence.
  - destruct (dlopen_W fuel s n k now noload g RK IH (dlopen_flags _ _ _ _ _ _ _ E)) as (s2 & r2 & E2 & W2 & _). congruence.
  - destruct (dlclose_W fuel s i RK IH I) as (s2 & m & E2 & W2 & _). congruence.
Qed.
Lemma tame_W g s : tame fuel fs g s -> W s [] /\ C g (objs s).
Proof.
  induction 1 as [n s i E|g s n k now noload s' r H IH E|s i s' H IH I E].
  - destruct (start_ok n) as (s' & r & E' & W1 & C1 & _). rewrite E in E'. injection E' as <- _. auto.
  - destruct IH as (IH & CC). destruct (dlopen_W fuel s n k now noload g RK IH (dlopen_flags _ _ _ _ _ _ _ E)) as (s2 & r2 & E2 & W2 & _ & _ & CL).
    rewrite E in E2. injection E2 as <- _. split; [exact W2|]. apply CL, CC.
  - destruct IH as (IH & CC). destruct (dlclose_W fuel s i RK IH I) as (s2 & m & E2 & W2 & _). rewrite E in E2. injection E2 as <-. split; [exact W2|].
    unfold dlclose in E. cbn [objs] in E. destruct (by_id (objs s) i) as [o|] eqn:B; [|discriminate]. apply by_id_in in B.
    refine (unload_C fuel _ o (rm_W s i IH) _ _ s' E); [apply B|exact CC].
Qed.

Lemma tame_open g s n k now : tame fuel fs g s ->
  exists s' r, dlopen fuel fs s (Some n) k now false = Ok (s', r) /\ loads fs s n s' r.
Proof.
  intro T. destruct (tame_W _ _ T) as (WS & CC). destruct (dlopen_W fuel s (Some n) k now false g RK WS eq_refl) as (s' & r & E & _ & _ & _ & CL).
  exists s', r. split; [exact E|]. apply CL; auto.
Qed.
Lemma tame_deps g s o d x : tame fuel fs g s -> In o (objs s) -> fs (onam o) = Some d -> In x (needed d) -> loaded s x.
Proof.
  intros T O F X. destruct (tame_W _ _ T) as (WS & CC). destruct (w_fs _ _ WS _ O) as (d' & F' & D). rewrite F in F'. injection F' as <-. rewrite <- D in X.
  destruct (CC o x O X) as (p & P & Q & _). exists p. auto.
Qed.
Lemma history_handles g s : history fuel fs g s -> NoDup (finis s) /\ NoDup (inits s) /\ (forall i, In i (finis s) -> ~ present s i) /\
  (forall i, In i (handles s) -> present s i) /\ (forall o, In o (objs s) -> In (oid o) (inits s)).
Proof.
  intro H. pose proof (history_W _ _ H) as [W1 W2 W3 W4 W5 W6 W7 (W8 & W8') (W9 & _ & W9')]. rewrite app_nil_r in *.
  split; [exact W8|]. split; [exact W9|]. split; [|split; [exact W7|exact W9']].
  intros i I (o & O & E). apply W8' in I. apply I. rewrite <- E. apply in_map, O.
Qed.
Lemma history_close g s i : history fuel fs g s -> In i (handles s) ->
  exists s' more, dlclose fuel s i = Ok s' /\ handles s' = remove1 i (handles s) /\ finis s' = finis s ++ more /\
    (forall p, In p (objs s) -> odl p = false -> In p (objs s')) /\
    (forall o, In o (objs s) -> oid o = i -> odl o = true -> count_occ Nat.eq_dec (handles s) i = 1 -> (forall p, In p (objs s) -> ~ In i (oscope p)) ->
       In i more /\ ~ present s' i).
Proof.
  intros H I. destruct (dlclose_W fuel s i RK (history_W _ _ H) I) as (s' & more & E & _ & _ & HH & _ & PP & FF & L).
  exists s', more. auto.
Qed.
End hist.
End fsys.

(* ---------- symbols ---------- *)
Lemma obj_sym_def tab x i l : plain tab x l -> In i l ->
  (obj_sym (tab i) x = Ok None /\ forall s, ~ defines tab x i s) \/
  exists s, defines tab x i s /\ ((obj_sym (tab i) x = Ok (Some (s, true)) /\ strong_def s) \/ (obj_sym (tab i) x = Ok (Some (s, false)) /\ ~ strong_def s)).
Proof.
  intros PL I. unfold obj_sym. destruct (tab i x) as [s|] eqn:T; [|left; split; [reflexivity|intros s (A & _); congruence]].
  destruct (sundef s) eqn:U; [left; split; [reflexivity|intros t (A & B); congruence]|].
  right. exists s. assert (D : defines tab x i s) by (split; assumption). split; [exact D|].
  unfold strong_def. destruct (PL i s I D) as [E|E]; rewrite E; [left|right]; (split; [reflexivity|]); [reflexivity|discriminate].
Qed.
Lemma scope_sym_spec tab x : forall l r, plain tab x l ->
  exists q, scope_sym tab l x r = Ok q /\
    match q with
    | Some (s, i) => first_def tab x strong_def l i s \/
        ((forall j t, In j l -> defines tab x j t -> ~ strong_def t) /\
         ((In i l /\ defines tab x i s) \/ (r = Some (s, i) /\ forall j t, In j l -> ~ defines tab x j t)))
    | None => r = None /\ forall j t, In j l -> ~ defines tab x j t
    end.
Proof.
  induction l as [|i l IH]; intros r PL; cbn [scope_sym].
  - exists r. split; [reflexivity|]. destruct r as [(s, i)|]; [right|split; [reflexivity|intros j t []]].
    split; [intros j t []|]. right. split; [reflexivity|intros j t []].
  - assert (PL' : plain tab x l) by (intros j t J; apply PL; right; exact J).
    destruct (obj_sym_def tab x i (i :: l) PL (or_introl eq_refl)) as [(E & ND)|(s & D & [(E & ST)|(E & ST)])]; rewrite E; cbn [bind].
    + destruct (IH r PL') as (q & EQ & M). exists q. split; [exact EQ|]. destruct q as [(s, j)|].
      * destruct M as [(l1 & l2 & A & B & P & F)|(NS & M)].
        -- left. exists (i :: l1), l2. split; [rewrite A; reflexivity|]. split; [exact B|]. split; [exact P|].
           intros k t [<-|K] DK; [destruct (ND _ DK)|eapply F; eassumption].
        -- right. split; [intros k t [<-|K] DK; [destruct (ND _ DK)|eapply NS; eassumption]|].
           destruct M as [(A & B)|(A & B)]; [left; split; [right; exact A|exact B]|right]. split; [exact A|].
           intros k t [<-|K]; [apply ND|apply B, K].
      * destruct M as (A & B). split; [exact A|]. intros k t [<-|K]; [apply ND|apply B, K].
    + exists (Some (s, i)). split; [reflexivity|]. left. exists [], l. split; [reflexivity|]. split; [exact D|]. split; [exact ST|]. intros j t [].
    + destruct (IH (Some (s, i)) PL') as (q & EQ & M). exists q. split; [exact EQ|].
      assert (DS : forall t, defines tab x i t -> t = s) by (intros t (A & _); destruct D as (B & _); congruence).
      destruct q as [(s', j)|]; [|destruct M as (A & _); discriminate].
      destruct M as [(l1 & l2 & A & B & P & F)|(NS & M)].
      * left. exists (i :: l1), l2. split; [rewrite A; reflexivity|]. split; [exact B|]. split; [exact P|].
        intros k t [<-|K] DK; [rewrite (DS _ DK); exact ST|eapply F; eassumption].
      * right. split; [intros k t [<-|K] DK; [rewrite (DS _ DK); exact ST|eapply NS; eassumption]|]. left.
        destruct M as [(A & B)|(A & B)]; [split; [right; exact A|exact B]|]. injection A as <- <-. split; [left; reflexivity|exact D].
Qed.
Lemma get_sym_spec tab x l : plain tab x l ->
  exists q, get_sym tab l x = Ok q /\
    match q with
    | Some (s, i) => first_def tab x strong_def l i s \/
        ((forall j t, In j l -> defines tab x j t -> ~ strong_def t) /\ In i l /\ defines tab x i s)
    | None => forall j t, In j l -> ~ defines tab x j t
    end.
Proof.
  intro PL. destruct (scope_sym_spec tab x l None PL) as (q & E & M). exists q. split; [exact E|].
  destruct q as [(s, i)|]; [|apply M]. destruct M as [M|(NS & [M|(M & _)])]; [left; exact M|right; auto|discriminate].
Qed.
