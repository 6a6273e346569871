From Coq Require Import ZArith List Bool Lia Arith.
From Verif Require Import Conc Tls_model Tls_spec.
Import ListNotations.
Open Scope Z_scope.

Lemma mget_set {A} (m : list (Z * A)) k v k' : mget (mset m k v) k' = if k =? k' then Some v else mget m k'.
Proof.
  induction m as [|(a & b) r IH]; cbn [mset mget]; [reflexivity|].
  destruct (Z.eqb_spec a k) as [->|N]; cbn [mget]; [destruct (k =? k'); reflexivity|].
  rewrite IH. destruct (Z.eqb_spec a k') as [->|N2]; [|reflexivity].
  destruct (Z.eqb_spec k k'); [congruence|reflexivity].
Qed.

Lemma mget_del {A} (m : list (Z * A)) k k' : mget (mdel m k) k' = if k =? k' then None else mget m k'.
Proof.
  induction m as [|(a & b) r IH]; cbn [mdel filter mget fst]; [destruct (k =? k'); reflexivity|].
  destruct (Z.eqb_spec a k) as [->|N]; cbn [negb].
  - fold (mdel r k). rewrite IH. destruct (Z.eqb_spec k k'); reflexivity.
  - cbn [mget]. fold (mdel r k). rewrite IH. destruct (Z.eqb_spec a k') as [->|N2]; [|reflexivity].
    destruct (Z.eqb_spec k k'); [congruence|reflexivity].
Qed.

Definition oz (o : option Z) : Z := match o with Some v => v | None => 0 end.

Definition nodup_keys {A} (m : list (Z * A)) : Prop := NoDup (map fst m).

Lemma mset_in {A} (m : list (Z * A)) k v x : In x (map fst (mset m k v)) <-> x = k \/ In x (map fst m).
Proof.
  induction m as [|(a & b) r IH]; cbn [mset map fst In]; [split; intros [H|H]; auto|].
  destruct (Z.eqb_spec a k) as [->|N]; cbn [map fst In].
  - intuition.
  - rewrite IH. intuition.
Qed.

Lemma mset_nodup {A} (m : list (Z * A)) k v : nodup_keys m -> nodup_keys (mset m k v).
Proof.
  unfold nodup_keys. induction m as [|(a & b) r IH]; cbn [mset map fst]; intro H; [repeat constructor; intros []|].
  inversion H; subst. destruct (Z.eqb_spec a k) as [->|N]; cbn [map fst]; [constructor; auto|].
  constructor; [rewrite mset_in; intros [|]; congruence|auto].
Qed.

Lemma mdel_in {A} (m : list (Z * A)) k x : In x (map fst (mdel m k)) -> In x (map fst m).
Proof.
  unfold mdel. intro H. apply in_map_iff in H. destruct H as (p & E & H). apply filter_In in H.
  apply in_map_iff. exists p. tauto.
Qed.

Lemma mdel_nodup {A} (m : list (Z * A)) k : nodup_keys m -> nodup_keys (mdel m k).
Proof.
  unfold nodup_keys. induction m as [|(a & b) r IH]; cbn [mdel filter map fst]; intro H; [exact H|].
  inversion H; subst. destruct (negb (a =? k)); cbn [map fst]; [|apply IH; auto].
  constructor; [|apply IH; auto]. intro K. apply (mdel_in r k) in K. contradiction.
Qed.

Lemma mget_in {A} (m : list (Z * A)) k v : mget m k = Some v -> In (k, v) m.
Proof.
  induction m as [|(a & b) r IH]; cbn [mget]; [discriminate|].
  destruct (Z.eqb_spec a k) as [->|N]; intro H; [inversion H; left; reflexivity|right; auto].
Qed.

Lemma in_mget {A} (m : list (Z * A)) k v : nodup_keys m -> In (k, v) m -> mget m k = Some v.
Proof.
  unfold nodup_keys. induction m as [|(a & b) r IH]; cbn [map fst mget]; intros ND H; [destruct H|].
  inversion ND; subst. destruct H as [H|H].
  - inversion H; subst. rewrite Z.eqb_refl. reflexivity.
  - destruct (Z.eqb_spec a k) as [->|N]; [|auto]. exfalso. apply H2. apply in_map_iff. exists (k, v). auto.
Qed.

Lemma snapshot_in ks k d : In (k, d) (snapshot ks) <-> In (k, Some d) ks.
Proof.
  unfold snapshot. rewrite in_flat_map. split.
  - intros ((a & o) & H & K). cbn [fst snd] in K. destruct o as [d'|]; [|destruct K].
    destruct K as [K|[]]. inversion K; subst. exact H.
  - intro H. exists (k, Some d). split; [exact H|]. left. reflexivity.
Qed.

Lemma snapshot_nodup ks : nodup_keys ks -> nodup_keys (snapshot ks).
Proof.
  unfold nodup_keys. induction ks as [|(a & o) r IH]; cbn [map fst]; intro H; [constructor|].
  inversion H; subst. unfold snapshot. cbn [flat_map fst snd]. destruct o as [d|]; cbn [app map fst]; [|apply IH; auto].
  constructor; [|apply IH; auto]. intro K. apply H2. apply in_map_iff in K. destruct K as ((x & y) & E & K).
  cbn in E. subst x. apply snapshot_in in K. apply in_map_iff. exists (a, Some y). auto.
Qed.

(* The state is what the history says. *)
Record tinv (s : tstate) : Prop := TInv {
  t_next : next s = (1 + creations (log s)) mod 2 ^ 64;
  t_keys : forall k, mget (keys s) k = live k (log s);
  t_nd : nodup_keys (keys s);
  t_vals : forall t k, oz (mget (vals s t) k) = last_value t k (log s) }.

Lemma tinv_init : tinv tls_init.
Proof. constructor; auto. constructor. Qed.

Lemma last_value_other t k e h : match e with EvGet _ _ _ | EvCreate _ _ _ | EvRound _ _ | EvDone _ => True
   | EvSet _ _ _ r => r <> 0 | EvDelete _ _ r => r <> 0 | _ => False end ->
  last_value t k (e :: h) = last_value t k h.
Proof. destruct e; cbn [last_value]; intro H; try reflexivity; try contradiction; destruct r; try reflexivity; congruence. Qed.

Lemma tinv_step s l s' : tinv s -> tls_exec s l = Some s' -> tinv s'.
Proof.
  intros I X. destruct l as (t & a). pose proof (t_vals s I) as TV. pose proof (t_keys s I) as TK.
  pose proof (t_next s I) as TN. pose proof (t_nd s I) as ND.
  assert (GO : forall p, tinv (TState (next s) (keys s) (vals s) (setf (tpcs s) t p) (log s))).
  { intro p. constructor; cbn; auto. }
  assert (EV : forall p e, match e with EvGet _ _ _ | EvRound _ _ | EvDone _ => True
      | EvSet _ _ _ r => r = EINVAL | EvDelete _ _ r => r = EINVAL | _ => False end ->
      tinv (TState (next s) (keys s) (vals s) p (e :: log s))).
  { intros p e H. constructor; cbn [next keys vals tpcs log]; auto.
    - rewrite TN. destruct e; try contradiction; reflexivity.
    - intro k. rewrite TK. destruct e; try contradiction; subst; reflexivity.
    - intros u k. rewrite TV. destruct e; try contradiction; subst; reflexivity. }
  unfold tls_exec in X. cbn [fst snd] in X.
  destruct a.
  - destruct (may_call (tpcs s t)); inversion X; subst s'. apply EV. exact Logic.I.
  - destruct (mget (keys s) k) as [d|] eqn:K; destruct (may_call (tpcs s t)); inversion X; subst s'; [|apply EV; reflexivity].
    constructor; cbn [next keys vals tpcs log]; auto.
    intros u k'. cbn [last_value]. destruct (Z.eqb_spec t u) as [->|N].
    + rewrite setf_same, mget_set. cbn [andb]. destruct (k =? k'); [reflexivity|apply TV].
    + rewrite setf_other by congruence. cbn [andb]. apply TV.
  - destruct (may_call (tpcs s t)); inversion X; subst s'. constructor; cbn [next keys vals tpcs log].
    + rewrite TN, Z.add_mod_idemp_l by lia. unfold creations. cbn [filter length]. f_equal. lia.
    + intro k. rewrite mget_set. cbn [live]. rewrite TK. reflexivity.
    + apply mset_nodup. exact ND.
    + intros u k. apply TV.
  - destruct (mget (keys s) k) as [d|] eqn:K; destruct (may_call (tpcs s t)); inversion X; subst s'; [|apply EV; reflexivity].
    constructor; cbn [next keys vals tpcs log]; auto.
    + intro k'. rewrite mget_del. cbn [live]. rewrite TK. reflexivity.
    + apply mdel_nodup. exact ND.
    + intros u k'. cbn [last_value]. destruct (Z.eqb_spec t u) as [->|N].
      * rewrite setf_same, mget_del. cbn [andb]. destruct (k =? k'); [reflexivity|apply TV].
      * rewrite setf_other by congruence. cbn [andb]. apply TV.
  - destruct (tpcs s t); inversion X; subst s'. apply GO.
  - destruct (tpcs s t); inversion X; subst s'. apply GO.
  - destruct (tpcs s t) as [|i|i any snap ds|i snap ds|b snap]; try discriminate.
    + destruct (i <? ITERATIONS)%nat; inversion X; subst s'; apply EV; exact Logic.I.
    + destruct ds as [|(k & d) ds].
      * destruct any; inversion X; subst s'; [apply GO|apply EV; exact Logic.I].
      * destruct (mget (vals s t) k) as [v|] eqn:V; [|inversion X; subst s'; apply GO].
        destruct (v =? 0); inversion X; subst s'; [apply GO|].
        constructor; cbn [next keys vals tpcs log]; auto.
        intros u k'. cbn [last_value]. destruct (Z.eqb_spec t u) as [->|N].
        -- rewrite setf_same, mget_set. cbn [andb]. destruct (k =? k'); [reflexivity|apply TV].
        -- rewrite setf_other by congruence. cbn [andb]. apply TV.
Qed.

Lemma tinv_reach s : reachable tls_exec tls_init s -> tinv s.
Proof. apply reachable_inv; [exact tinv_init|exact tinv_step]. Qed.

(* Results of the calls. *)
Lemma tls_get s t k s' v : reachable tls_exec tls_init s -> tls_exec s (t, TGet k) = Some s' ->
  log s' = EvGet t k v :: log s -> v = last_value t k (log s).
Proof.
  intros R X L. pose proof (t_vals s (tinv_reach s R) t k) as TV. unfold tls_exec in X. cbn [fst snd] in X.
  destruct (may_call (tpcs s t)); inversion X; subst s'. cbn [log] in L. inversion L. exact TV.
Qed.

Lemma tls_set s t k v s' r : reachable tls_exec tls_init s -> tls_exec s (t, TSet k v) = Some s' ->
  log s' = EvSet t k v r :: log s -> r = match live k (log s) with Some _ => 0 | None => EINVAL end.
Proof.
  intros R X L. pose proof (t_keys s (tinv_reach s R) k) as TK. unfold tls_exec in X. cbn [fst snd] in X.
  rewrite <- TK. destruct (mget (keys s) k); destruct (may_call (tpcs s t)); inversion X; subst s'; cbn [log] in L; congruence.
Qed.

Lemma tls_delete s t k s' r : reachable tls_exec tls_init s -> tls_exec s (t, TDelete k) = Some s' ->
  log s' = EvDelete t k r :: log s -> r = match live k (log s) with Some _ => 0 | None => EINVAL end.
Proof.
  intros R X L. pose proof (t_keys s (tinv_reach s R) k) as TK. unfold tls_exec in X. cbn [fst snd] in X.
  rewrite <- TK. destruct (mget (keys s) k); destruct (may_call (tpcs s t)); inversion X; subst s'; cbn [log] in L; congruence.
Qed.

(* Fresh keys. *)
Lemma creations_cons e h : creations (e :: h) = creations h + match e with EvCreate _ _ _ => 1 | _ => 0 end.
Proof. unfold creations. destruct e; cbn [filter length]; lia. Qed.

Lemma creations_nonneg h : 0 <= creations h.
Proof. unfold creations. lia. Qed.

Lemma created_range s : reachable tls_exec tls_init s -> creations (log s) < 2 ^ 64 - 1 ->
  forall k, created k (log s) = true -> 1 <= k <= creations (log s).
Proof.
  intro R.
  apply (reachable_inv tls_exec (fun s => tinv s /\ (creations (log s) < 2 ^ 64 - 1 ->
    forall k, created k (log s) = true -> 1 <= k <= creations (log s))) tls_init s) in R; [tauto| |].
  - split; [exact tinv_init|]. intros _ k H. discriminate.
  - clear. intros s (t & a) s' (I & H) X. split; [eapply tinv_step; eauto|].
    assert (KEEP : forall e, match e with EvCreate _ _ _ => False | _ => True end -> creations (e :: log s) < 2 ^ 64 - 1 ->
      forall k, created k (e :: log s) = true -> 1 <= k <= creations (e :: log s)).
    { intros e E B k C. rewrite creations_cons in *. assert (creations (log s) < 2 ^ 64 - 1) by (destruct e; try contradiction; lia).
      assert (created k (log s) = true) by (destruct e; try contradiction; exact C).
      specialize (H H0 k H1). destruct e; try contradiction; lia. }
    unfold tls_exec in X. cbn [fst snd] in X. destruct a;
      try (destruct (mget (keys s) k)); try (destruct (may_call (tpcs s t)); [|discriminate]);
      try (inversion X; subst s'; cbn [log]; first [exact H|apply KEEP; exact Logic.I]; fail).
    + inversion X; subst s'; cbn [log]. intros B k C. rewrite creations_cons in *. cbn [created] in C.
      pose proof (creations_nonneg (log s)).
      apply orb_true_iff in C. destruct C as [C|C]; [|specialize (H ltac:(lia) k C); lia].
      apply Z.eqb_eq in C. rewrite (t_next s I) in C. rewrite Z.mod_small in C by lia. lia.
    + destruct (tpcs s t); inversion X; subst s'; exact H.
    + destruct (tpcs s t); inversion X; subst s'; exact H.
    + destruct (tpcs s t) as [|i|i any snap ds|i snap ds|b snap]; try discriminate.
      * destruct (i <? ITERATIONS)%nat; inversion X; subst s'; cbn [log]; apply KEEP; exact Logic.I.
      * destruct ds as [|(k & d) ds].
        -- destruct any; inversion X; subst s'; cbn [log]; [exact H|apply KEEP; exact Logic.I].
        -- destruct (mget (vals s t) k) as [v|]; [|inversion X; subst s'; exact H].
           destruct (v =? 0); inversion X; subst s'; cbn [log]; [exact H|apply KEEP; exact Logic.I].
Qed.

(* A value is non-NULL only under a key that was created. *)
Lemma value_created s : reachable tls_exec tls_init s -> forall t k,
  created k (log s) = false -> last_value t k (log s) = 0 /\ live k (log s) = None.
Proof.
  intro R.
  apply (reachable_inv tls_exec (fun s => tinv s /\ forall t k,
    created k (log s) = false -> last_value t k (log s) = 0 /\ live k (log s) = None) tls_init s) in R; [tauto| |].
  - split; [exact tinv_init|]. intros t k _. split; reflexivity.
  - clear. intros s (t & a) s' (I & H) X. split; [eapply tinv_step; eauto|].
    assert (KEEP : forall e, match e with EvGet _ _ _ | EvRound _ _ | EvDone _ | EvCall _ _ _ _ _ => True
      | EvSet _ _ _ r => r = EINVAL | EvDelete _ _ r => True | _ => False end -> forall t k,
      created k (e :: log s) = false -> last_value t k (e :: log s) = 0 /\ live k (e :: log s) = None).
    { intros e E u k C. assert (C' : created k (log s) = false) by (destruct e; try contradiction; exact C).
      destruct (H u k C') as (A & B). destruct e; try contradiction; cbn [last_value live]; auto; subst; auto.
      - destruct r; auto. rewrite A, B. destruct (_ && _); destruct (_ =? _); auto.
      - rewrite A. destruct (_ && _); auto. }
    unfold tls_exec in X. cbn [fst snd] in X. destruct a.
    + destruct (may_call (tpcs s t)); inversion X; subst s'. apply KEEP. exact Logic.I.
    + destruct (mget (keys s) k) eqn:K; (destruct (may_call (tpcs s t)); [|discriminate]); inversion X; subst s'; cbn [log]; [|apply KEEP; reflexivity].
      intros u k' C. cbn [created] in C. destruct (H u k' C) as (A & B). cbn [last_value live]. rewrite A, B.
      destruct (Z.eqb_spec k k') as [->|N]; [|rewrite andb_false_r; auto].
      rewrite (t_keys s I), B in K. discriminate.
    + destruct (may_call (tpcs s t)); inversion X; subst s'; cbn [log]. intros u k C. cbn [created] in C.
      apply orb_false_iff in C. destruct C as (C1 & C2). cbn [last_value live]. rewrite C1. apply H. exact C2.
    + destruct (mget (keys s) k) eqn:K; (destruct (may_call (tpcs s t)); [|discriminate]); inversion X; subst s'; cbn [log]; apply KEEP; exact Logic.I.
    + destruct (tpcs s t); inversion X; subst s'; exact H.
    + destruct (tpcs s t); inversion X; subst s'; exact H.
    + destruct (tpcs s t) as [|i|i any snap ds|i snap ds|b snap]; try discriminate.
      * destruct (i <? ITERATIONS)%nat; inversion X; subst s'; cbn [log]; apply KEEP; exact Logic.I.
      * destruct ds as [|(k & d) ds].
        -- destruct any; inversion X; subst s'; cbn [log]; [exact H|apply KEEP; exact Logic.I].
        -- destruct (mget (vals s t) k) as [v|]; [|inversion X; subst s'; exact H].
           destruct (v =? 0); inversion X; subst s'; cbn [log]; [exact H|apply KEEP; exact Logic.I].
Qed.

Lemma tls_create s t d s' k : reachable tls_exec tls_init s -> tls_exec s (t, TCreate d) = Some s' ->
  log s' = EvCreate t k d :: log s -> creations (log s) < 2 ^ 64 - 1 ->
  created k (log s) = false /\ (forall u, last_value u k (log s') = 0) /\ live k (log s') = Some d.
Proof.
  intros R X L B. pose proof (tinv_reach s R) as I. pose proof (creations_nonneg (log s)) as NN.
  assert (K : k = 1 + creations (log s)).
  { unfold tls_exec in X. cbn [fst snd] in X. destruct (may_call (tpcs s t)); inversion X; subst s'. cbn [log] in L.
    inversion L; subst k. rewrite (t_next s I). apply Z.mod_small. lia. }
  assert (C : created k (log s) = false).
  { destruct (created k (log s)) eqn:C; auto. pose proof (created_range s R B k C). lia. }
  split; [exact C|]. rewrite L. split; [intro u; cbn [last_value]; apply (value_created s R u k C)|].
  cbn [live]. rewrite Z.eqb_refl. reflexivity.
Qed.

(* Rounds of destructor calls. *)
Definition rmeas (p : tpc) : option nat :=
  match p with TRound i => Some i | TScan i _ _ _ | TDtor i _ _ => Some (S i) | _ => None end.

Record dinv (s : tstate) : Prop := DInv {
  (* rounds begun so far *)
  d_rounds : forall t j, In (EvRound t j) (log s) -> match tpcs s t with
      TRun => False | TRound i => (j < i)%nat | TScan i _ _ _ | TDtor i _ _ => (j <= i)%nat | TDone _ _ => True end;
  d_calls : forall t j k d v, In (EvCall t j k d v) (log s) -> (j < ITERATIONS)%nat /\ match tpcs s t with
      TRun => False | TRound i => (j < i)%nat
    | TScan i _ _ ds | TDtor i _ ds => (j < i)%nat \/ (j = i /\ ~ In k (map fst ds)) | TDone _ _ => True end;
  d_snap : forall t, match tpcs s t with
    | TScan i _ snap ds | TDtor i snap ds =>
        (i < ITERATIONS)%nat /\ nodup_keys snap /\ (exists dn, snap = dn ++ ds) /\
        (forall k d, In (k, d) snap <-> live k (round_start t i (log s)) = Some (Some d))
    | _ => True end;
  (* nothing was called in this round yet: everything scanned is NULL *)
  d_null : forall t, match tpcs s t with
    | TScan _ false snap ds => forall dn, snap = dn ++ ds -> forall k d, In (k, d) dn -> last_value t k (log s) = 0
    | TDone true snap => forall k d, In (k, d) snap -> last_value t k (log s) = 0
    | _ => True end;
  d_began : forall t, match tpcs s t with
    | TRound i => (i <= ITERATIONS)%nat /\ (i = 0%nat \/ In (EvRound t (i - 1)) (log s))
    | TScan i any _ _ => In (EvRound t i) (log s) /\ (any = false -> forall k d v, ~ In (EvCall t i k d v) (log s))
    | TDtor i _ _ => In (EvRound t i) (log s)
    | _ => True end }.

Lemma dinv_init : dinv tls_init.
Proof. constructor; cbn; auto; intros; contradiction. Qed.

(* Events of one thread leave the others' clauses alone. *)
Definition evt (e : event) : tid :=
  match e with EvGet t _ _ | EvSet t _ _ _ | EvCreate t _ _ | EvDelete t _ _ | EvRound t _ | EvCall t _ _ _ _ | EvDone t => t end.

Lemma last_value_evt t k e h : evt e <> t -> last_value t k (e :: h) = last_value t k h.
Proof.
  intro N. destruct e; cbn [evt last_value] in *; auto; try (destruct r; auto);
    apply Z.eqb_neq in N; rewrite N; reflexivity.
Qed.

Lemma round_start_evt t i e h : match e with EvRound t' j => t' <> t \/ j <> i | _ => True end ->
  round_start t i (e :: h) = round_start t i h.
Proof.
  intro N. destruct e; cbn [round_start]; auto. destruct (Z.eqb_spec t0 t); destruct (Nat.eqb_spec round i); cbn [andb]; auto.
  destruct N; congruence.
Qed.

Lemma began_keep p t h e : 
  match p with
    | TRound i => (i <= ITERATIONS)%nat /\ (i = 0%nat \/ In (EvRound t (i - 1)) h)
    | TScan i any _ _ => In (EvRound t i) h /\ (any = false -> forall k d v, ~ In (EvCall t i k d v) h)
    | TDtor i _ _ => In (EvRound t i) h
    | _ => True end ->
  match e with EvCall t' _ _ _ _ => t' <> t | _ => True end ->
  match p with
    | TRound i => (i <= ITERATIONS)%nat /\ (i = 0%nat \/ In (EvRound t (i - 1)) (e :: h))
    | TScan i any _ _ => In (EvRound t i) (e :: h) /\ (any = false -> forall k d v, ~ In (EvCall t i k d v) (e :: h))
    | TDtor i _ _ => In (EvRound t i) (e :: h)
    | _ => True end.
Proof.
  intros H E. destruct p; auto.
  - destruct H as (A & [H|H]); split; auto. right. right. exact H.
  - destruct H as (A & H). split; [right; exact A|]. intros F k d v [K|K]; [subst e; congruence|eapply H; eauto].
  - right. exact H.
Qed.

(* A call of the application (from normal code or a destructor): one event that is
   neither a round nor a destructor call. *)
Lemma d_event s t e nx ks vs : dinv s -> may_call (tpcs s t) = true -> evt e = t ->
  match e with EvRound _ _ | EvCall _ _ _ _ _ | EvDone _ => False | _ => True end ->
  dinv (TState nx ks vs (tpcs s) (e :: log s)).
Proof.
  intros I MC ET NE. constructor; cbn [tpcs log].
  - intros u j [H|H]; [subst e; contradiction|]. apply (d_rounds s I); exact H.
  - intros u j k d v [H|H]; [subst e; contradiction|]. eapply (d_calls s I); exact H.
  - intro u. pose proof (d_snap s I u) as D. 
    destruct (tpcs s u) eqn:P; auto; rewrite round_start_evt by (destruct e; auto; contradiction); exact D.
  - intro u. pose proof (d_null s I u) as D. destruct (Z.eq_dec (evt e) u) as [E|E].
    + assert (P : may_call (tpcs s u) = true) by (rewrite <- E, ET; exact MC).
      destruct (tpcs s u); try discriminate P; exact Logic.I.
    + destruct (tpcs s u) as [|i|i [|] snap ds|i snap ds|[|] snap]; auto; intros; rewrite last_value_evt by exact E; eauto.
  - intro u. apply began_keep; [exact (d_began s I u)|destruct e; auto; contradiction].
Qed.

Lemma last_of_app {A} (dn ds dn' : list A) x : dn ++ x :: ds = dn' ++ ds -> dn' = dn ++ [x].
Proof.
  intro H. change (x :: ds) with ([x] ++ ds) in H. rewrite app_assoc in H. apply app_inv_tail in H. congruence.
Qed.

Lemma dinv_step s l s' : tinv s -> dinv s -> tls_exec s l = Some s' -> dinv s'.
Proof.
  intros TI I X. destruct l as (t & a). unfold tls_exec in X. cbn [fst snd] in X.
  pose proof (t_vals s TI) as TV.
  destruct a.
  - destruct (may_call (tpcs s t)) eqn:MC; inversion X; subst s'. eapply d_event; eauto; exact Logic.I.
  - destruct (mget (keys s) k); (destruct (may_call (tpcs s t)) eqn:MC; [|discriminate]); inversion X; subst s';
      (apply (d_event s t); [exact I|exact MC|reflexivity|exact Logic.I]).
  - destruct (may_call (tpcs s t)) eqn:MC; inversion X; subst s'. apply (d_event s t); [exact I|exact MC|reflexivity|exact Logic.I].
  - destruct (mget (keys s) k); (destruct (may_call (tpcs s t)) eqn:MC; [|discriminate]); inversion X; subst s';
      (apply (d_event s t); [exact I|exact MC|reflexivity|exact Logic.I]).
  - (* exit *) destruct (tpcs s t) eqn:P; inversion X; subst s'. constructor; cbn [tpcs log].
    + intros u j H. pose proof (d_rounds s I u j H) as D. setf_cases; auto. rewrite P in D. contradiction.
    + intros u j k d v H. destruct (d_calls s I u j k d v H) as (D1 & D2). split; [exact D1|]. setf_cases; auto. rewrite P in D2. contradiction.
    + intro u. pose proof (d_snap s I u) as D. setf_cases; auto.
    + intro u. pose proof (d_null s I u) as D. setf_cases; auto.
    + intro u. pose proof (d_began s I u) as D. setf_cases; auto. split; [unfold ITERATIONS; lia|auto].
  - (* destructor returns *) destruct (tpcs s t) as [|i|i any snap ds|i snap ds|b snap] eqn:P; inversion X; subst s'. constructor; cbn [tpcs log].
    + intros u j H. pose proof (d_rounds s I u j H) as D. setf_cases; auto. rewrite P in D. exact D.
    + intros u j k d v H. destruct (d_calls s I u j k d v H) as (D1 & D2). split; [exact D1|]. setf_cases; auto. rewrite P in D2. exact D2.
    + intro u. pose proof (d_snap s I u) as D. setf_cases; auto. rewrite P in D. exact D.
    + intro u. pose proof (d_null s I u) as D. setf_cases; auto.
    + intro u. pose proof (d_began s I u) as D. setf_cases; auto. rewrite P in D. split; [exact D|discriminate].
  - destruct (tpcs s t) as [|i|i any snap ds|i snap ds|b snap] eqn:P; try discriminate.
    + destruct (Nat.ltb_spec i ITERATIONS) as [LT|GE]; inversion X; subst s'; constructor; cbn [tpcs log].
      * intros u j [H|H].
        -- inversion H; subst u j. rewrite setf_same. lia.
        -- pose proof (d_rounds s I u j H) as D. setf_cases; auto. rewrite P in D. lia.
      * intros u j k d v [H|H]; [discriminate|]. destruct (d_calls s I u j k d v H) as (D1 & D2). split; [exact D1|].
        setf_cases; auto. rewrite P in D2. left. exact D2.
      * intro u. pose proof (d_snap s I u) as D. setf_cases.
        -- split; [exact LT|]. split; [apply snapshot_nodup, (t_nd s TI)|]. split; [exists []; reflexivity|].
           intros k d. cbn [round_start]. rewrite Z.eqb_refl, Nat.eqb_refl. cbn [andb].
           rewrite snapshot_in, <- (t_keys s TI). split; [apply in_mget, (t_nd s TI)|apply mget_in].
        -- destruct (tpcs s u) eqn:PU; auto; rewrite round_start_evt by (left; congruence); exact D.
      * intro u. pose proof (d_null s I u) as D. setf_cases.
        -- intros dn H. assert (dn = []) by (apply (app_inv_tail (snapshot (keys s))); symmetry; exact H).
           subst dn. intros k d [].
        -- destruct (tpcs s u) as [|i0|i0 [|] snap0 ds0|i0 snap0 ds0|[|] snap0]; auto; intros; rewrite last_value_evt by (cbn; congruence); eauto.
      * intro u. pose proof (d_began s I u) as D. setf_cases.
        -- split; [left; reflexivity|]. intros _ k d v [H|H]; [discriminate|].
           destruct (d_calls s I t i k d v H) as (_ & D2). rewrite P in D2. lia.
        -- apply began_keep; [exact D|exact Logic.I].
      * intros u j [H|H]; [discriminate|]. pose proof (d_rounds s I u j H) as D. setf_cases; auto.
      * intros u j k d v [H|H]; [discriminate|]. destruct (d_calls s I u j k d v H) as (D1 & D2). split; [exact D1|]. setf_cases; auto.
      * intro u. pose proof (d_snap s I u) as D. setf_cases; auto.
      * intro u. pose proof (d_null s I u) as D. setf_cases; auto.
      * intro u. pose proof (d_began s I u) as D. setf_cases; auto. apply began_keep; [exact D|exact Logic.I].
    + destruct ds as [|(k & d) ds].
      * (* end of a round *) destruct any; inversion X; subst s'; constructor; cbn [tpcs log].
        -- intros u j H. pose proof (d_rounds s I u j H) as D. setf_cases; auto. rewrite P in D. lia.
        -- intros u j k d v H. destruct (d_calls s I u j k d v H) as (D1 & D2). split; [exact D1|]. setf_cases; auto. rewrite P in D2. lia.
        -- intro u. pose proof (d_snap s I u) as D. setf_cases; auto.
        -- intro u. pose proof (d_null s I u) as D. setf_cases; auto.
        -- intro u. pose proof (d_began s I u) as D. pose proof (d_snap s I u) as D2. setf_cases; auto. rewrite P in D, D2.
           split; [lia|]. right. replace (S i - 1)%nat with i by lia. apply D.
        -- intros u j [H|H]; [discriminate|]. pose proof (d_rounds s I u j H) as D. setf_cases; auto.
        -- intros u j k d v [H|H]; [discriminate|]. destruct (d_calls s I u j k d v H) as (D1 & D2). split; [exact D1|]. setf_cases; auto.
        -- intro u. pose proof (d_snap s I u) as D. setf_cases; auto.
        -- intro u. pose proof (d_null s I u) as D. setf_cases; auto.
           ++ rewrite P in D. intros k d H. cbn [last_value]. apply (D snap) with d; [rewrite app_nil_r; reflexivity|exact H].
        -- intro u. pose proof (d_began s I u) as D. setf_cases; auto. apply began_keep; [exact D|exact Logic.I].
      * (* one key *)
        pose proof (d_snap s I t) as DS. rewrite P in DS. destruct DS as (S1 & S2 & (dn & S3) & S4).
        assert (NI : ~ In k (map fst ds)).
        { unfold nodup_keys in S2. rewrite S3, map_app in S2. cbn [map fst] in S2. apply NoDup_remove_2 in S2.
          intro K. apply S2. apply in_or_app. right. exact K. }
        assert (SKIP : oz (mget (vals s t) k) = 0 ->
          dinv (TState (next s) (keys s) (vals s) (setf (tpcs s) t (TScan i any snap ds)) (log s))).
        { intro V. constructor; cbn [tpcs log].
          - intros u j H. pose proof (d_rounds s I u j H) as D. setf_cases; auto. rewrite P in D. exact D.
          - intros u j k0 d0 v0 H. destruct (d_calls s I u j k0 d0 v0 H) as (D1 & D2). split; [exact D1|]. setf_cases; auto. rewrite P in D2.
            destruct D2 as [D2|(D2 & D3)]; [left; exact D2|right]. split; [exact D2|]. intro K. apply D3. right. exact K.
          - intro u. pose proof (d_snap s I u) as D. setf_cases; auto. split; [exact S1|]. split; [exact S2|]. split; [|exact S4].
            exists (dn ++ [(k, d)]). rewrite <- app_assoc. exact S3.
          - intro u. pose proof (d_null s I u) as D. setf_cases; auto. rewrite P in D. destruct any; auto.
            intros dn' H k0 d0 K. rewrite S3 in H. apply last_of_app in H. subst dn'. apply in_app_or in K.
            destruct K as [K|[K|[]]]; [eapply D; eauto|]. inversion K; subst k0 d0. rewrite <- TV. exact V.
          - intro u. pose proof (d_began s I u) as D. setf_cases; auto. rewrite P in D. exact D. }
        destruct (mget (vals s t) k) as [v|] eqn:V; [|inversion X; subst s'; apply SKIP; reflexivity].
        destruct (Z.eqb_spec v 0) as [->|NZ]; inversion X; subst s'; [apply SKIP; reflexivity|].
        constructor; cbn [tpcs log].
        -- intros u j [H|H]; [discriminate|]. pose proof (d_rounds s I u j H) as D. setf_cases; auto. rewrite P in D. exact D.
        -- intros u j k0 d0 v0 [H|H].
           ++ inversion H; subst. split; [exact S1|]. rewrite setf_same. right. auto.
           ++ destruct (d_calls s I u j k0 d0 v0 H) as (D1 & D2). split; [exact D1|]. setf_cases; auto. rewrite P in D2.
              destruct D2 as [D2|(D2 & D3)]; [left; exact D2|right]. split; [exact D2|]. intro K. apply D3. right. exact K.
        -- intro u. pose proof (d_snap s I u) as D. setf_cases.
           ++ split; [exact S1|]. split; [exact S2|]. split; [|exact S4]. exists (dn ++ [(k, d)]). rewrite <- app_assoc. exact S3.
           ++ destruct (tpcs s u) eqn:PU; auto; rewrite round_start_evt by exact Logic.I; exact D.
        -- intro u. pose proof (d_null s I u) as D. setf_cases; auto.
           destruct (tpcs s u) as [|i0|i0 [|] snap0 ds0|i0 snap0 ds0|[|] snap0]; auto; intros; rewrite last_value_evt by (cbn; congruence); eauto.
        -- intro u. pose proof (d_began s I u) as D. setf_cases; [rewrite P in D; right; apply D|].
           apply began_keep; [exact D|cbn; congruence].
Qed.

Lemma dinv_reach s : reachable tls_exec tls_init s -> dinv s.
Proof.
  intro R. apply (reachable_inv tls_exec (fun s => tinv s /\ dinv s) tls_init s); [| |exact R].
  - split; [exact tinv_init|exact dinv_init].
  - intros s0 l s1 (A & B) X. split; [eapply tinv_step; eauto|eapply dinv_step; eauto].
Qed.

Lemma called_in t i k h : called t i k h = true -> exists d v, In (EvCall t i k d v) h.
Proof.
  unfold called. intro H. apply existsb_exists in H. destruct H as (e & IN & E). destruct e; try discriminate.
  apply andb_true_iff in E. destruct E as (E & E3). apply andb_true_iff in E. destruct E as (E1 & E2).
  apply Z.eqb_eq in E1, E3. apply Nat.eqb_eq in E2. subst. eauto.
Qed.

(* What a destructor call is. *)
Lemma tls_call s l s' t i k d v : reachable tls_exec tls_init s -> tls_exec s l = Some s' ->
  log s' = EvCall t i k d v :: log s ->
  v <> 0 /\ v = last_value t k (log s) /\ last_value t k (log s') = 0 /\
  (i < ITERATIONS)%nat /\ called t i k (log s) = false /\
  live k (round_start t i (log s)) = Some (Some d).
Proof.
  intros R X L. pose proof (tinv_reach s R) as TI. pose proof (dinv_reach s R) as DI.
  destruct l as (u & a). unfold tls_exec in X. cbn [fst snd] in X.
  assert (NE : forall (e : event) h, h <> e :: h).
  { intros e h H. apply (f_equal (@length event)) in H. cbn in H. lia. }
  destruct a; try (destruct (mget (keys s) k0)); try (destruct (may_call (tpcs s u)); [|discriminate]);
    try (inversion X; subst s'; cbn [log] in L; inversion L; fail).
  - destruct (tpcs s u); inversion X; subst s'. cbn [log] in L. destruct (NE _ _ L).
  - destruct (tpcs s u); inversion X; subst s'. cbn [log] in L. destruct (NE _ _ L).
  - destruct (tpcs s u) as [|j|j any snap ds|j snap ds|b snap] eqn:P; try discriminate.
    + destruct (j <? ITERATIONS)%nat; inversion X; subst s'; cbn [log] in L; inversion L.
    + destruct ds as [|(k0 & d0) ds].
      * destruct any; inversion X; subst s'; cbn [log] in L; [destruct (NE _ _ L)|inversion L].
      * destruct (mget (vals s u) k0) as [v0|] eqn:V; [|inversion X; subst s'; cbn [log] in L; destruct (NE _ _ L)].
        destruct (Z.eqb_spec v0 0) as [|NZ]; inversion X; subst s'; cbn [log] in L; [destruct (NE _ _ L)|].
        inversion L; subst. clear X L.
        pose proof (d_snap s DI t) as DS. rewrite P in DS. destruct DS as (S1 & S2 & (dn & S3) & S4).
        split; [exact NZ|]. split; [rewrite <- (t_vals s TI), V; reflexivity|].
        split; [cbn [log last_value]; rewrite !Z.eqb_refl; reflexivity|]. split; [exact S1|]. split.
        -- destruct (called t i k (log s)) eqn:C; auto. exfalso. apply called_in in C. destruct C as (d1 & v1 & C).
           destruct (d_calls s DI t i k d1 v1 C) as (_ & K). rewrite P in K. destruct K as [K|(_ & K)]; [lia|].
           apply K. left. reflexivity.
        -- apply S4. rewrite S3. apply in_or_app. right. left. reflexivity.
Qed.

(* When the exit is over: the rounds were used up, or one ran nothing and then
   every key that had a destructor when it began is NULL in this thread. *)
Lemma tls_done s l s' t : reachable tls_exec tls_init s -> tls_exec s l = Some s' ->
  log s' = EvDone t :: log s ->
  In (EvRound t (ITERATIONS - 1)) (log s) \/
  exists i, In (EvRound t i) (log s) /\
    (forall k d, live k (round_start t i (log s)) = Some (Some d) -> last_value t k (log s) = 0) /\
    (forall k, called t i k (log s) = false).
Proof.
  intros R X L. pose proof (tinv_reach s R) as TI. pose proof (dinv_reach s R) as DI.
  destruct l as (u & a). unfold tls_exec in X. cbn [fst snd] in X.
  assert (NE : forall (e : event) h, h <> e :: h).
  { intros e h H. apply (f_equal (@length event)) in H. cbn in H. lia. }
  destruct a; try (destruct (mget (keys s) k)); try (destruct (may_call (tpcs s u)); [|discriminate]);
    try (inversion X; subst s'; cbn [log] in L; inversion L; fail).
  - destruct (tpcs s u); inversion X; subst s'. cbn [log] in L. destruct (NE _ _ L).
  - destruct (tpcs s u); inversion X; subst s'. cbn [log] in L. destruct (NE _ _ L).
  - destruct (tpcs s u) as [|j|j any snap ds|j snap ds|b snap] eqn:P; try discriminate.
    + destruct (Nat.ltb_spec j ITERATIONS); inversion X; subst s'; cbn [log] in L; inversion L; subst u.
      left. pose proof (d_began s DI t) as D. rewrite P in D. destruct D as (D1 & [D2|D2]); [subst j; inversion H|].
      replace ITERATIONS with j by lia. exact D2.
    + destruct ds as [|(k0 & d0) ds].
      * destruct any; inversion X; subst s'; cbn [log] in L; [destruct (NE _ _ L)|]. inversion L; subst u.
        right. exists j. pose proof (d_began s DI t) as D. rewrite P in D. destruct D as (D1 & D2).
        pose proof (d_snap s DI t) as DS. rewrite P in DS. destruct DS as (_ & _ & _ & S4).
        pose proof (d_null s DI t) as DN. rewrite P in DN.
        split; [exact D1|]. split.
        -- intros k d K. apply S4 in K. apply (DN snap) with d; [rewrite app_nil_r; reflexivity|exact K].
        -- intro k. destruct (called t j k (log s)) eqn:C; auto. apply called_in in C. destruct C as (d & v & C).
           destruct (D2 eq_refl k d v C).
      * destruct (mget (vals s u) k0) as [v0|]; [|inversion X; subst s'; cbn [log] in L; destruct (NE _ _ L)].
        destruct (v0 =? 0); inversion X; subst s'; cbn [log] in L; [destruct (NE _ _ L)|inversion L].
Qed.
