From Coq Require Import ZArith List Bool Lia.
From Verif Require Import Conc Waitval_model.
Import ListNotations.
Open Scope Z_scope.

Record vinv (s : vstate) : Prop := VInv {
  v_w : vword s = 0 \/ vword s = 1;
  v_post : cell s = posted s;
  v_1 : vword s = 1 -> posted s <> None;
  v_read : forall t, vpcs s t = WRead -> vword s = 1;
  v_got : forall t d, vpcs s t = WGot d -> d = posted s /\ d <> None;
  v_wr : forall t, vpcs s t = PWritten -> posted s <> None;
  v_pend : posted s <> None -> vword s = 1 \/ exists t, vpcs s t = PWritten;
  v_sl : forall t, vpcs s t = WAsleep -> vword s = 0 \/ exists u, vpcs s u = PWake;
  v_pw : forall t, vpcs s t = PWake -> vword s = 1 }.

Lemma vinv_init : vinv wv_init.
Proof. constructor; cbn; auto; try discriminate; try congruence. Qed.

Lemma vwake_inv f u p : vwake_all f u = p -> p <> WLoad -> f u = p.
Proof. unfold vwake_all. destruct (f u); intros; subst; congruence. Qed.

Lemma vinv_step s l s' : vinv s -> wv_exec s l = Some s' -> vinv s'.
Proof.
  intros I X. destruct l as (t & a). unfold wv_exec in X. cbn [fst snd] in X. destruct I.
  destruct (vpcs s t) eqn:P; destruct a; try discriminate.
  - (* post *)
    destruct (posted s) eqn:PO; [discriminate|]. inversion X; subst; clear X.
    constructor; cbn [vword cell posted vpcs]; auto; try discriminate.
    + intros u K. setf_cases; [discriminate|]. eauto.
    + intros u d K. setf_cases; [discriminate|]. destruct (v_got0 u d K). congruence.
    + intros _. right. exists t. apply setf_same.
    + intros u K. setf_cases; [discriminate|]. destruct (v_sl0 u K) as [|(v' & K')]; auto.
      right. exists v'. setf_cases; auto. congruence.
    + intros u K. setf_cases; [discriminate|]. eauto.
  - inversion X; subst; clear X.
    constructor; cbn [vword cell posted vpcs]; auto.
    + intros u K. setf_cases; [discriminate|]. eauto.
    + intros u d K. setf_cases; [discriminate|]. eauto.
    + intros u K. setf_cases; [discriminate|]. eauto.
    + intros K. destruct (v_pend0 K) as [|(u & U)]; auto. right. exists u. setf_cases; auto. congruence.
    + intros u K. setf_cases; [discriminate|]. destruct (v_sl0 u K) as [|(v' & K')]; auto.
      right. exists v'. setf_cases; auto. congruence.
    + intros u K. setf_cases; [discriminate|]. eauto.
  - (* store of 1 *)
    inversion X; subst; clear X.
    constructor; cbn [vword cell posted vpcs]; auto.
    + intros _. eauto.
    + intros u d K. setf_cases; [discriminate|]. eauto.
    + intros u K. setf_cases; [discriminate|]. eauto.
    + intros u K. right. exists t. apply setf_same.
  - (* wake *)
    inversion X; subst; clear X.
    constructor; cbn [vword cell posted vpcs]; auto.
    + intros u K. setf_cases; [discriminate|]. apply vwake_inv in K; [eauto|discriminate].
    + intros u d K. setf_cases; [discriminate|]. apply vwake_inv in K; [eauto|discriminate].
    + intros u K. setf_cases; [discriminate|]. apply vwake_inv in K; [eauto|discriminate].
    + intros _. left. eauto.
    + intros u K. setf_cases; [discriminate|]. unfold vwake_all in K.
      destruct (vpcs s u); discriminate.
    + intros u K. setf_cases; [discriminate|]. apply vwake_inv in K; [eauto|discriminate].
  - (* load *)
    inversion X; subst; clear X.
    constructor; cbn [vword cell posted vpcs]; auto.
    + intros u K. setf_cases; [destruct (Z.eqb_spec (vword s) 0); [discriminate|lia]|]. eauto.
    + intros u d K. setf_cases; [destruct (vword s =? 0); discriminate|]. eauto.
    + intros u K. setf_cases; [destruct (vword s =? 0); discriminate|]. eauto.
    + intros K. destruct (v_pend0 K) as [|(u & U)]; auto. right. exists u. setf_cases; auto. congruence.
    + intros u K. setf_cases; [destruct (vword s =? 0); discriminate|].
      destruct (v_sl0 u K) as [|(v' & K')]; auto. right. exists v'. setf_cases; auto. congruence.
    + intros u K. setf_cases; [destruct (vword s =? 0); discriminate|]. eauto.
  - (* futex_wait *)
    inversion X; subst; clear X.
    constructor; cbn [vword cell posted vpcs]; auto.
    + intros u K. setf_cases; [destruct (vword s =? 0); discriminate|]. eauto.
    + intros u d K. setf_cases; [destruct (vword s =? 0); discriminate|]. eauto.
    + intros u K. setf_cases; [destruct (vword s =? 0); discriminate|]. eauto.
    + intros K. destruct (v_pend0 K) as [|(u & U)]; auto. right. exists u. setf_cases; auto. congruence.
    + intros u K. setf_cases; [destruct (Z.eqb_spec (vword s) 0); [auto|discriminate]|].
      destruct (v_sl0 u K) as [|(v' & K')]; auto. right. exists v'. setf_cases; auto. congruence.
    + intros u K. setf_cases; [destruct (vword s =? 0); discriminate|]. eauto.
  - (* spurious *)
    inversion X; subst; clear X.
    constructor; cbn [vword cell posted vpcs]; auto.
    + intros u K. setf_cases; [discriminate|]. eauto.
    + intros u d K. setf_cases; [discriminate|]. eauto.
    + intros u K. setf_cases; [discriminate|]. eauto.
    + intros K. destruct (v_pend0 K) as [|(u & U)]; auto. right. exists u. setf_cases; auto. congruence.
    + intros u K. setf_cases; [discriminate|].
      destruct (v_sl0 u K) as [|(v' & K')]; auto. right. exists v'. setf_cases; auto. congruence.
    + intros u K. setf_cases; [discriminate|]. eauto.
  - (* read *)
    inversion X; subst; clear X.
    constructor; cbn [vword cell posted vpcs]; auto.
    + intros u K. setf_cases; [discriminate|]. eauto.
    + intros u d K. setf_cases; [|eauto]. inversion K; subst. split; [auto|].
      rewrite v_post0. eauto.
    + intros u K. setf_cases; [discriminate|]. eauto.
    + intros K. destruct (v_pend0 K) as [|(u & U)]; auto. right. exists u. setf_cases; auto. congruence.
    + intros u K. setf_cases; [discriminate|].
      destruct (v_sl0 u K) as [|(v' & K')]; auto. right. exists v'. setf_cases; auto. congruence.
    + intros u K. setf_cases; [discriminate|]. eauto.
  - (* wait again *)
    inversion X; subst; clear X.
    constructor; cbn [vword cell posted vpcs]; auto.
    + intros u K. setf_cases; [discriminate|]. eauto.
    + intros u d0 K. setf_cases; [discriminate|]. eauto.
    + intros u K. setf_cases; [discriminate|]. eauto.
    + intros K. destruct (v_pend0 K) as [|(u & U)]; auto. right. exists u. setf_cases; auto. congruence.
    + intros u K. setf_cases; [discriminate|].
      destruct (v_sl0 u K) as [|(v' & K')]; auto. right. exists v'. setf_cases; auto. congruence.
    + intros u K. setf_cases; [discriminate|]. eauto.
Qed.

Lemma vinv_reach s : reachable wv_exec wv_init s -> vinv s.
Proof. apply reachable_inv; [exact vinv_init|exact vinv_step]. Qed.

(* the ghost really is the argument of the post *)
Lemma posted_by ls : forall s v, run wv_exec wv_init ls = Some s ->
  (posted s = Some v <-> exists t, In (t, VPost v) ls).
Proof.
  induction ls as [|l ls IH] using rev_ind; intros s v E.
  - inversion E; subst. cbn. split; [discriminate|intros (t & [])].
  - rewrite run_app in E. destruct (run wv_exec wv_init ls) as [s0|] eqn:E0; [|discriminate].
    cbn [run] in E. destruct (wv_exec s0 l) as [s1|] eqn:X; [|discriminate]. inversion E; subst s1.
    specialize (IH s0 v eq_refl). destruct l as (t & a).
    assert (C : (exists v0, a = VPost v0 /\ posted s0 = None /\ posted s = Some v0) \/
                ((forall v0, a <> VPost v0) /\ posted s = posted s0)).
    { unfold wv_exec in X. cbn [fst snd] in X.
      destruct a as [v0| | |]; [left|right|right|right].
      - exists v0. destruct (vpcs s0 t); try discriminate. destruct (posted s0) eqn:PO; [discriminate|].
        inversion X; subst. auto.
      - split; [discriminate|]. destruct (vpcs s0 t); try discriminate; inversion X; subst; reflexivity.
      - split; [discriminate|]. destruct (vpcs s0 t); try discriminate; inversion X; subst; reflexivity.
      - split; [discriminate|]. destruct (vpcs s0 t); try discriminate; inversion X; subst; reflexivity. }
    destruct C as [(v0 & -> & N & S)|(NA & S)].
    + rewrite S. split.
      * intro K. inversion K; subst. exists t. apply in_or_app. right. left. reflexivity.
      * intros (u & K). apply in_app_or in K. destruct K as [K|[K|[]]].
        -- rewrite (proj2 IH) in N by eauto. discriminate.
        -- congruence.
    + rewrite S, IH. split; intros (u & K).
      * exists u. apply in_or_app. auto.
      * apply in_app_or in K. destruct K as [K|[K|[]]]; [eauto|]. inversion K; subst. exfalso; eapply NA; eauto.
Qed.

Lemma waitval_value ls s t d : run wv_exec wv_init ls = Some s -> vpcs s t = WGot d ->
  exists v, d = Some v /\ exists u, In (u, VPost v) ls.
Proof.
  intros E P. assert (R : reachable wv_exec wv_init s) by (exists ls; exact E).
  destruct (v_got s (vinv_reach s R) t d P) as (K & N). destruct d as [v|]; [|congruence].
  exists v. split; [reflexivity|]. apply (proj1 (posted_by ls s v E)). auto.
Qed.

Lemma waitval_once ls s t u v w : run wv_exec wv_init ls = Some s ->
  In (t, VPost v) ls -> In (u, VPost w) ls -> v = w.
Proof.
  intros E A B.
  assert (posted s = Some v) by (apply (posted_by ls s v E); eauto).
  assert (posted s = Some w) by (apply (posted_by ls s w E); eauto). congruence.
Qed.

Definition vplain (l : tid * vact) : Prop := snd l = VStep.
Definition in_wait (p : vpc) : Prop := p = WLoad \/ p = WWait \/ p = WAsleep \/ p = WRead.
Definition gets (s : vstate) (t : tid) (v : Z) : Prop :=
  exists ls s', run wv_exec s ls = Some s' /\ vpcs s' t = WGot (Some v) /\ Forall vplain ls.

Lemma gets_step s t u s1 v : wv_exec s (u, VStep) = Some s1 -> gets s1 t v -> gets s t v.
Proof.
  intros X (ls & s' & R & P & F). exists ((u, VStep) :: ls), s'.
  cbn [run]. rewrite X. repeat split; auto. constructor; [reflexivity|auto].
Qed.

Lemma read_gets s t v : vpcs s t = WRead -> cell s = Some v -> gets s t v.
Proof.
  intros P C. exists [(t, VStep)]. eexists. cbn [run]. unfold wv_exec. cbn [fst snd]. rewrite P.
  split; [reflexivity|]. split; [cbn [vpcs]; rewrite setf_same, C; reflexivity|]. repeat constructor.
Qed.

Lemma load_gets s t v : vpcs s t = WLoad -> vword s = 1 -> cell s = Some v -> gets s t v.
Proof.
  intros P W C. eapply (gets_step s t t).
  { unfold wv_exec. cbn [fst snd]. rewrite P, W. cbn. reflexivity. }
  apply read_gets; [cbn [vpcs]; apply setf_same|exact C].
Qed.

Lemma posted_gets s t v : vinv s -> vword s = 1 -> cell s = Some v -> in_wait (vpcs s t) -> gets s t v.
Proof.
  intros I W C [P|[P|[P|P]]].
  - apply load_gets; auto.
  - eapply (gets_step s t t). { unfold wv_exec. cbn [fst snd]. rewrite P, W. cbn. reflexivity. }
    apply load_gets; [cbn [vpcs]; apply setf_same|reflexivity|exact C].
  - destruct (v_sl s I t P) as [K|(u & U)]; [lia|].
    eapply (gets_step s t u). { unfold wv_exec. cbn [fst snd]. rewrite U. reflexivity. }
    apply load_gets; [|exact W|exact C].
    cbn [vpcs]. rewrite setf_other by congruence. unfold vwake_all. rewrite P. reflexivity.
  - apply read_gets; auto.
Qed.

Lemma waitval_progress s t v : reachable wv_exec wv_init s -> posted s = Some v ->
  in_wait (vpcs s t) -> gets s t v.
Proof.
  intros R P W. pose proof (vinv_reach s R) as I.
  assert (C : cell s = Some v) by (rewrite (v_post s I); exact P).
  destruct (v_pend s I) as [K|(u & U)]; [congruence|apply posted_gets; auto|].
  assert (X : wv_exec s (u, VStep) = Some (VState 1 (cell s) (posted s) (setf (vpcs s) u PWake))).
  { unfold wv_exec. cbn [fst snd]. rewrite U. reflexivity. }
  eapply gets_step; [exact X|]. apply posted_gets; auto.
  - eapply vinv_step; eauto.
  - cbn [vpcs]. setf_cases; auto. exfalso. rewrite U in W. destruct W as [W|[W|[W|W]]]; discriminate.
Qed.
