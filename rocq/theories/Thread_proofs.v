From Coq Require Import ZArith List Bool Lia.
From Verif Require Import Conc Thread_model Thread_spec.
Import ListNotations.
Open Scope Z_scope.

Definition joins (p : pcs) : option tid :=
  match p with JLoad u | JWait u | JAsleep u | JRead u | JRemove u _ | JUnmap u _ => Some u | _ => None end.
Definition got (p : pcs) : option tid := match p with JRead u | JRemove u _ | JUnmap u _ => Some u | _ => None end.
Definition holds (p : pcs) : option (tid * option Z) := match p with JRemove u c | JUnmap u c => Some (u, c) | _ => None end.
Definition kills (p : pcs) : option tid := match p with KLoad u | KKill u => Some u | _ => None end.
Definition creates (p : pcs) : option tid := match p with CWait u | CInsert u => Some u | _ => None end.
Definition over (p : pcs) : bool := match p with XWake | XStatus | Gone => true | _ => false end.
Definition fresh (p : pcs) : bool := match p with NotYet => true | _ => false end.
Definition exits (p : pcs) : option Z := match p with XFlags v | XWrite v => Some v | _ => None end.
Definition frees (p : pcs) : bool := match p with XRemove | XUnmap => true | _ => false end.
Lemma joins_got p u : got p = Some u -> joins p = Some u. Proof. destruct p; cbn; congruence. Qed.
Lemma joins_holds p u c : holds p = Some (u, c) -> got p = Some u. Proof. destruct p; cbn; congruence. Qed.

Record tinv (b : bool) (s : tstate) : Prop := TInv {
  i_bad : bad s = false;
  i_live : forall u, live s u = false -> fresh (pc s u) = true \/ (over (pc s u) = true /\ claimed s u = true);
  i_gone : forall t u, live s u = false -> joins (pc s t) <> Some u;
  i_one : forall t t' u, joins (pc s t) = Some u -> joins (pc s t') = Some u -> t = t';
  i_jc : forall t u, joins (pc s t) = Some u -> claimed s u = true;
  i_jd : forall t u, joins (pc s t) = Some u -> det s u = false;
  i_jk : forall t u, joins (pc s t) = Some u -> known s u = true;
  i_det : forall u, det s u = true -> claimed s u = true;
  i_kc : forall t u, kills (pc s t) = Some u -> claimed s u = false;
  i_kk : forall t u, kills (pc s t) = Some u -> known s u = true;
  i_kn : forall u, known s u = true -> fresh (pc s u) = false;
  i_got : forall t u, got (pc s t) = Some u -> word s u = 1;
  i_word : forall u, word s u = 0 \/ word s u = 1;
  i_w1 : forall u, word s u = 1 -> over (pc s u) = true;
  i_wc : forall u, word s u = 1 \/ pc s u = XStore -> cell s u = ret s u /\ ret s u <> None;
  i_val : forall t u c, holds (pc s t) = Some (u, c) -> c = cell s u;
  i_sleep : forall t u, pc s t = JAsleep u -> word s u = 0 \/ pc s u = XWake;
  i_ret : forall u v, exits (pc s u) = Some v -> ret s u = Some v;
  i_xd : forall u, frees (pc s u) = true -> det s u = true;
  i_done : forall u, over (pc s u) = true -> word s u = 1 \/ det s u = true;
  i_res : forall t u c, res s t = Joined u c -> c = ret s u /\ c <> None /\ over (pc s u) = true;
  i_st : forall t u, res s t = Created u \/ pc s t = CInsert u -> started s u = true;
  i_cf : forall t u, creates (pc s t) = Some u -> fresh (pc s u) = false /\ known s u = false;
  i_cr : forall t u, res s t = Created u -> known s u = true;
  i_c1 : forall t t' u, creates (pc s t) = Some u -> creates (pc s t') = Some u -> t = t';
  i_reg : b = false -> forall u, In u (reg s) -> live s u = true;
  i_rj : b = false -> forall t u c, pc s t = JUnmap u c -> ~ In u (reg s);
  i_rx : b = false -> forall u, pc s u = XUnmap -> ~ In u (reg s);
  i_cl : b = false -> forall u, claimed s u = true -> known s u = true }.

Lemma tinv_init b : tinv b t_init.
Proof.
  constructor; cbn; intros; try discriminate; try congruence; auto;
  repeat match goal with
  | H : context [?x =? 0] |- _ => destruct (Z.eqb_spec x 0); cbn in *; try discriminate
  | |- context [?x =? 0] => destruct (Z.eqb_spec x 0); cbn in *; try discriminate
  | H : _ \/ _ |- _ => destruct H; try discriminate end; auto.
Qed.
Lemma fresh_over p : over p = true -> fresh p = false. Proof. destruct p; cbn; congruence. Qed.
Lemma remove_in l u x : In x (remove_reg l u) <-> In x l /\ x <> u.
Proof. unfold remove_reg. rewrite filter_In, negb_true_iff, Z.eqb_neq. reflexivity. Qed.
Lemma wake_pc f u t p : wake f u t = p -> f t = p \/ (f t = JAsleep u /\ p = JLoad u).
Proof. unfold wake. destruct (f t) eqn:E; auto. destruct (Z.eqb_spec u0 u); subst; auto. Qed.
(* who may be touched *)
Lemma live_self b s t : tinv b s -> fresh (pc s t) = false -> over (pc s t) = false -> live s t = true.
Proof. intros I F O. destruct (live s t) eqn:E; [reflexivity|]. destruct (i_live b s I t E) as [|[]]; congruence. Qed.
Lemma live_join b s t u : tinv b s -> joins (pc s t) = Some u -> live s u = true.
Proof. intros I J. destruct (live s u) eqn:E; [reflexivity|]. exfalso. exact (i_gone b s I t u E J). Qed.
Lemma live_free b s u : tinv b s -> claimed s u = false -> known s u = true -> live s u = true.
Proof. intros I C K. destruct (live s u) eqn:E; [reflexivity|]. apply (i_kn b s I) in K. destruct (i_live b s I u E) as [|[]]; congruence. Qed.
Lemma touch_ok s u : bad s = false -> live s u = true -> touch s u = s.
Proof. intros B L. unfold touch. rewrite B, L. destruct s; cbn in *. subst. reflexivity. Qed.

Ltac hyp := match goal with
  | H : _ /\ _ |- _ => destruct H
  | H : Some _ = Some _ |- _ => injection H; clear H; intros
  | H : Joined _ _ = Joined _ _ |- _ => injection H; clear H; intros
  | H : Created _ = Created _ |- _ => injection H; clear H; intros
  end.
Ltac crush := intros; setf_cases; cbn [joins got holds kills creates over fresh exits frees] in *; repeat hyp; subst; try discriminate; try congruence; eauto.
Ltac touched I P X b s t :=
  try (assert (LT : live s t = true) by (apply (live_self b s t I); rewrite P; reflexivity); rewrite (touch_ok s t (i_bad b s I) LT) in X);
  try (match type of P with _ = ?p => match eval cbn in (joins p) with Some ?u =>
        assert (LU : live s u = true) by (apply (live_join b s t u I); rewrite P; reflexivity); rewrite (touch_ok s u (i_bad b s I) LU) in X end end);
  try (match type of P with _ = ?p => match eval cbn in (kills p) with Some ?u =>
        assert (LU : live s u = true) by (apply (live_free b s u I); [eapply (i_kc b s I)|eapply (i_kk b s I)]; rewrite P; reflexivity); rewrite (touch_ok s u (i_bad b s I) LU) in X end end).
Lemma inv_enabled b s t v : tinv b s -> tinv b (set_enabled s t v). Proof. intros []; constructor; assumption. Qed.
Lemma inv_queued b s f : tinv b s -> tinv b (set_queued s f). Proof. intros []; constructor; assumption. Qed.
Lemma inv_sent b s f : tinv b s -> tinv b (set_sent s f). Proof. intros []; constructor; assumption. Qed.
Lemma inv_stack b s t v u : tinv b s -> tinv b (set_stack s t v u). Proof. intros []; constructor; assumption. Qed.
Definition dull (r : result) : bool := match r with Nothing | JoinError _ | OldState _ => true | _ => false end.
Lemma inv_res b s t r : dull r = true -> tinv b s -> tinv b (set_res s t r).
Proof. intros D []; constructor; cbn; try assumption; intros; setf_cases; destruct r; try discriminate; eauto; try (destruct H; [discriminate|eauto]). Qed.
(* moves that keep what others rely on *)
Definition like {A} (q p : option A) : Prop := forall x, q = Some x -> p = Some x.
Definition quiet (p q : pcs) : Prop :=
  like (joins q) (joins p) /\ like (got q) (got p) /\ like (holds q) (holds p) /\ like (kills q) (kills p) /\ like (creates q) (creates p) /\
  (over q = over p) /\ (fresh q = fresh p) /\ like (exits q) (exits p) /\ (frees q = true -> frees p = true) /\
  (match q with XStore | JAsleep _ | CInsert _ | XWake | JUnmap _ _ | XUnmap => False | _ => True end) /\ p <> XWake.
Lemma quiet_pc b s t p q : pc s t = p -> quiet p q -> tinv b s -> tinv b (set_pc s t q).
Proof.
  intros P (QJ & QG & QH & QK & QC & QO & QF & QE & QX & QN & QW) []. subst p.
  constructor; cbn; auto; intros; setf_cases; try rewrite QO in *; try rewrite QF in *;
    try (match goal with H : q = _ |- _ => rewrite H in QN; contradiction | H : _ \/ q = _ |- _ => destruct H as [H|H]; [|rewrite H in QN; contradiction] end);
    eauto 4; try congruence.
  - intros J. exact (i_gone0 t u H (QJ u J)).
  - destruct (i_sleep0 t0 t H); [auto|congruence].
Qed.
Ltac pcof P := match type of P with pc ?s ?t = ?p =>
  assert (PJ : joins (pc s t) = joins p) by (rewrite P; reflexivity); assert (PG : got (pc s t) = got p) by (rewrite P; reflexivity);
  assert (PH : holds (pc s t) = holds p) by (rewrite P; reflexivity); assert (PK : kills (pc s t) = kills p) by (rewrite P; reflexivity);
  assert (PC : creates (pc s t) = creates p) by (rewrite P; reflexivity); assert (PO : over (pc s t) = over p) by (rewrite P; reflexivity);
  assert (PF : fresh (pc s t) = fresh p) by (rewrite P; reflexivity); assert (PE : exits (pc s t) = exits p) by (rewrite P; reflexivity);
  assert (PX : frees (pc s t) = frees p) by (rewrite P; reflexivity); cbn in PJ, PG, PH, PK, PC, PO, PF, PE, PX end.
Ltac go I P := pcof P; destruct I; constructor; cbn; try assumption; intros; setf_cases; cbn [joins got holds kills creates over fresh exits frees] in *; repeat hyp; subst; try discriminate; try congruence; eauto 3.
Ltac fin := try match goal with
  | LT : live ?s ?t = true, H : live ?s ?t = false |- _ => congruence
  | W : (forall u, word ?s u = 1 -> over (pc ?s u) = true), H : word ?s ?u = 1 |- false = true => specialize (W _ H); congruence
  | W : (forall u, word ?s u = 1 -> over (pc ?s u) = true) , H : word ?s ?u = 1 \/ _ = XStore |- cell _ _ = _ /\ _ => destruct H as [H|H]; [specialize (W _ H); congruence|discriminate]
  | W : (forall t u, pc ?s t = JAsleep u -> _), H : pc ?s _ = JAsleep _ |- word _ _ = 0 \/ _ => destruct (W _ _ H); [left; assumption|congruence]
  | W : (forall t u c, res ?s t = Joined u c -> _), H : res ?s _ = Joined _ _ |- _ => destruct (W _ _ _ H) as (? & ? & ?); first [congruence|solve [auto]]
  | H : _ \/ _ = CInsert _ |- started _ _ = true => destruct H as [H|H]; first [discriminate|congruence|solve [eauto]]
  | W : (forall t u, creates (pc ?s t) = Some u -> _), H : creates (pc ?s _) = Some _ |- _ /\ known _ _ = false => destruct (W _ _ H); split; [first [reflexivity|assumption]|assumption]
  end.
Lemma inv_started b s t : tinv b s -> tinv b (set_started s t true).
Proof. intros []; constructor; cbn; try assumption; intros; setf_cases; eauto. Qed.
Lemma wake_joins f u t : joins (wake f u t) = joins (f t). Proof. unfold wake. destruct (f t); try reflexivity. destruct (_ =? _); reflexivity. Qed.
Lemma wake_got f u t : got (wake f u t) = got (f t). Proof. unfold wake. destruct (f t); try reflexivity. destruct (_ =? _); reflexivity. Qed.
Lemma wake_holds f u t : holds (wake f u t) = holds (f t). Proof. unfold wake. destruct (f t); try reflexivity. destruct (_ =? _); reflexivity. Qed.
Lemma wake_kills f u t : kills (wake f u t) = kills (f t). Proof. unfold wake. destruct (f t); try reflexivity. destruct (_ =? _); reflexivity. Qed.
Lemma wake_creates f u t : creates (wake f u t) = creates (f t). Proof. unfold wake. destruct (f t); try reflexivity. destruct (_ =? _); reflexivity. Qed.
Lemma wake_over f u t : over (wake f u t) = over (f t). Proof. unfold wake. destruct (f t); try reflexivity. destruct (_ =? _); reflexivity. Qed.
Lemma wake_fresh f u t : fresh (wake f u t) = fresh (f t). Proof. unfold wake. destruct (f t); try reflexivity. destruct (_ =? _); reflexivity. Qed.
Lemma wake_exits f u t : exits (wake f u t) = exits (f t). Proof. unfold wake. destruct (f t); try reflexivity. destruct (_ =? _); reflexivity. Qed.
Lemma wake_frees f u t : frees (wake f u t) = frees (f t). Proof. unfold wake. destruct (f t); try reflexivity. destruct (_ =? _); reflexivity. Qed.
Lemma wake_same f u t p : match p with JAsleep _ | JLoad _ => False | _ => True end -> wake f u t = p <-> f t = p.
Proof. unfold wake. intros H. destruct (f t) eqn:E; try reflexivity. destruct (_ =? _) eqn:Q; [|reflexivity]. split; intros <-; contradiction. Qed.
Lemma wake_asleep f u t w : wake f u t = JAsleep w -> f t = JAsleep w /\ w <> u.
Proof. unfold wake. destruct (f t); try discriminate. destruct (Z.eqb_spec u0 u); [discriminate|]. intros [= ->]. auto. Qed.
Lemma tinv_step b s l s' : tinv b s -> allowed b s l -> t_exec s l = Some s' -> tinv b s'.
Proof.
  destruct l as [t a]. intros I A X. unfold t_exec in X. cbn [fst snd] in X.
  destruct (pc s t) eqn:P; destruct a; try discriminate X; cbn [allowed fst snd] in A; touched I P X b s t; cbv zeta in X;
    repeat match type of X with context [if ?c then _ else _] => destruct c eqn:?; try discriminate X | context [match pc s ?u with _ => _ end] => destruct (pc s u) eqn:?; try discriminate X end;
    injection X as <-;
    repeat first [apply inv_enabled | apply inv_queued | apply inv_sent | apply inv_stack | apply inv_res; [reflexivity|]]; try exact I;
    try (eapply quiet_pc; [exact P|unfold quiet, like; cbn; repeat split; intros; congruence|auto using inv_enabled, inv_queued, inv_sent, inv_stack, inv_started]);
    try (assert (LT : live s t = true) by (apply (live_self b s t I); rewrite P; reflexivity)).
  - (* create *)
    rename Heqp into N.
    assert (FU : fresh (pc s u) = true) by (rewrite N; reflexivity).
    assert (NK : known s u = false) by (destruct (known s u) eqn:E; [apply (i_kn b s I) in E; congruence|reflexivity]).
    assert (NJ : forall x, joins (pc s x) <> Some u) by (intros x H; apply (i_jk b s I) in H; congruence).
    assert (NC : forall x, creates (pc s x) <> Some u) by (intros x H; apply (i_cf b s I) in H; destruct H; congruence).
    assert (NN : forall x, kills (pc s x) <> Some u) by (intros x H; apply (i_kk b s I) in H; congruence).
    assert (NR : forall x, res s x <> Created u) by (intros x H; apply (i_cr b s I) in H; congruence).
    assert (NV : forall x c, res s x <> Joined u c) by (intros x c H; apply (i_res b s I) in H; destruct H as (_ & _ & H); rewrite N in H; discriminate).
    go I P; fin.
    all: try (exfalso; match goal with H : joins _ = Some ?v, Q : forall x, joins _ <> Some ?v |- _ => exact (Q _ H) | H : kills _ = Some ?v, Q : forall x, kills _ <> Some ?v |- _ => exact (Q _ H)
      | H : got _ = Some ?v, Q : forall x, joins _ <> Some ?v |- _ => exact (Q _ (joins_got _ _ H)) | H : holds _ = Some (?v, _), Q : forall x, joins _ <> Some ?v |- _ => exact (Q _ (joins_got _ _ (joins_holds _ _ _ H)))
      | H : creates _ = Some ?v, Q : forall x, creates _ <> Some ?v |- _ => exact (Q _ H)
      | H : res _ _ = Created ?v, Q : forall x, res _ _ <> Created ?v |- _ => exact (Q _ H)
      | H : res _ _ = Joined ?v _, Q : forall x c, res _ _ <> Joined ?v _ |- _ => exact (Q _ _ H) end).
    all: try (destruct H as [H|H]; discriminate).
    all: try (split; [reflexivity|assumption]).
    all: destruct H as [H|H]; [exfalso; exact (NR _ H)|]; first [discriminate|exfalso; match type of H with pc _ ?x = _ => apply (NC x); rewrite H; reflexivity end].
  - (* join *)
    destruct A as [A|(A1 & A2 & A3)]; [apply Z.eqb_neq in Heqb0; congruence|].
    assert (NJ : forall x, joins (pc s x) <> Some u) by (intros x H; apply (i_jc b s I) in H; congruence).
    assert (LU : live s u = true) by (apply (live_free b s u I); assumption).
    go I P; fin.
    all: try (exfalso; match goal with H : joins _ = Some ?v, Q : forall x, joins _ <> Some ?v |- _ => exact (Q _ H) end).
    all: try (match goal with |- det ?s ?v = false => destruct (det s v) eqn:D; [apply i_det0 in D; congruence|reflexivity] end).
    all: try (exfalso; match goal with H : kills (pc ?s ?k) = Some ?u |- _ => destruct (A3 k); destruct (pc s k); cbn in H; congruence end).
  - (* detach *)
    destruct A as (A1 & A2 & A3). assert (LU : live s u = true) by (apply (live_free b s u I); assumption). rewrite (touch_ok s u (i_bad b s I) LU).
    go I P; fin.
    all: try (exfalso; match goal with H : kills (pc ?s ?k) = Some ?u |- _ => destruct (A3 k); destruct (pc s k); cbn in H; congruence end).
    match goal with H : joins _ = Some u |- _ => apply i_jc0 in H; congruence end.
  - (* cancel *)
    destruct A as (A1 & A2). assert (LU : live s u = true) by (apply (live_free b s u I); assumption). rewrite (touch_ok s u (i_bad b s I) LU).
    go I P; fin.
  - (* terminate *)
    go I P; fin.
    rewrite i_bad0. cbn. destruct (existsb _ (reg s)) eqn:E; [|reflexivity]. apply existsb_exists in E. destruct E as (u & U & E).
    rewrite (i_reg0 eq_refl u U) in E. discriminate.
  - go I P; fin.
  - assert (CU := i_cf b s I t u). rewrite P in CU. specialize (CU eq_refl). destruct CU as [CU1 CU2].
    assert (SU := i_st b s I t u (or_intror P)).
    assert (NC : forall x, creates (pc s x) = Some u -> x = t) by (intros x H; apply (i_c1 b s I x t u H); rewrite P; reflexivity).
    assert (LU : b = false -> live s u = true).
    { intros B. destruct (live s u) eqn:E; [reflexivity|]. destruct (i_live b s I u E) as [|[_ C]]; [congruence|]. apply (i_cl b s I B) in C. congruence. }
    assert (NF : frees (pc s u) = true -> b = true).
    { intros F. destruct b; [reflexivity|]. apply (i_xd _ s I), (i_det _ s I), (i_cl _ s I eq_refl) in F. congruence. }
    assert (NU : forall x c, pc s x <> JUnmap u c).
    { intros x c H. assert (J : joins (pc s x) = Some u) by (rewrite H; reflexivity). apply (i_jk b s I) in J. congruence. }
    go I P; fin.
    all: try (exfalso; match goal with H : creates (pc _ ?x) = Some ?u, Q : ?x <> ?t |- _ => apply Q, NC, H | H : creates _ = Some _ |- _ => apply NC in H; congruence end).
    + destruct H0 as [<-|H0]; [auto|]. apply remove_in in H0. destruct H0. auto.
    + intros [<-|R]; [eapply NU; eassumption|]. apply remove_in in R. destruct R. eapply i_rj0; eauto.
    + intros [<-|R]; [match goal with H : pc s u = XUnmap |- _ => rewrite H in NF; cbn in NF; discriminate (NF eq_refl) end|]. apply remove_in in R. destruct R. eapply i_rx0; eauto.
  - destruct (i_word b s I u) as [W|W]; [rewrite W in *; discriminate|]. go I P; fin.
  - (* asleep *) apply Z.eqb_eq in Heqb0. go I P; fin.
    all: match goal with H : JAsleep _ = JAsleep _ |- _ => injection H as <-; auto end.
  - go I P; fin.
  - (* remove *) go I P; fin.
    + apply remove_in in H0. destruct H0. auto.
    + intros R. apply remove_in in R. destruct R. congruence.
    + intros R. apply remove_in in R. destruct R. eapply i_rj0; eauto.
    + intros R. apply remove_in in R. destruct R. eapply i_rx0; eauto.
  - (* unmap *) 
    assert (WU : word s u = 1) by (apply (i_got b s I t u); rewrite P; reflexivity).
    assert (OU := i_w1 b s I u WU). assert (CU : claimed s u = true) by (apply (i_jc b s I t u); rewrite P; reflexivity).
    assert (N1 : forall x, joins (pc s x) = Some u -> x = t) by (intros x H; apply (i_one b s I x t u H); rewrite P; reflexivity).
    assert (V : v = cell s u) by (apply (i_val b s I t u v); rewrite P; reflexivity).
    destruct (i_wc b s I u (or_introl WU)) as [E1 E2].
    go I P; fin.
    + intros J. apply N1 in J. congruence.
    + repeat split; congruence.
    + exfalso. eapply i_rj0; eauto.
  - (* the value is fixed *) go I P; fin.
  - (* detached *) go I P; fin.
  - (* remove *) go I P; fin.
    + apply remove_in in H0. destruct H0. auto.
    + intros R. apply remove_in in R. destruct R. eapply i_rj0; eauto.
    + intros R. apply remove_in in R. destruct R. congruence.
    + intros R. apply remove_in in R. destruct R. eapply i_rx0; eauto.
  - (* free *)
    assert (DT : det s t = true) by (apply (i_xd b s I); rewrite P; reflexivity).
    assert (CT := i_det b s I t DT).
    assert (NJ : forall x, joins (pc s x) <> Some t) by (intros x H; apply (i_jd b s I) in H; congruence).
    go I P; fin. exfalso. eapply i_rx0; eauto.
  - (* the value is stored *)
    assert (RV : ret s t = Some v) by (apply (i_ret b s I); rewrite P; reflexivity).
    assert (NH : forall x c, holds (pc s x) <> Some (t, c)).
    { intros x c H. apply joins_holds, (i_got b s I), (i_w1 b s I) in H. rewrite P in H. discriminate. }
    go I P; fin.
    + split; congruence.
    + exfalso. eapply NH. eassumption.
  - go I P; fin.
  - (* wake *)
    pcof P. destruct I; constructor; cbn; try assumption; intros; setf_cases;
      rewrite ?wake_joins, ?wake_got, ?wake_holds, ?wake_kills, ?wake_creates, ?wake_over, ?wake_fresh, ?wake_exits, ?wake_frees in *;
      cbn [joins got holds kills creates over fresh exits frees] in *; try discriminate; try congruence; eauto 3.
    + destruct (i_live0 t H) as [|[_ ?]]; [congruence|auto].
    + destruct H as [H|H]; [eauto|discriminate].
    + destruct H as [H|H]; [eauto|]. rewrite wake_same in H by exact Logic.I. eauto.
    + match goal with H : wake _ _ _ = JAsleep _ |- _ => apply wake_asleep in H; destruct H; congruence end.
    + match goal with H : wake _ _ _ = JAsleep _ |- _ => apply wake_asleep in H; destruct H as [H _]; destruct (i_sleep0 _ _ H) as [|Q]; [auto|] end.
      right. apply wake_same; [exact Logic.I|exact Q].
    + destruct (i_res0 _ _ _ H) as (? & ? & ?). auto.
    + destruct H as [H|H]; [eauto|discriminate].
    + destruct H as [H|H]; [eauto|]. rewrite wake_same in H by exact Logic.I. eauto.
    + destruct (i_cf0 _ _ H). auto.
    + match goal with H : wake _ _ _ = _ |- _ => rewrite wake_same in H by exact Logic.I; eauto end.
    + match goal with H : wake _ _ _ = _ |- _ => rewrite wake_same in H by exact Logic.I; eauto end.
Qed.
Lemma reached_inv b s : reached b s -> tinv b s.
Proof. induction 1; [apply tinv_init|]. eapply tinv_step; eassumption. Qed.
Lemma later_reached b s s' : reached b s -> later b s s' -> reached b s'.
Proof. induction 2; [assumption|]. eapply r_step; eassumption. Qed.
Lemma over_ended p : over p = true -> ended p.
Proof. unfold ended. destruct p; cbn; intros; try discriminate; auto. Qed.
Lemma ended_over p : ended p -> over p = true.
Proof. intros [->|[->| ->]]; reflexivity. Qed.
Lemma join_value b s t u c : reached b s -> res s t = Joined u c -> exists v, c = Some v /\ ret s u = Some v /\ ended (pc s u).
Proof.
  intros R J. apply reached_inv in R. destruct (i_res b s R t u c J) as (E & N & V). destruct c as [v|]; [|congruence].
  exists v. auto using over_ended.
Qed.
Lemma create_started b s t u : reached b s -> res s t = Created u -> started s u = true /\ pc s u <> NotYet.
Proof.
  intros R C. apply reached_inv in R. split; [apply (i_st b s R t u); auto|]. apply (i_cr b s R), (i_kn b s R) in C. intros E. rewrite E in C. discriminate.
Qed.
(* on its way out with [v] *)
Definition doomed (s : tstate) (u : tid) (v : Z) : Prop :=
  pc s u = XClean v \/ (ret s u = Some v /\ match pc s u with XFlags v' | XWrite v' => v' = v | XRemove | XUnmap | XStore | XWake | XStatus | Gone => True | _ => False end).
Ltac steps X := unfold t_exec in X; cbn [fst snd] in X; cbv zeta in X;
  repeat match type of X with
  | context [match pc ?s ?t with _ => _ end] => destruct (pc s t) eqn:?; try discriminate X
  | match ?a with _ => _ end = Some _ => destruct a eqn:?; try discriminate X
  | context [if ?c then _ else _] => destruct c eqn:?; try discriminate X end.
Ltac settle := repeat match goal with H : ?x = true, G : context [if ?x then _ else _] |- _ => rewrite H in G end.
Ltac knowpc D := repeat match goal with H : pc ?s ?x = _ |- _ => rewrite H in D end.
Lemma doomed_step s l s' u v : doomed s u v -> t_exec s l = Some s' -> doomed s' u v.
Proof.
  destruct l as [t a]. intros D X. unfold doomed in *. steps X; injection X as <-; cbn in *; setf_cases; try exact D;
    knowpc D; try (destruct D as [D|[D1 D2]]; try discriminate D; try contradiction; try (injection D as ->); subst; auto; fail).
  unfold wake. destruct (pc s u); try exact D. destruct D as [D|[_ D]]; [discriminate|contradiction].
Qed.
Lemma doomed_later b s s' u v : later b s s' -> doomed s u v -> doomed s' u v.
Proof. induction 1; [auto|]. eauto using doomed_step. Qed.
Lemma exit_value b s u v s1 s2 t c : reached b s -> t_exec s (u, AExit v) = Some s1 -> later b s1 s2 -> res s2 t = Joined u c -> c = Some v.
Proof.
  intros R X L J. assert (R1 : reached b s1) by (eapply r_step; [exact R| |exact X]; exact Logic.I).
  assert (D : doomed s1 u v).
  { unfold t_exec in X. cbn [fst snd] in X. destruct (pc s u); try discriminate X. injection X as <-. left. cbn. unfold setf. rewrite Z.eqb_refl. reflexivity. }
  apply (doomed_later _ _ _ _ _ L) in D. destruct (join_value _ _ _ _ _ (later_reached _ _ _ R1 L) J) as (w & -> & E & V).
  destruct D as [D|[D _]]; [|congruence]. apply ended_over in V. rewrite D in V. discriminate.
Qed.
(* a thread that has been created stays *)
Lemma begun_step s l s' u : pc s u <> NotYet -> t_exec s l = Some s' -> pc s' u <> NotYet.
Proof.
  destruct l as [t a]. intros D X. steps X; injection X as <-; cbn in *; setf_cases; try exact D; try discriminate; try congruence.
  unfold wake. destruct (pc s u); try exact D. destruct (_ =? _); discriminate.
Qed.
Lemma begun_later b s s' u : later b s s' -> pc s u <> NotYet -> pc s' u <> NotYet.
Proof. induction 1; [auto|]. eauto using begun_step. Qed.
Lemma freed_step s l s' u : pc s u <> NotYet -> live s u = false -> t_exec s l = Some s' -> live s' u = false.
Proof. destruct l as [t a]. intros N D X. steps X; injection X as <-; cbn in *; setf_cases; try exact D; try reflexivity; try congruence. Qed.
Lemma queued_step s l s' u : pc s u <> NotYet -> queued s u = true -> t_exec s l = Some s' -> queued s' u = true.
Proof. destruct l as [t a]. intros N D X. steps X; injection X as <-; cbn in *; setf_cases; try exact D; try reflexivity; try congruence. destruct (existsb _ _); auto. Qed.
Lemma queued_later b s s' u : later b s s' -> pc s u <> NotYet -> queued s u = true -> queued s' u = true.
Proof. induction 1; [auto|]. intros N Q. eapply queued_step; [eapply begun_later; eassumption|auto|eassumption]. Qed.
(* joined: freed *)
Lemma joined_freed b s : reached b s -> forall t u c, res s t = Joined u c -> live s u = false.
Proof.
  induction 1 as [|s l s' R IH A X]; [discriminate|]. intros t u c J.
  destruct l as [k a]. pose proof X as X0. steps X; injection X as <-; cbn in *; setf_cases; try discriminate; eauto;
    try (injection J as <- <-; congruence);
    try (destruct (i_res b s (reached_inv b s R) _ _ _ J) as (_ & _ & V); match goal with H : pc s _ = NotYet |- _ => rewrite H in V; discriminate end).
Qed.
(* detached in time: freed *)
Definition cleared (s : tstate) (u : tid) : Prop :=
  match pc s u with NotYet | XWrite _ | XStore | XWake => False | XStatus | Gone => live s u = false | _ => det s u = true end.
Lemma cleared_step b s l s' u : tinv b s -> cleared s u -> t_exec s l = Some s' -> cleared s' u.
Proof.
  destruct l as [t a]. intros I D X. unfold cleared in *. steps X; injection X as <-; cbn in *; setf_cases; try exact D; knowpc D; try congruence; try contradiction.
  - destruct (pc s u0); auto.
  - destruct (pc s u0); auto.
  - unfold wake. destruct (pc s u); try exact D. destruct (_ =? _); exact D.
Qed.
Lemma cleared_later b s s' u : reached b s -> later b s s' -> cleared s u -> cleared s' u.
Proof. induction 2; [auto|]. intros C. eapply cleared_step; [eapply reached_inv, later_reached; eassumption|auto|eassumption]. Qed.
Lemma detached_freed b s s' u : reached b s -> pc s u = Running -> det s u = true -> later b s s' -> pc s' u = Gone -> live s' u = false.
Proof. intros R P D L G. assert (C : cleared s u) by (unfold cleared; rewrite P; exact D). apply (cleared_later b s s' u R L) in C. unfold cleared in C. rewrite G in C. exact C. Qed.
(* detached too late: kept *)
Lemma kept_step b s l s' u : tinv b s -> det s u = true -> live s u = true -> over (pc s u) = true -> allowed b s l -> t_exec s l = Some s' ->
  det s' u = true /\ live s' u = true /\ over (pc s' u) = true.
Proof.
  destruct l as [t a]. intros I D L V A X.
  assert (NJ : forall x, joins (pc s x) <> Some u) by (intros x H; apply (i_jd b s I) in H; congruence).
  steps X; injection X as <-; cbn in *; setf_cases; auto; try (knowpc V; cbn in V; discriminate).
  - exfalso. apply (NJ t). rewrite Heqp. reflexivity.
  - rewrite wake_over. auto.
Qed.
Lemma kept_later b s s' u : reached b s -> later b s s' -> det s u = true -> live s u = true -> over (pc s u) = true ->
  det s' u = true /\ live s' u = true /\ over (pc s' u) = true.
Proof.
  intros R L D V W. induction L as [|s1 l s2 L IH A X]; [auto|]. destruct IH as (D1 & V1 & W1).
  eapply kept_step; [eapply reached_inv, later_reached; eassumption|eassumption..].
Qed.
(* creation *)
Lemma starting_inv b s : reached b s -> forall t u, creates (pc s t) = Some u -> started s u = true \/ pc s u = Starting.
Proof.
  induction 1 as [|s l s' R IH A X].
  - cbn. intros t u. destruct (t =? 0); discriminate.
  - intros t u C. assert (I := reached_inv b s R). destruct l as [k a].
    assert (Q : creates (pc s t) = Some u \/ pc s' u = Starting).
    { clear IH. steps X; injection X as <-; cbn in *; setf_cases; auto; try discriminate C; try (injection C as <-); try congruence.
      - rewrite Heqp. auto.
      - rewrite Heqp. auto.
      - rewrite wake_creates in C. auto.
      - rewrite wake_creates in C. auto. }
    destruct Q as [Q|Q]; [|auto]. destruct (i_cf b s I _ _ Q) as [F _]. specialize (IH _ _ Q). clear C.
    steps X; injection X as <-; cbn in *; setf_cases; auto; try (destruct IH as [IH|IH]; [auto|]; congruence).
    all: try match goal with H : pc _ _ = NotYet |- _ => rewrite H in F; discriminate end.
    destruct IH as [IH|IH]; [auto|]. right. unfold wake. rewrite IH. reflexivity.
Qed.
Lemma setf_same {A} (f : tid -> A) t v : setf f t v t = v. Proof. unfold setf. rewrite Z.eqb_refl. reflexivity. Qed.
Lemma setf_other {A} (f : tid -> A) t v u : u <> t -> setf f t v u = f u. Proof. unfold setf. destruct (Z.eqb_spec u t); congruence. Qed.
Lemma create_ready s t u : pc s t = CWait u -> started s u = true -> exists s2, alone t 2 s = Some s2 /\ pc s2 t = Running /\ res s2 t = Created u.
Proof.
  intros P S. cbn. unfold t_exec at 1. cbn. rewrite P, S. unfold t_exec. cbn. rewrite setf_same.
  eexists. repeat split; cbn; apply setf_same.
Qed.
Lemma create_progress b s t u : reached b s -> pc s t = CWait u ->
  exists n s1 s2, (n <= 1)%nat /\ alone u n s = Some s1 /\ alone t 2 s1 = Some s2 /\ pc s2 t = Running /\ res s2 t = Created u.
Proof.
  intros R P. destruct (starting_inv b s R t u) as [S|S]; [rewrite P; reflexivity| |].
  - destruct (create_ready s t u P S) as (s2 & Q). exists 0%nat, s, s2. split; [lia|]. split; [reflexivity|exact Q].
  - assert (N : t <> u) by congruence. set (s1 := set_pc (set_started (touch s u) u true) u Running).
    destruct (create_ready s1 t u) as (s2 & Q); [unfold s1; cbn; rewrite setf_other; auto|apply setf_same|].
    exists 1%nat, s1, s2. split; [lia|]. split; [|exact Q]. cbn. unfold t_exec. cbn. rewrite S. reflexivity.
Qed.
Lemma join_progress b s t u : reached b s -> joining (pc s t) u -> pc s u = XStatus \/ pc s u = Gone ->
  exists n s', (n <= 5)%nat /\ alone t n s = Some s' /\ pc s' t = Running /\ res s' t = Joined u (ret s u).
Proof.
  intros R J E. assert (I := reached_inv b s R).
  assert (JJ : joins (pc s t) = Some u).
  { destruct J as [J|[J|[J|[J|[[v J]|[v J]]]]]]; rewrite J; reflexivity. }
  assert (W : word s u = 1).
  { destruct (i_done b s I u) as [W|W]; [destruct E as [-> | ->]; reflexivity|exact W|]. rewrite (i_jd b s I t u JJ) in W. discriminate. }
  destruct (i_wc b s I u (or_introl W)) as [C1 C2].
  assert (U : forall v s1, pc s1 t = JUnmap u v -> exists s', alone t 1 s1 = Some s' /\ pc s' t = Running /\ res s' t = Joined u v).
  { intros v s1 P. cbn. unfold t_exec. cbn. rewrite P. eexists. repeat split; cbn; apply setf_same. }
  assert (V : forall v s1, pc s1 t = JRemove u v -> exists s', alone t 2 s1 = Some s' /\ pc s' t = Running /\ res s' t = Joined u v).
  { intros v s1 P. change (alone t 2 s1) with (match t_exec s1 (t, AStep) with Some s' => alone t 1 s' | None => None end). unfold t_exec. cbn [fst snd]. rewrite P. apply U. cbn. apply setf_same. }
  assert (X : forall s1, pc s1 t = JRead u -> exists s', alone t 3 s1 = Some s' /\ pc s' t = Running /\ res s' t = Joined u (cell s1 u)).
  { intros s1 P. change (alone t 3 s1) with (match t_exec s1 (t, AStep) with Some s' => alone t 2 s' | None => None end). unfold t_exec. cbn [fst snd]. rewrite P. apply V. cbn. apply setf_same. }
  assert (Y : forall s1, pc s1 t = JLoad u -> word s1 u = 1 -> exists s', alone t 4 s1 = Some s' /\ pc s' t = Running /\ res s' t = Joined u (cell s1 u)).
  { intros s1 P W1. change (alone t 4 s1) with (match t_exec s1 (t, AStep) with Some s' => alone t 3 s' | None => None end). unfold t_exec. cbn [fst snd]. rewrite P. cbv zeta. cbn [touch set_bad word]. rewrite W1.
    change (1 =? 0) with false. cbv iota. apply (X (set_pc (touch s1 u) t (JRead u))). cbn. apply setf_same. }
  assert (Z : forall s1, pc s1 t = JWait u -> word s1 u = 1 -> exists s', alone t 5 s1 = Some s' /\ pc s' t = Running /\ res s' t = Joined u (cell s1 u)).
  { intros s1 P W1. change (alone t 5 s1) with (match t_exec s1 (t, AStep) with Some s' => alone t 4 s' | None => None end). unfold t_exec. cbn [fst snd]. rewrite P. cbv zeta. cbn [touch set_bad word]. rewrite W1.
    change (1 =? 0) with false. cbv iota. apply (Y (set_pc (touch s1 u) t (JLoad u))); [cbn; apply setf_same|exact W1]. }
  assert (H0 : forall v, holds (pc s t) = Some (u, v) -> v = ret s u) by (intros v H; apply (i_val b s I) in H; congruence).
  rewrite <- C1.
  destruct J as [J|[J|[J|[J|[[v J]|[v J]]]]]].
  - destruct (Y s J W) as (s' & Q). exists 4%nat, s'. split; [lia|exact Q].
  - destruct (Z s J W) as (s' & Q). exists 5%nat, s'. split; [lia|exact Q].
  - exfalso. destruct (i_sleep b s I t u J) as [Q|Q]; [congruence|]. destruct E; congruence.
  - destruct (X s J) as (s' & Q). exists 3%nat, s'. split; [lia|exact Q].
  - destruct (V v s J) as (s' & Q). rewrite (H0 v) in Q by (rewrite J; reflexivity). rewrite <- C1 in Q. exists 2%nat, s'. split; [lia|exact Q].
  - destruct (U v s J) as (s' & Q). rewrite (H0 v) in Q by (rewrite J; reflexivity). rewrite <- C1 in Q. exists 1%nat, s'. split; [lia|exact Q].
Qed.
(* the exit of a thread does not wait for anyone *)
Lemma exit_progress s u v : pc s u = XClean v -> exists n s', (n <= 6)%nat /\ alone u n s = Some s' /\ pc s' u = Gone.
Proof.
  intros P. destruct (det s u) eqn:D.
  - exists 5%nat. cbn. unfold t_exec at 1. cbn. rewrite P. unfold t_exec at 1. cbn. rewrite setf_same. cbn. rewrite D.
    unfold t_exec at 1. cbn. rewrite setf_same. unfold t_exec at 1. cbn. rewrite setf_same. unfold t_exec at 1. cbn. rewrite setf_same.
    eexists. split; [lia|]. split; [reflexivity|]. cbn. apply setf_same.
  - exists 6%nat. cbn. unfold t_exec at 1. cbn. rewrite P. unfold t_exec at 1. cbn. rewrite setf_same. cbn. rewrite D.
    unfold t_exec at 1. cbn. rewrite setf_same. unfold t_exec at 1. cbn. rewrite setf_same. unfold t_exec at 1. cbn. rewrite setf_same. unfold t_exec at 1. cbn. rewrite setf_same.
    eexists. split; [lia|]. split; [reflexivity|]. cbn. apply setf_same.
Qed.
(* cancellation *)
Lemma cancel_sticks b s k u s1 s2 : reached b s -> allowed b s (k, ACancel u) -> t_exec s (k, ACancel u) = Some s1 -> later b s1 s2 -> queued s2 u = true.
Proof.
  intros R [A1 A2] X L. assert (N : pc s u <> NotYet) by (apply (i_kn b s (reached_inv b s R)) in A2; intros E; rewrite E in A2; discriminate).
  apply (queued_later b s1 s2 u L); [exact (begun_step _ _ _ _ N X)|]. unfold t_exec in X. cbn in X. destruct (pc s k); try discriminate X. injection X as <-. cbn. apply setf_same.
Qed.
Lemma testcancel_acts s u : pc s u = Running -> queued s u = true -> enabled s u = true ->
  exists s1 s2, t_exec s (u, ATestCancel) = Some s1 /\ t_exec s1 (u, AStep) = Some s2 /\ pc s2 u = XClean CANCELED.
Proof.
  intros P Q E. unfold t_exec at 1. cbn. rewrite P, Q. eexists. eexists. split; [reflexivity|]. unfold t_exec. cbn. rewrite setf_same, E. split; [reflexivity|]. cbn. apply setf_same.
Qed.
Lemma testcancel_idle s u s1 : pc s u = Running -> queued s u = false -> t_exec s (u, ATestCancel) = Some s1 -> pc s1 u = Running /\ res s1 u = Nothing.
Proof. intros P Q X. unfold t_exec in X. cbn in X. rewrite P, Q in X. injection X as <-. cbn. rewrite setf_same. auto. Qed.
Lemma canceled_value b s u v s2 t c : reached b s -> pc s u = XClean v -> later b s s2 -> res s2 t = Joined u c -> c = Some v.
Proof.
  intros R P L J. assert (D : doomed s u v) by (left; exact P).
  apply (doomed_later _ _ _ _ _ L) in D. destruct (join_value _ _ _ _ _ (later_reached _ _ _ R L) J) as (w & -> & E & V).
  destruct D as [D|[D _]]; [|congruence]. apply ended_over in V. rewrite D in V. discriminate.
Qed.
Lemma follow_reached b ls : forall s s', reached b s -> follow (allowed b) s ls s' -> reached b s'.
Proof.
  induction ls as [|l r IH]; intros s s' R F; cbn in F; [subst; assumption|]. destruct F as [A F].
  destruct (t_exec s l) as [s1|] eqn:X; [|contradiction]. eapply IH; [eapply r_step; eassumption|exact F].
Qed.
Lemma spared_queued u s : spared u s -> queued s u = false.
Proof.
  induction 1 as [|s l s' R IH N1 N2 X]; [reflexivity|]. destruct l as [t a].
  steps X; injection X as <-; cbn in *; setf_cases; auto; congruence.
Qed.
Lemma own_enabled s t a s' u : t_exec s (t, a) = Some s' -> t <> u -> pc s u <> NotYet -> enabled s' u = enabled s u.
Proof. intros X N P. steps X; injection X as <-; cbn in *; setf_cases; auto; congruence. Qed.
Lemma testcancel_disabled s u : pc s u = Running -> enabled s u = false ->
  exists n s1 s2, (n <= 1)%nat /\ t_exec s (u, ATestCancel) = Some s1 /\ alone u n s1 = Some s2 /\ pc s2 u = Running /\ res s2 u = Nothing.
Proof.
  intros P E. unfold t_exec at 1. cbn. rewrite P. destruct (queued s u).
  - exists 1%nat. eexists. eexists. split; [lia|]. split; [reflexivity|]. cbn. unfold t_exec. cbn. rewrite setf_same, E. split; [reflexivity|]. cbn. rewrite !setf_same. auto.
  - exists 0%nat. eexists. eexists. split; [lia|]. split; [reflexivity|]. split; [reflexivity|]. cbn. rewrite setf_same. auto.
Qed.
Lemma setcancel_old s u c : pc s u = Running -> queued s u = false ->
  exists n s1 s2, (n <= 1)%nat /\ t_exec s (u, ASetCancel c) = Some s1 /\ alone u n s1 = Some s2 /\ pc s2 u = Running /\ res s2 u = OldState (enabled s u) /\ enabled s2 u = c.
Proof.
  intros P Q. unfold t_exec at 1. cbn. rewrite P. destruct c.
  - exists 1%nat. eexists. eexists. split; [lia|]. split; [reflexivity|]. cbn. unfold t_exec. cbn. rewrite setf_same. cbn. rewrite Q. split; [reflexivity|]. cbn. rewrite !setf_same. auto.
  - exists 0%nat. eexists. eexists. split; [lia|]. split; [reflexivity|]. split; [reflexivity|]. cbn. rewrite !setf_same. auto.
Qed.
Lemma cancel_progress s k u : pc s k = KLoad u \/ pc s k = KKill u -> exists n s', (n <= 2)%nat /\ alone k n s = Some s' /\ pc s' k = Running /\ res s' k = Nothing.
Proof.
  assert (K : forall s, pc s k = KKill u -> exists s', alone k 1 s = Some s' /\ pc s' k = Running /\ res s' k = Nothing).
  { intros s0 P. cbn. unfold t_exec. cbn. rewrite P. eexists. split; [reflexivity|]. cbn. rewrite !setf_same. auto. }
  intros [P|P]; [|destruct (K s P) as (s' & Q); exists 1%nat, s'; split; [lia|exact Q]].
  destruct (enabled s u) eqn:E.
  - destruct (K (set_pc (touch s u) k (KKill u))) as (s' & Q); [cbn; apply setf_same|]. exists 2%nat, s'. split; [lia|].
    change (alone k 2 s) with (match t_exec s (k, AStep) with Some s' => alone k 1 s' | None => None end). unfold t_exec. cbn [fst snd]. rewrite P. cbv zeta. cbn [touch set_bad enabled]. rewrite E. exact Q.
  - exists 1%nat. cbn. unfold t_exec. cbn. rewrite P. cbn. rewrite E. eexists. split; [lia|]. split; [reflexivity|]. cbn. rewrite !setf_same. auto.
Qed.
(* checking runs of the threads [ks] *)
Definition rule (ob : option bool) (s : tstate) (l : tid * tact) : Prop :=
  match ob with Some b => allowed b s l | None => allowed true s l \/ allowed false s l end.
Definition unharmed (ks : list tid) (s : tstate) (u : tid) : bool :=
  negb (claimed s u) && known s u && forallb (fun k => match pc s k with KLoad w | KKill w => negb (w =? u) | _ => true end) ks.
Definition allowedb (ks : list tid) (ob : option bool) (s : tstate) (l : tid * tact) : bool :=
  match snd l with
  | ACreate u d _ => existsb (Z.eqb u) ks && (negb d || match ob with Some b => b | None => true end)
  | AJoin u => (u =? fst l) || unharmed ks s u
  | ADetach u => unharmed ks s u
  | ACancel u => negb (claimed s u) && known s u
  | ATerminate => negb match ob with Some b => b | None => false end
  | _ => true
  end.
Fixpoint runb (ks : list tid) (ob : option bool) (s : tstate) (ls : list (tid * tact)) : option tstate :=
  match ls with
  | [] => Some s
  | l :: r => if allowedb ks ob s l then match t_exec s l with Some s1 => runb ks ob s1 r | None => None end else None
  end.
Definition outside (ks : list tid) (s : tstate) : Prop := forall k, ~ In k ks -> pc s k = NotYet.
Lemma unharmed_ok ks s u : outside ks s -> unharmed ks s u = true -> claimed s u = false /\ known s u = true /\ forall k, pc s k <> KLoad u /\ pc s k <> KKill u.
Proof.
  intros N U. unfold unharmed in U. apply andb_true_iff in U. destruct U as [U F]. apply andb_true_iff in U. destruct U as [C K]. apply negb_true_iff in C.
  split; [exact C|]. split; [exact K|]. intros k. destruct (in_dec Z.eq_dec k ks) as [I|I].
  - rewrite forallb_forall in F. specialize (F k I). destruct (pc s k); try (split; discriminate); apply negb_true_iff, Z.eqb_neq in F; split; congruence.
  - rewrite (N k I). split; discriminate.
Qed.
Lemma allowedb_ok ks ob s l : outside ks s -> allowedb ks ob s l = true -> rule ob s l.
Proof.
  intros N B. destruct l as [t a]. unfold allowedb in B. cbn in B. unfold rule, allowed. cbn [fst snd].
  destruct a; try (destruct ob; auto; fail).
  - apply andb_true_iff in B. destruct B as [_ B]. destruct ob as [b|]; [|left; auto]. intros ->. exact B.
  - assert (Q : u = t \/ (claimed s u = false /\ known s u = true /\ forall k, pc s k <> KLoad u /\ pc s k <> KKill u)).
    { apply orb_true_iff in B. destruct B as [B|B]; [left; apply Z.eqb_eq; exact B|right; eapply unharmed_ok; eassumption]. }
    destruct ob; auto.
  - apply (unharmed_ok _ _ _ N) in B. destruct ob; auto.
  - apply andb_true_iff in B. destruct B as [C K]. apply negb_true_iff in C. destruct ob; auto.
  - destruct ob as [[]|]; auto; discriminate.
Qed.
Lemma outside_step ks ob s l s' : outside ks s -> allowedb ks ob s l = true -> t_exec s l = Some s' -> outside ks s'.
Proof.
  destruct l as [t a]. intros N B X k K. assert (P := N k K).
  assert (NC : forall d us, a <> ACreate k d us).
  { intros d us ->. cbn in B. apply andb_true_iff in B. destruct B as [B _]. apply existsb_exists in B. destruct B as (y & I & E). apply Z.eqb_eq in E. subst y. contradiction. }
  clear B. steps X; injection X as <-; cbn; setf_cases; try exact P; try congruence.
  unfold wake. rewrite P. reflexivity.
Qed.
Lemma runb_follow ks ob ls : forall s s', outside ks s -> runb ks ob s ls = Some s' -> follow (rule ob) s ls s'.
Proof.
  induction ls as [|l r IH]; intros s s' N R; cbn in *; [congruence|].
  destruct (allowedb ks ob s l) eqn:B; [|discriminate]. split; [eapply allowedb_ok; eassumption|].
  destruct (t_exec s l) as [s1|] eqn:X; [|discriminate]. apply IH; [eapply outside_step; eassumption|exact R].
Qed.
Lemma outside_init ks : In 0 ks -> outside ks t_init.
Proof. intros I k K. cbn. destruct (Z.eqb_spec k 0); [subst; contradiction|reflexivity]. Qed.
Lemma runb_reached ks b ls s' : In 0 ks -> runb ks (Some b) t_init ls = Some s' -> reached b s'.
Proof. intros I R. apply runb_follow in R; [|apply outside_init; exact I]. exact (follow_reached b ls t_init s' (r_init b) R). Qed.
Lemma follow_ext (P Q : tstate -> tid * tact -> Prop) ls : (forall s l, P s l -> Q s l) -> forall s s', follow P s ls s' -> follow Q s ls s'.
Proof.
  intros H. induction ls as [|l r IH]; intros s s' F; cbn in *; [exact F|]. destruct F as [A F]. split; [apply H; exact A|].
  destruct (t_exec s l); [apply IH; exact F|exact F].
Qed.
Lemma runb_either ks ls s' : In 0 ks -> runb ks None t_init ls = Some s' -> follow (fun s l => allowed true s l \/ allowed false s l) t_init ls s'.
Proof. intros I R. apply runb_follow in R; [|apply outside_init; exact I]. revert R. apply follow_ext. intros s l H. exact H. Qed.
Lemma runb_allowed ks b ls s' : In 0 ks -> runb ks (Some b) t_init ls = Some s' -> follow (allowed b) t_init ls s'.
Proof. intros I R. apply runb_follow in R; [|apply outside_init; exact I]. revert R. apply follow_ext. intros s l H. exact H. Qed.
