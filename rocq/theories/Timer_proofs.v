(* Proofs for C138 and C139. *)
From Coq Require Import Lia.
From Verif Require Import Base Timespec_model Timespec_proofs Timer_model Timer_spec.
From Coq Require Import List.
Import ListNotations.
Open Scope Z_scope.

Lemma find_set_same l : forall id t u, find_timer l id = Some u -> find_timer (set_timer l id t) id = Some t.
Proof.
  induction l as [|(i, x) l IH]; intros id t u H; [discriminate|]. cbn [find_timer set_timer] in *. destruct (i =? id) eqn:E; cbn [find_timer]; rewrite E; [reflexivity|]. eapply IH, H.
Qed.
Lemma find_set_other l : forall id i t, i <> id -> find_timer (set_timer l i t) id = find_timer l id.
Proof.
  induction l as [|(j, x) l IH]; intros id i t H; [reflexivity|]. cbn [find_timer set_timer]. destruct (Z.eqb_spec j i); cbn [find_timer].
  - subst. destruct (Z.eqb_spec i id); [contradiction|reflexivity].
  - destruct (j =? id); [reflexivity|]. apply IH, H.
Qed.
Lemma find_remove_other l : forall id i, i <> id -> find_timer (remove_timer l i) id = find_timer l id.
Proof.
  induction l as [|(j, x) l IH]; intros id i H; [reflexivity|]. unfold remove_timer in *. cbn [filter fst find_timer]. destruct (Z.eqb_spec j i); cbn [negb].
  - subst. rewrite IH by exact H. destruct (Z.eqb_spec i id); [contradiction|reflexivity].
  - cbn [find_timer]. destruct (j =? id); [reflexivity|]. apply IH, H.
Qed.
Lemma find_remove_same l : forall id, find_timer (remove_timer l id) id = None.
Proof.
  induction l as [|(j, x) l IH]; intro id; [reflexivity|]. unfold remove_timer in *. cbn [filter fst]. destruct (Z.eqb_spec j id); cbn [negb]; [apply IH|].
  cbn [find_timer]. destruct (Z.eqb_spec j id); [contradiction|apply IH].
Qed.
Lemma find_app l : forall k id, find_timer (l ++ k) id = match find_timer l id with Some t => Some t | None => find_timer k id end.
Proof. induction l as [|(j, x) l IH]; intros k id; [reflexivity|]. cbn [app find_timer]. destruct (j =? id); [reflexivity|apply IH]. Qed.
Lemma set_same l : forall id t, find_timer l id = Some t -> set_timer l id t = l.
Proof.
  induction l as [|(i, x) l IH]; intros id t H; [reflexivity|]. cbn [find_timer set_timer] in *. destruct (i =? id); [injection H as <-; reflexivity|]. f_equal. apply IH, H.
Qed.

(* identifiers stay below next_id *)
Definition below (w : world) : Prop := forall id t, find_timer (timers w) id = Some t -> id < next_id w.
Lemma find_set l id t : forall i u, find_timer (set_timer l i u) id = Some t -> exists t', find_timer l id = Some t'.
Proof.
  intros i u. destruct (Z.eq_dec i id) as [->|N].
  - destruct (find_timer l id) as [t'|] eqn:E; [intros _; eexists; reflexivity|]. intro H. exfalso. revert E H. induction l as [|(j, x) l IH]; [discriminate|].
    cbn [find_timer set_timer]. destruct (j =? id) eqn:J; [discriminate|]. cbn [find_timer]. rewrite J. exact IH.
  - rewrite find_set_other by exact N. intro H. eexists. exact H.
Qed.
Lemma find_remove l id t i : find_timer (remove_timer l i) id = Some t -> find_timer l id = Some t.
Proof.
  destruct (Z.eq_dec i id) as [->|N]; [rewrite find_remove_same; discriminate|]. rewrite find_remove_other by exact N. tauto.
Qed.

Lemma put_below w id t : below w -> below (put w id t).
Proof. intros B i u H. cbn [put timers next_id] in *. apply find_set in H. destruct H as (t' & H). apply (B _ _ H). Qed.
Lemma gettime_below w id : below w -> below (fst (timer_gettime w id)).
Proof.
  intro B. unfold timer_gettime. destruct (find_timer (timers w) id) as [t|]; [|exact B]. destruct (gettime _ t). apply put_below, B.
Qed.
Lemma act_below w a w' : below w -> act w a = Some w' -> below w'.
Proof.
  intros B H. destruct a; cbn [act] in H.
  - destruct (before_eq _ _); [|discriminate]. injection H as <-. exact B.
  - injection H as <-. unfold timer_create. destruct (_ || _); [exact B|]. destruct (negb _); [exact B|]. intros i u. cbn [fst timers next_id]. rewrite find_app.
    destruct (find_timer (timers w) i) as [x|] eqn:E; [intros _; pose proof (B _ _ E); lia|]. cbn [find_timer]. destruct (Z.eqb_spec (next_id w) i); [intros _; lia|discriminate].
  - injection H as <-. unfold timer_delete. destruct (find_timer _ _); [|exact B]. intros i u F. cbn [fst timers next_id] in *. apply find_remove in F. apply (B _ _ F).
  - injection H as <-. apply gettime_below, B.
  - injection H as <-. unfold timer_settime. pose proof (gettime_below w id B) as G. destruct old.
    + destruct (timer_gettime w id) as (w1, r). cbn [fst] in G. destruct r as [o|e]; [|exact G]. destruct (find_timer (timers w1) id) as [t|]; [|exact G]. destruct (settime _ _ _ _ t). apply put_below, G.
    + destruct (find_timer (timers w) id) as [t|]; [|exact B]. destruct (settime _ _ _ _ t). apply put_below, B.
  - destruct (find_timer _ _) as [t|]; [|discriminate]. destruct (thread t); try discriminate. injection H as <-. apply put_below, B.
  - destruct (find_timer _ _) as [t|]; [|discriminate]. destruct (thread t); try discriminate. destruct (nth_error _ _); [|discriminate]. destruct (before_eq _ _); [|discriminate].
    destruct (expire _ _ _ _ t) as (t', b). injection H as <-. intros i u F. cbn [timers next_id] in *. apply (put_below w id t' B i u F).
Qed.
Lemma acts_below l : forall w w', below w -> acts w l = Some w' -> below w'.
Proof.
  induction l as [|a l IH]; intros w w' B H; [injection H as <-; exact B|]. cbn [acts] in H. destruct (act w a) as [w1|] eqn:A; [|discriminate]. apply (IH w1); [|exact H]. eapply act_below; eassumption.
Qed.
Lemma boot_below c : below (boot c).
Proof. intros i u H. discriminate. Qed.

(* Another timer's actions. *)
Definition subject (a : action) : option Z :=
  match a with Delete i | Gettime i | Settime i _ _ _ _ | Start i | Expire i _ _ => Some i | _ => None end.

Lemma other_act w a w' id t : find_timer (timers w) id = Some t -> below w -> subject a <> Some id -> act w a = Some w' ->
  find_timer (timers w') id = Some t /\ exists new, sent w' = sent w ++ new /\ times id new = [].
Proof.
  intros F B S H. destruct a; cbn [subject] in S; cbn [act] in H.
  - destruct (before_eq _ _); [|discriminate]. injection H as <-. split; [exact F|]. exists []. split; [symmetry; apply app_nil_r|reflexivity].
  - injection H as <-. split; [|exists []; split; [|reflexivity]; unfold timer_create; destruct (_ || _); [|destruct (negb _)]; cbn [fst sent]; symmetry; apply app_nil_r].
    unfold timer_create. destruct (_ || _); [exact F|]. destruct (negb _); [exact F|]. cbn [fst timers]. rewrite find_app, F. reflexivity.
  - injection H as <-. unfold timer_delete. assert (N : id0 <> id) by congruence. destruct (find_timer (timers w) id0); cbn [fst timers sent].
    + rewrite find_remove_other by exact N. split; [exact F|]. exists []. split; [symmetry; apply app_nil_r|reflexivity].
    + split; [exact F|]. exists []. split; [symmetry; apply app_nil_r|reflexivity].
  - injection H as <-. unfold timer_gettime. assert (N : id0 <> id) by congruence. destruct (find_timer (timers w) id0) as [u|].
    + destruct (gettime _ u). cbn [fst put timers sent]. rewrite find_set_other by exact N. split; [exact F|]. exists []. split; [symmetry; apply app_nil_r|reflexivity].
    + split; [exact F|]. exists []. split; [symmetry; apply app_nil_r|reflexivity].
  - injection H as <-. assert (N : id0 <> id) by congruence.
    assert (G : forall w1, find_timer (timers w1) id = Some t -> sent w1 = sent w -> forall o : option (timespec * timespec),
      find_timer (timers (fst (match find_timer (timers w1) id0 with
      | None => (w1, (o, Some EINVAL))
      | Some t => let (t, e) := settime (clk w1 (clock t)) flags iv v t in (put w1 id0 t, (o, e)) end))) id = Some t /\
      sent (fst (match find_timer (timers w1) id0 with
      | None => (w1, (o, Some EINVAL))
      | Some t => let (t, e) := settime (clk w1 (clock t)) flags iv v t in (put w1 id0 t, (o, e)) end)) = sent w).
    { intros w1 F1 S1 o. destruct (find_timer (timers w1) id0) as [u|]; [|split; assumption]. destruct (settime _ _ _ _ u). cbn [fst put timers sent]. rewrite find_set_other by exact N. split; assumption. }
    assert (R : forall w2, find_timer (timers w2) id = Some t /\ sent w2 = sent w -> find_timer (timers w2) id = Some t /\ exists new, sent w2 = sent w ++ new /\ times id new = []).
    { intros w2 (A1 & A2). split; [exact A1|]. exists []. split; [rewrite app_nil_r; exact A2|reflexivity]. }
    apply R. unfold timer_settime. destruct old.
    + unfold timer_gettime. destruct (find_timer (timers w) id0) as [u|] eqn:U.
      * destruct (gettime _ u) as (u', r). apply G; [cbn [put timers]; rewrite find_set_other by exact N; exact F|reflexivity].
      * cbn [fst]. split; [exact F|reflexivity].
    + apply G; [exact F|reflexivity].
  - assert (N : id0 <> id) by congruence. destruct (find_timer (timers w) id0) as [u|]; [|discriminate]. destruct (thread u); try discriminate. injection H as <-.
    cbn [put timers sent]. rewrite find_set_other by exact N. split; [exact F|]. exists []. split; [symmetry; apply app_nil_r|reflexivity].
  - assert (N : id0 <> id) by congruence. destruct (find_timer (timers w) id0) as [u|]; [|discriminate]. destruct (thread u); try discriminate. destruct (nth_error _ _); [|discriminate]. destruct (before_eq _ _); [|discriminate].
    destruct (expire _ _ _ _ u) as (u', b). injection H as <-. cbn [put timers sent]. rewrite find_set_other by exact N. split; [exact F|].
    exists (if b then [(id0, clk w (clock u))] else []). split; [destruct b; [reflexivity|symmetry; apply app_nil_r]|]. destruct b; [|reflexivity].
    unfold times. cbn [filter fst]. destruct (Z.eqb_spec id0 id); [contradiction|reflexivity].
Qed.

Lemma times_app id a b : times id (a ++ b) = times id a ++ times id b.
Proof. unfold times. rewrite filter_app, map_app. reflexivity. Qed.

Lemma due_snoc i ts : forall d x t, due d i ts = Some x -> due d i (ts ++ [t]) = if i =? 0 then None else Some (t + i).
Proof.
  induction ts as [|s ts IH]; intros d x t H; cbn [app due] in *; [reflexivity|]. destruct (i =? 0) eqn:E; [discriminate|]. exact (IH _ _ _ H).
Qed.
Lemma on_time_snoc i ts : forall d x t, on_time d i ts -> due d i ts = Some x -> x <= t -> on_time d i (ts ++ [t]).
Proof.
  induction ts as [|s ts IH]; intros d x t O H L; cbn [app due on_time] in *.
  - injection H as ->. split; [exact L|]. destruct (i =? 0); [reflexivity|exact I].
  - destruct O as (O1 & O2). split; [exact O1|]. destruct (i =? 0); [discriminate|]. eapply IH; eassumption.
Qed.

Lemma sane_valid t : sane t -> ts_valid t.
Proof. intros ((A & B) & C). unfold ts_valid. change (2 ^ 62) with 4611686018427387904 in *. change (2 ^ 63) with 9223372036854775808. lia. Qed.
Lemma add_ok a b : sane a -> sane b -> exists r, ts_add a b = Some r /\ ts_valid r /\ 0 <= tv_sec r /\ ns r = ns a + ns b.
Proof.
  intros A B. destruct (ts_add_ok a b (sane_valid a A) (sane_valid b B)) as (r & E & V & N).
  - destruct A as ((A & _) & _), B as ((B & _) & _). lia.
  - destruct A as ((A & A1) & A2), B as ((B & B1) & B2). unfold ns. change (2 ^ 62) with 4611686018427387904 in *. change (2 ^ 63) with 9223372036854775808. lia.
  - exists r. split; [exact E|]. split; [exact V|]. split; [|exact N]. destruct A as ((A & A1) & A2), B as ((B & B1) & B2). destruct V as (V1 & V2). unfold ns in N. lia.
Qed.
Lemma is_zero_ns t : 0 <= tv_sec t -> 0 <= tv_nsec t -> (ts_is_zero t = true <-> ns t = 0).
Proof. intros A B. unfold ts_is_zero, ns. rewrite Bool.andb_true_iff, !Z.eqb_eq. split; intro; lia. Qed.

(* The state of a timer armed for d with interval iv. *)
Definition armed (t t' : timer) (iv : timespec) (d : option Z) : Prop :=
  clock t' = clock t /\ notify t' = notify t /\ signo t' = signo t /\ has_function t' = has_function t /\ interval t' = iv /\
  match d with
  | Some d => ns (value t') = d /\ 0 < d /\ ts_valid (value t') /\ 0 <= tv_sec (value t') /\ pending t' = [value t'] /\ has_thread t' = true /\ (thread t' = Starting \/ thread t' = Waiting (version t'))
  | None => idle t'
  end.

Lemma settime_armed now flags iv v t : sane now -> ts_valid v -> 0 <= tv_sec v -> ts_is_zero v = false -> sane iv -> idle t -> notifies t ->
  (Z.land flags 1 = 0 -> sane v) ->
  exists t', settime now flags iv v t = (t', None) /\ armed t t' iv (Some (if Z.land flags 1 =? 0 then ns now + ns v else ns v)).
Proof.
  intros SN V V0 NZ SI (P & TH & HT & VZ) NT SV. assert (VP : 0 < ns v).
  { destruct V as (V1 & V2). assert (ns v <> 0) by (intro E; apply is_zero_ns in E; [congruence|lia..]). unfold ns in *. lia. }
  unfold settime. rewrite NZ. change TIMER_ABSTIME with 1.
  assert (X : exists v', (if Z.land flags 1 =? 0 then ts_add now v else Some v) = Some v' /\ ts_valid v' /\ 0 <= tv_sec v' /\ ns v' = (if Z.land flags 1 =? 0 then ns now + ns v else ns v)).
  { destruct (Z.eqb_spec (Z.land flags 1) 0) as [E|E].
    - destruct (add_ok now v SN (SV E)) as (r & E1 & E2 & E3 & E4). exists r. split; [exact E1|]. split; [exact E2|]. split; [exact E3|exact E4].
    - exists v. split; [reflexivity|]. split; [exact V|]. split; [exact V0|reflexivity]. }
  destruct X as (v' & E & V1 & V2 & V3). rewrite E, HT, P. cbn [app].
  assert (N : (notify t =? SIGEV_THREAD) || (notify t =? SIGEV_SIGNAL) = true) by (destruct NT as [->|(-> & _)]; reflexivity). rewrite N.
  eexists. split; [reflexivity|]. unfold armed. cbn [clock notify signo has_function interval value pending has_thread thread version].
  do 5 (split; [reflexivity|]). split; [exact V3|]. split; [|split; [exact V1|split; [exact V2|split; [reflexivity|split; [reflexivity|left; reflexivity]]]]].
  destruct SN as ((S1 & S2) & S3). destruct (Z.land flags 1 =? 0); unfold ns in *; lia.
Qed.

Lemma expire_armed now v t t' iv d p : armed t t' iv (Some d) -> notifies t -> sane now -> sane iv -> pending t' = [p] -> thread t' = Waiting v ->
  exists t2, expire now v [] true t' = (t2, true) /\ armed t t2 iv (if ns iv =? 0 then None else Some (ns now + ns iv)).
Proof.
  intros (C & N & SG & HF & IV & D1 & D2 & D3 & D4 & D5 & D6 & D7) NT SN SI P TH. destruct D7 as [D7|D7]; [congruence|]. assert (v = version t') by congruence. subst v.
  unfold expire. rewrite Z.eqb_refl. cbn [andb]. rewrite Bool.andb_false_r.
  assert (NF : (notify t' =? SIGEV_THREAD) && has_function t' || (notify t' =? SIGEV_SIGNAL) = true).
  { rewrite N, HF. destruct NT as [->|(-> & ->)]; reflexivity. }
  rewrite NF. unfold update_wake_time. rewrite IV. destruct SI as ((I1 & I2) & I3). destruct (ts_is_zero iv) eqn:Z0.
  - apply is_zero_ns in Z0; [|lia..]. rewrite Z0. cbn [Z.eqb]. change (ts_is_zero ts_zero) with true. cbn iota. eexists. split; [reflexivity|].
    unfold armed, idle. cbn [clock notify signo has_function interval value pending has_thread thread version]. repeat match goal with |- _ /\ _ => split end; assumption || reflexivity.
  - destruct (Z.eqb_spec (ns iv) 0) as [E|E]; [apply is_zero_ns in E; [congruence|lia..]|]. destruct (add_ok now iv SN (conj (conj I1 I2) I3)) as (r & R1 & R2 & R3 & R4). rewrite R1.
    assert (RZ : ts_is_zero r = false).
    { destruct (ts_is_zero r) eqn:Q; [|reflexivity]. apply is_zero_ns in Q; [|lia|destruct R2; lia]. destruct SN as ((S1 & S2) & S3). unfold ns in *. lia. }
    rewrite RZ. eexists. split; [reflexivity|]. unfold armed. cbn [clock notify signo has_function interval value pending has_thread thread version app].
    do 4 (split; [assumption|]). split; [reflexivity|]. split; [exact R4|]. split; [destruct SN as ((S1 & S2) & S3); unfold ns in *; lia|]. split; [exact R2|]. split; [exact R3|]. split; [reflexivity|]. split; [exact D6|]. right. reflexivity.
Qed.

Lemma get_armed now t t' iv d : armed t t' iv d -> notifies t -> fst (gettime now t') = t'.
Proof.
  intros (C & N & _) NT. unfold gettime. assert (X : notify t' =? SIGEV_NONE = false) by (rewrite N; destruct NT as [->|(-> & _)]; reflexivity). rewrite X. cbn [andb].
  destruct (ts_is_zero (value t')); reflexivity.
Qed.

Lemma before_iff a b : before_eq a b = true <-> ns a <= ns b.
Proof. unfold before_eq, ns. apply Z.leb_le. Qed.

(* One step of anything while the timer runs. *)
Lemma step_armed w a w' id t t' iv d0 ts : find_timer (timers w) id = Some t' -> armed t t' iv (due d0 (ns iv) ts) -> notifies t -> sane iv -> below w -> clocks_sane w ->
  hands_off id a -> act w a = Some w' -> on_time d0 (ns iv) ts ->
  clocks_sane w' /\ exists t2 new, find_timer (timers w') id = Some t2 /\ sent w' = sent w ++ new /\
    armed t t2 iv (due d0 (ns iv) (ts ++ times id new)) /\ on_time d0 (ns iv) (ts ++ times id new).
Proof.
  intros F A NT SI B CS HO H OT.
  assert (CS' : clocks_sane w').
  { clear F A OT. destruct a; cbn [act] in H.
    - destruct (before_eq _ _); [|discriminate]. injection H as <-. intro x. cbn [clk]. destruct (x =? c); [exact HO|apply CS].
    - injection H as <-. unfold timer_create. destruct (_ || _); [exact CS|]. destruct (negb _); exact CS.
    - injection H as <-. unfold timer_delete. destruct (find_timer _ _); exact CS.
    - injection H as <-. unfold timer_gettime. destruct (find_timer _ _) as [u|]; [|exact CS]. destruct (gettime _ u). exact CS.
    - injection H as <-. unfold timer_settime, timer_gettime. destruct old.
      + destruct (find_timer (timers w) id0) as [u|]; [|exact CS]. destruct (gettime _ u). cbn [put timers]. destruct (find_timer _ id0) as [u'|]; [|exact CS]. destruct (settime _ _ _ _ u'). exact CS.
      + destruct (find_timer _ id0) as [u|]; [|exact CS]. destruct (settime _ _ _ _ u). exact CS.
    - destruct (find_timer _ _) as [u|]; [|discriminate]. destruct (thread u); try discriminate. injection H as <-. exact CS.
    - destruct (find_timer _ _) as [u|]; [|discriminate]. destruct (thread u); try discriminate. destruct (nth_error _ _); [|discriminate]. destruct (before_eq _ _); [|discriminate].
      destruct (expire _ _ _ _ u). injection H as <-. exact CS. }
  split; [exact CS'|].
  assert (Other : subject a <> Some id -> exists t2 new, find_timer (timers w') id = Some t2 /\ sent w' = sent w ++ new /\
    armed t t2 iv (due d0 (ns iv) (ts ++ times id new)) /\ on_time d0 (ns iv) (ts ++ times id new)).
  { intro S. destruct (other_act w a w' id t' F B S H) as (F' & new & E1 & E2). exists t', new. rewrite E2, app_nil_r. split; [exact F'|]. split; [exact E1|]. split; [exact A|exact OT]. }
  destruct a as [c x|c n s f|i|i|i fl i1 v1 o|i|i n q]; cbn [subject] in Other; cbn [hands_off] in HO.
  - apply Other. discriminate.
  - apply Other. discriminate.
  - apply Other. congruence.
  - destruct (Z.eq_dec i id) as [->|N]; [|apply Other; congruence]. cbn [act] in H. injection H as <-. unfold timer_gettime. rewrite F.
    pose proof (get_armed (clk w (clock t')) t t' iv _ A NT) as G. destruct (gettime _ t') as (u, r). cbn [fst] in G. subst u. cbn [fst put timers sent].
    exists t', []. change (times id []) with (@nil Z). rewrite !app_nil_r. rewrite (find_set_same _ _ _ _ F). split; [reflexivity|]. split; [reflexivity|]. split; [exact A|exact OT].
  - apply Other. congruence.
  - destruct (Z.eq_dec i id) as [->|N]; [|apply Other; congruence]. cbn [act] in H. rewrite F in H. destruct (thread t') eqn:TH; try discriminate. injection H as <-.
    exists (start t'), []. change (times id []) with (@nil Z). rewrite !app_nil_r. cbn [put timers sent]. rewrite (find_set_same _ _ _ _ F). split; [reflexivity|]. split; [reflexivity|]. split; [|exact OT].
    unfold armed in *. unfold start. cbn [clock notify signo has_function interval value pending has_thread thread version]. destruct A as (A1 & A2 & A3 & A4 & A5 & A6). do 5 (split; [assumption|]).
    destruct (due d0 (ns iv) ts); [|destruct A6 as (_ & A6 & _); congruence]. destruct A6 as (B1 & B2 & B3 & B4 & B5 & B6 & _). do 6 (split; [assumption|]). right. reflexivity.
  - destruct (Z.eq_dec i id) as [->|N]; [|apply Other; congruence]. cbn [act] in H. rewrite F in H. destruct (thread t') as [| |v] eqn:TH; try discriminate.
    destruct (nth_error (pending t') n) as [p|] eqn:P; [|discriminate]. destruct (before_eq p (clk w (clock t'))) eqn:BE; [|discriminate].
    destruct (due d0 (ns iv) ts) as [d|] eqn:DU.
    + pose proof A as (A1 & A2 & A3 & A4 & A5 & D1 & D2 & D3 & D4 & D5 & D6 & D7). rewrite D5 in P. destruct n as [|n]; [|destruct n; discriminate]. injection P as <-.
      rewrite D5 in H. cbn [firstn skipn app] in H. rewrite (HO eq_refl) in H.
      destruct (expire_armed (clk w (clock t')) v t t' iv d (value t') A NT (CS _) SI D5 TH) as (t2 & E2 & AR). rewrite E2 in H. injection H as <-.
      apply before_iff in BE. rewrite D1 in BE. exists t2, [(id, clk w (clock t'))]. cbn [put timers sent]. rewrite (find_set_same _ _ _ _ F). split; [reflexivity|]. split; [reflexivity|].
      unfold times. cbn [filter fst snd map]. rewrite Z.eqb_refl. cbn [map snd]. change (nanos (clk w (clock t'))) with (ns (clk w (clock t'))).
      rewrite (due_snoc (ns iv) ts d0 d _ DU). split; [exact AR|]. eapply on_time_snoc; eassumption.
    + destruct A as (_ & _ & _ & _ & _ & (A6 & _)). rewrite A6 in P. destruct n; discriminate.
Qed.

Lemma run_armed l : forall w w' id t t' iv d0 ts, find_timer (timers w) id = Some t' -> armed t t' iv (due d0 (ns iv) ts) -> notifies t -> sane iv -> below w -> clocks_sane w ->
  Forall (hands_off id) l -> acts w l = Some w' -> on_time d0 (ns iv) ts ->
  clocks_sane w' /\ exists t2 new, find_timer (timers w') id = Some t2 /\ sent w' = sent w ++ new /\
    armed t t2 iv (due d0 (ns iv) (ts ++ times id new)) /\ on_time d0 (ns iv) (ts ++ times id new).
Proof.
  induction l as [|a l IH]; intros w w' id t t' iv d0 ts F A NT SI B CS HO H OT.
  - injection H as <-. split; [exact CS|]. exists t', []. change (times id []) with (@nil Z). rewrite !app_nil_r. split; [exact F|]. split; [reflexivity|]. split; [exact A|exact OT].
  - cbn [acts] in H. destruct (act w a) as [w1|] eqn:E; [|discriminate]. inversion HO as [|? ? H1 H2]; subst.
    destruct (step_armed w a w1 id t t' iv d0 ts F A NT SI B CS H1 E OT) as (CS1 & t1 & n1 & F1 & S1 & A1 & O1).
    destruct (IH w1 w' id t t1 iv d0 _ F1 A1 NT SI (act_below _ _ _ B E) CS1 H2 H O1) as (CS2 & t2 & n2 & F2 & S2 & A2 & O2).
    split; [exact CS2|]. exists t2, (n1 ++ n2). rewrite times_app. rewrite <- !app_assoc in *. split; [exact F2|]. split; [rewrite S2, S1, app_assoc; reflexivity|]. split; [exact A2|exact O2].
Qed.

(* When it is due it can notify, when it is not it cannot. *)
Lemma armed_due w id t t' iv d : find_timer (timers w) id = Some t' -> armed t t' iv (Some d) -> notifies t -> sane iv -> clocks_sane w -> d <= ns (clk w (clock t)) ->
  exists l w', acts w l = Some w' /\ sent w' = sent w ++ [(id, clk w (clock t))].
Proof.
  intros F A NT SI CS L. pose proof A as (A1 & A2 & A3 & A4 & A5 & D1 & D2 & D3 & D4 & D5 & D6 & D7).
  assert (BE : before_eq (value t') (clk w (clock t')) = true) by (apply before_iff; rewrite D1, A1; exact L).
  destruct D7 as [D7|D7].
  - exists [Start id; Expire id 0 true]. cbn [acts]. cbn [act]. rewrite F, D7. cbn [put timers]. rewrite (find_set_same _ _ _ _ F).
    replace (thread (start t')) with (Waiting (version t')) by reflexivity. change (pending (start t')) with (pending t'). rewrite D5. cbn [nth_error]. change (clock (start t')) with (clock t'). cbn [put clk]. rewrite BE. cbn [firstn skipn app].
    assert (A' : armed t (start t') iv (Some d)).
    { unfold armed, start. cbn [clock notify signo has_function interval value pending has_thread thread version]. do 11 (split; [assumption|]). right. reflexivity. }
    destruct (expire_armed (clk w (clock t')) (version t') t (start t') iv d (value t') A' NT (CS _) SI D5 eq_refl) as (t2 & E2 & _). rewrite E2. eexists. split; [reflexivity|]. cbn [put sent]. rewrite A1. reflexivity.
  - exists [Expire id 0 true]. cbn [acts act]. rewrite F, D7, D5. cbn [nth_error]. rewrite BE. cbn [firstn skipn app].
    destruct (expire_armed (clk w (clock t')) (version t') t t' iv d (value t') A NT (CS _) SI D5 D7) as (t2 & E2 & _). rewrite E2. eexists. split; [reflexivity|]. cbn [put sent]. rewrite A1. reflexivity.
Qed.

Lemma settime_world w id t flags iv v old : find_timer (timers w) id = Some t -> below w -> clocks_sane w -> ts_valid v -> 0 <= tv_sec v -> ts_is_zero v = false -> sane iv -> idle t -> notifies t ->
  (Z.land flags 1 = 0 -> sane v) ->
  exists w1 o t1, timer_settime w id flags iv v old = (w1, (o, None)) /\ find_timer (timers w1) id = Some t1 /\ sent w1 = sent w /\ clk w1 = clk w /\ next_id w1 = next_id w /\
    armed t t1 iv (Some (if Z.land flags 1 =? 0 then ns (clk w (clock t)) + ns v else ns v)).
Proof.
  intros F B CS V V0 NZ SI ID NT SV. destruct (settime_armed (clk w (clock t)) flags iv v t (CS _) V V0 NZ SI ID NT SV) as (t1 & E & A).
  unfold timer_settime, timer_gettime. destruct old.
  - rewrite F. assert (G : fst (gettime (clk w (clock t)) t) = t).
    { unfold gettime. assert (X : notify t =? SIGEV_NONE = false) by (destruct NT as [->|(-> & _)]; reflexivity). rewrite X. cbn [andb]. destruct (ts_is_zero (value t)); reflexivity. }
    destruct (gettime _ t) as (u, r). cbn [fst] in G. subst u. cbn [put timers clk]. rewrite (find_set_same _ _ _ _ F). rewrite E. do 3 eexists. split; [reflexivity|].
    cbn [put timers sent clk next_id]. rewrite (set_same _ _ _ F), (find_set_same _ _ _ _ F). do 4 (split; [reflexivity|]). exact A.
  - rewrite F, E. do 3 eexists. split; [reflexivity|]. cbn [put timers sent clk next_id]. rewrite (find_set_same _ _ _ _ F). do 4 (split; [reflexivity|]). exact A.
Qed.

Theorem timer_runs c l0 w id t flags iv v old w1 res l w' : acts (boot c) l0 = Some w -> find_timer (timers w) id = Some t -> idle t -> notifies t -> clocks_sane w ->
  sane iv -> sane v -> nanos v <> 0 -> timer_settime w id flags iv v old = (w1, res) -> Forall (hands_off id) l -> acts w1 l = Some w' ->
  let d := if Z.land flags 1 =? 0 then nanos (clk w (clock t)) + nanos v else nanos v in
  exists new, snd res = None /\ sent w' = sent w ++ new /\ on_time d (nanos iv) (times id new) /\
    match due d (nanos iv) (times id new) with
    | Some x => (x <= nanos (clk w' (clock t)) -> exists k w2, acts w' k = Some w2 /\ sent w2 = sent w' ++ [(id, clk w' (clock t))]) /\
                forall n q w2, act w' (Expire id n q) = Some w2 -> x <= nanos (clk w' (clock t))
    | None => (exists t', find_timer (timers w') id = Some t' /\ idle t' /\ clock t' = clock t /\ notify t' = notify t /\ signo t' = signo t /\ has_function t' = has_function t) /\ forall n q, act w' (Expire id n q) = None
    end.
Proof.
  intros R0 F ID NT CS SI SV NZ E HO R d. pose proof (acts_below _ _ _ (boot_below c) R0) as B.
  assert (NZ' : ts_is_zero v = false).
  { destruct (ts_is_zero v) eqn:Q; [|reflexivity]. exfalso. apply NZ. destruct SV as ((S1 & _) & S2 & _). apply is_zero_ns in Q; [exact Q|lia..]. }
  destruct (settime_world w id t flags iv v old F B CS (sane_valid v SV)) as (w1' & o & t1 & E1 & F1 & S1 & C1 & N1 & A1); try assumption; [destruct SV; lia|intros _; exact SV|].
  rewrite E1 in E. injection E as <- <-.
  assert (B1 : below w1').
  { pose proof (act_below w (Settime id flags iv v old) w1' B) as X. apply X. cbn [act]. rewrite E1. reflexivity. }
  assert (CS1 : clocks_sane w1') by (intro x; rewrite C1; apply CS).
  change (ns (clk w (clock t)) + ns v) with (nanos (clk w (clock t)) + nanos v) in A1. change (ns v) with (nanos v) in A1. fold d in A1.
  destruct (run_armed l w1' w' id t t1 iv d [] F1 A1 NT SI B1 CS1 HO R I) as (CS' & t2 & new & F2 & S2 & A2 & O2). cbn [app] in A2, O2. change (ns iv) with (nanos iv) in *.
  exists new. split; [reflexivity|]. split; [rewrite S2, S1; reflexivity|]. split; [exact O2|].
  destruct (due d (nanos iv) (times id new)) as [x|].
  - split.
    + intro L. eapply armed_due; eassumption.
    + intros n q w2 H. cbn [act] in H. rewrite F2 in H. destruct (thread t2); try discriminate. destruct A2 as (A21 & _ & _ & _ & _ & D1 & _ & _ & _ & D5 & _). rewrite D5 in H.
      destruct n as [|n]; [|destruct n; discriminate]. cbn [nth_error] in H. destruct (before_eq (value t2) _) eqn:BE; [|discriminate]. apply before_iff in BE. rewrite D1, A21 in BE. exact BE.
  - destruct A2 as (A21 & A22 & A23 & A24 & A25 & A26). split.
    + exists t2. split; [exact F2|]. split; [exact A26|]. do 3 (split; [assumption|]). assumption.
    + intros n q. cbn [act]. rewrite F2. destruct A26 as (_ & -> & _). reflexivity.
Qed.

(* What remains. *)
Lemma left_ok p now : ts_valid p -> 0 <= tv_sec p -> sane now ->
  (ns p < ns now -> ts_subtract p now = None) /\
  (ns now <= ns p -> tv_nsec now <= tv_nsec p -> exists r, ts_subtract p now = Some r /\ ts_valid r /\ ns r = ns p - ns now) /\
  (ns now <= ns p -> exists r, ts_subtract p now = Some r /\ 0 <= tv_sec r /\ tv_sec r + (if 0 <? tv_nsec r then 1 else 0) = seconds_up (ns p - ns now)).
Proof.
  intros P P0 N. pose proof (sane_valid now N) as NV.
  assert (RG : - 2 ^ 63 < tv_sec p - tv_sec now < 2 ^ 63).
  { destruct P as (P1 & _), N as ((N1 & N2) & _). change (2 ^ 62) with 4611686018427387904 in *. change (2 ^ 63) with 9223372036854775808 in *. lia. }
  split; [|split].
  - intro L. apply ts_sub_none; try assumption. lia.
  - intros L M. apply ts_sub_ok; try assumption; lia.
  - intro L. unfold seconds_up. destruct (Z_le_gt_dec (tv_nsec now) (tv_nsec p)) as [M|M].
    + destruct (ts_sub_ok p now P NV M ltac:(lia)) as (X & _). destruct (X ltac:(lia)) as (r & E & (V1 & V2) & NS). exists r. split; [exact E|]. rewrite <- NS. unfold ns in *.
      destruct P as (_ & P2), N as (_ & N2). split; [lia|]. destruct (Z.ltb_spec 0 (tv_nsec r)).
      * apply (Z.div_unique_pos _ _ _ (tv_nsec r - 1)); lia.
      * apply (Z.div_unique_pos _ _ _ 999999999); lia.
    + destruct (ts_sub_borrow p now P NV ltac:(lia) RG) as (X & Y). destruct (Z_lt_ge_dec (tv_sec p - tv_sec now) 1) as [Q|Q].
      * exfalso. destruct P as (_ & P2), N as (_ & N2). unfold ns in L. lia.
      * rewrite (Y ltac:(lia)). eexists. split; [reflexivity|]. cbn [tv_sec tv_nsec]. split; [lia|]. destruct (Z.ltb_spec 0 (1000000000 + (tv_nsec now - tv_nsec p))); [|destruct P as (_ & P2), N as (_ & N2); lia].
        destruct P as (_ & P2), N as (_ & N2). unfold ns. apply (Z.div_unique_pos _ _ _ (tv_nsec p - tv_nsec now + 999999999)); lia.
Qed.

Lemma timer_shows c l0 w id t flags iv v old w1 res l w' : acts (boot c) l0 = Some w -> find_timer (timers w) id = Some t -> idle t -> notifies t -> clocks_sane w ->
  sane iv -> sane v -> nanos v <> 0 -> timer_settime w id flags iv v old = (w1, res) -> Forall (hands_off id) l -> acts w1 l = Some w' ->
  let d := if Z.land flags 1 =? 0 then nanos (clk w (clock t)) + nanos v else nanos v in
  exists new iv' v', sent w' = sent w ++ new /\ snd (timer_gettime w' id) = inl (iv', v') /\
    let now := nanos (clk w' (clock t)) in
    match due d (nanos iv) (times id new) with
    | Some x => iv' = iv /\ (x < now -> v' = ts_zero) /\ (now <= x -> tv_nsec (clk w' (clock t)) <= x mod 1000000000 -> nanos v' = x - now) /\
                (now <= x -> 0 <= tv_sec v' /\ tv_sec v' + (if 0 <? tv_nsec v' then 1 else 0) = seconds_up (x - now))
    | None => iv' = ts_zero /\ v' = ts_zero
    end.
Proof.
  intros R0 F ID NT CS SI SV NZ E HO R d. pose proof (acts_below _ _ _ (boot_below c) R0) as B.
  assert (NZ' : ts_is_zero v = false).
  { destruct (ts_is_zero v) eqn:Q; [|reflexivity]. exfalso. apply NZ. destruct SV as ((S1 & _) & S2 & _). apply is_zero_ns in Q; [exact Q|lia..]. }
  destruct (settime_world w id t flags iv v old F B CS (sane_valid v SV)) as (w1' & o & t1 & E1 & F1 & S1 & C1 & N1 & A1); try assumption; [destruct SV; lia|intros _; exact SV|].
  rewrite E1 in E. injection E as <- <-.
  assert (B1 : below w1').
  { pose proof (act_below w (Settime id flags iv v old) w1' B) as X. apply X. cbn [act]. rewrite E1. reflexivity. }
  assert (CS1 : clocks_sane w1') by (intro x; rewrite C1; apply CS).
  change (ns (clk w (clock t)) + ns v) with (nanos (clk w (clock t)) + nanos v) in A1. change (ns v) with (nanos v) in A1. fold d in A1.
  destruct (run_armed l w1' w' id t t1 iv d [] F1 A1 NT SI B1 CS1 HO R I) as (CS' & t2 & new & F2 & S2 & A2 & O2). cbn [app] in A2, O2. change (ns iv) with (nanos iv) in *.
  unfold timer_gettime. rewrite F2. pose proof A2 as (A21 & A22 & _ & _ & A25 & A26).
  assert (X : notify t2 =? SIGEV_NONE = false) by (rewrite A22; destruct NT as [->|(-> & _)]; reflexivity).
  unfold gettime. rewrite X. cbn [andb]. destruct (due d (nanos iv) (times id new)) as [x|] eqn:DU.
  - destruct A26 as (D1 & D2 & D3 & D4 & D5 & D6 & D7).
    assert (VZ : ts_is_zero (value t2) = false).
    { destruct (ts_is_zero (value t2)) eqn:Q; [|reflexivity]. apply is_zero_ns in Q; [lia|lia|destruct D3; lia]. }
    rewrite VZ. exists new. do 2 eexists. split; [rewrite S2, S1; reflexivity|]. split; [reflexivity|]. cbv zeta. rewrite DU. split; [exact A25|].
    destruct (left_ok (value t2) (clk w' (clock t2)) D3 D4 (CS' _)) as (L1 & L2 & L3). rewrite A21 in *. rewrite D1 in *. change (ns (clk w' (clock t))) with (nanos (clk w' (clock t))) in *.
    split; [intro L; rewrite (L1 L); reflexivity|]. split.
    + intros L M. destruct (L2 L) as (r & -> & _ & NS); [|exact NS]. replace (tv_nsec (value t2)) with (x mod 1000000000); [exact M|]. rewrite <- D1. unfold ns. destruct D3 as (_ & D3).
      rewrite Z.add_comm, Z.mod_add by lia. apply Z.mod_small. lia.
    + intro L. destruct (L3 L) as (r & -> & NP & NS). split; [exact NP|exact NS].
  - destruct A26 as (_ & _ & _ & VZ). rewrite VZ. change (ts_is_zero ts_zero) with true. exists new. do 2 eexists. split; [rewrite S2, S1; reflexivity|]. split; [reflexivity|]. cbv zeta. rewrite DU. split; reflexivity.
Qed.

(* A timer deleted is gone for good. *)
Lemma gone_act w a w' id : find_timer (timers w) id = None -> id < next_id w -> act w a = Some w' ->
  find_timer (timers w') id = None /\ id < next_id w' /\ exists new, sent w' = sent w ++ new /\ times id new = [].
Proof.
  intros F L H.
  assert (P : forall w1 i u, find_timer (timers w1) id = None -> find_timer (timers (put w1 i u)) id = None).
  { intros w1 i u G. cbn [put timers]. destruct (find_timer (set_timer (timers w1) i u) id) as [x|] eqn:E; [|reflexivity]. apply find_set in E. destruct E as (y & E). congruence. }
  assert (Q : forall w1, find_timer (timers w1) id = None /\ next_id w <= next_id w1 /\ sent w1 = sent w -> find_timer (timers w1) id = None /\ id < next_id w1 /\ exists new, sent w1 = sent w ++ new /\ times id new = []).
  { intros w1 (Q1 & Q2 & Q3). split; [exact Q1|]. split; [lia|]. exists []. split; [rewrite app_nil_r; exact Q3|reflexivity]. }
  destruct a as [c x|c n s f|i|i|i fl i1 v1 o|i|i n q]; cbn [act] in H.
  - destruct (before_eq _ _); [|discriminate]. injection H as <-. apply Q. split; [exact F|]. split; [cbn; lia|reflexivity].
  - injection H as <-. apply Q. unfold timer_create. destruct (_ || _); [split; [exact F|split; [cbn; lia|reflexivity]]|]. destruct (negb _); [split; [exact F|split; [cbn; lia|reflexivity]]|].
    cbn [fst timers next_id sent]. rewrite find_app, F. cbn [find_timer]. destruct (Z.eqb_spec (next_id w) id); [lia|]. split; [reflexivity|]. split; [lia|reflexivity].
  - injection H as <-. apply Q. unfold timer_delete. destruct (find_timer (timers w) i); (split; [|split; [cbn; lia|reflexivity]]); [|exact F]. cbn [fst timers].
    destruct (find_timer (remove_timer (timers w) i) id) as [x|] eqn:E; [apply find_remove in E; congruence|reflexivity].
  - injection H as <-. apply Q. unfold timer_gettime. destruct (find_timer (timers w) i) as [u|]; [|split; [exact F|split; [cbn; lia|reflexivity]]]. destruct (gettime _ u). cbn [fst]. split; [apply P, F|]. split; [cbn; lia|reflexivity].
  - injection H as <-. apply Q. unfold timer_settime. destruct o.
    + unfold timer_gettime. destruct (find_timer (timers w) i) as [u|]; [|split; [exact F|split; [cbn; lia|reflexivity]]]. destruct (gettime _ u) as (u', r).
      destruct (find_timer (timers (put w i u')) i) as [u2|]; [|split; [apply P, F|split; [cbn; lia|reflexivity]]]. destruct (settime _ _ _ _ u2). split; [apply P, P, F|split; [cbn; lia|reflexivity]].
    + destruct (find_timer (timers w) i) as [u|]; [|split; [exact F|split; [cbn; lia|reflexivity]]]. destruct (settime _ _ _ _ u). split; [apply P, F|split; [cbn; lia|reflexivity]].
  - destruct (find_timer (timers w) i) as [u|] eqn:U; [|discriminate]. destruct (thread u); try discriminate. injection H as <-. apply Q. split; [apply P, F|split; [cbn; lia|reflexivity]].
  - destruct (find_timer (timers w) i) as [u|] eqn:U; [|discriminate]. destruct (thread u); try discriminate. destruct (nth_error _ _); [|discriminate]. destruct (before_eq _ _); [|discriminate].
    destruct (expire _ _ _ _ u) as (u', b). injection H as <-. split; [apply P, F|]. split; [exact L|]. cbn [put sent]. exists (if b then [(i, clk w (clock u))] else []).
    split; [destruct b; [reflexivity|symmetry; apply app_nil_r]|]. destruct b; [|reflexivity]. unfold times. cbn [filter fst]. destruct (Z.eqb_spec i id); [congruence|reflexivity].
Qed.
Lemma gone_acts l : forall w w' id, find_timer (timers w) id = None -> id < next_id w -> acts w l = Some w' ->
  find_timer (timers w') id = None /\ exists new, sent w' = sent w ++ new /\ times id new = [].
Proof.
  induction l as [|a l IH]; intros w w' id F L H.
  - injection H as <-. split; [exact F|]. exists []. split; [symmetry; apply app_nil_r|reflexivity].
  - cbn [acts] in H. destruct (act w a) as [w1|] eqn:E; [|discriminate]. destruct (gone_act _ _ _ _ F L E) as (F1 & L1 & n1 & S1 & T1). destruct (IH _ _ _ F1 L1 H) as (F2 & n2 & S2 & T2).
    split; [exact F2|]. exists (n1 ++ n2). rewrite times_app, T1, T2, S2, S1, app_assoc. split; reflexivity.
Qed.
Lemma deleted c l0 w id t l w' : acts (boot c) l0 = Some w -> find_timer (timers w) id = Some t -> acts (fst (timer_delete w id)) l = Some w' ->
  snd (timer_delete w id) = None /\ find_timer (timers w') id = None /\ exists new, sent w' = sent w ++ new /\ times id new = [].
Proof.
  intros R0 F R. pose proof (acts_below _ _ _ (boot_below c) R0 _ _ F) as B. unfold timer_delete in *. rewrite F in *. cbn [fst snd] in *. split; [reflexivity|].
  apply (gone_acts l _ w' id) in R; [exact R| |exact B]. apply find_remove_same.
Qed.
Lemma unknown w id : find_timer (timers w) id = None -> forall flags iv v old,
  timer_delete w id = (w, Some 22) /\ timer_gettime w id = (w, inr 22) /\ timer_settime w id flags iv v old = (w, (None, Some 22)).
Proof.
  intros F flags iv v old. unfold timer_delete, timer_settime, timer_gettime. rewrite F. split; [reflexivity|]. split; [reflexivity|]. destruct old; [reflexivity|]. rewrite F. reflexivity.
Qed.
Lemma created c l0 w clock_id n s f w1 id : acts (boot c) l0 = Some w -> timer_create w clock_id n s f = (w1, inl id) ->
  find_timer (timers w) id = None /\ (exists t, find_timer (timers w1) id = Some t /\ idle t /\ clock t = clock_id /\ notify t = n /\ signo t = s /\ has_function t = f) /\
  forall i, i <> id -> find_timer (timers w1) i = find_timer (timers w) i.
Proof.
  intros R E. pose proof (acts_below _ _ _ (boot_below c) R) as B. unfold timer_create in E. destruct (_ || _); [discriminate|]. destruct (negb _); [discriminate|]. injection E as <- <-.
  assert (N : find_timer (timers w) (next_id w) = None) by (destruct (find_timer (timers w) (next_id w)) as [t|] eqn:F; [pose proof (B _ _ F); lia|reflexivity]).
  split; [exact N|]. split.
  - eexists. cbn [timers]. rewrite find_app, N. cbn [find_timer]. rewrite Z.eqb_refl. split; [reflexivity|]. unfold idle. cbn. repeat match goal with |- _ /\ _ => split end; reflexivity.
  - intros i NI. cbn [timers]. rewrite find_app. destruct (find_timer (timers w) i); [reflexivity|]. cbn [find_timer]. destruct (Z.eqb_spec (next_id w) i); [congruence|reflexivity].
Qed.

(* The clocks only advance. *)
Lemma act_clk w a w' c : act w a = Some w' -> nanos (clk w c) <= nanos (clk w' c).
Proof.
  intro H. destruct a as [x t|x n s f|i|i|i fl i1 v1 o|i|i n q]; cbn [act] in H.
  - destruct (before_eq (clk w x) t) eqn:E; [|discriminate]. injection H as <-. cbn [clk]. destruct (Z.eqb_spec c x); [subst; apply before_iff in E; exact E|lia].
  - injection H as <-. unfold timer_create. destruct (_ || _); [cbn; lia|]. destruct (negb _); cbn; lia.
  - injection H as <-. unfold timer_delete. destruct (find_timer _ _); cbn; lia.
  - injection H as <-. unfold timer_gettime. destruct (find_timer _ _) as [u|]; [destruct (gettime _ u)|]; cbn; lia.
  - injection H as <-. unfold timer_settime, timer_gettime. destruct o.
    + destruct (find_timer (timers w) i) as [u|]; [|cbn; lia]. destruct (gettime _ u). destruct (find_timer _ i) as [u2|]; [destruct (settime _ _ _ _ u2)|]; cbn; lia.
    + destruct (find_timer _ i) as [u|]; [destruct (settime _ _ _ _ u)|]; cbn; lia.
  - destruct (find_timer _ _) as [u|]; [|discriminate]. destruct (thread u); try discriminate. injection H as <-. cbn. lia.
  - destruct (find_timer _ _) as [u|]; [|discriminate]. destruct (thread u); try discriminate. destruct (nth_error _ _); [|discriminate]. destruct (before_eq _ _); [|discriminate].
    destruct (expire _ _ _ _ u). injection H as <-. cbn. lia.
Qed.
Lemma acts_clk l : forall w w' c, acts w l = Some w' -> nanos (clk w c) <= nanos (clk w' c).
Proof.
  induction l as [|a l IH]; intros w w' c H; [injection H as <-; lia|]. cbn [acts] in H. destruct (act w a) as [w1|] eqn:E; [|discriminate]. pose proof (act_clk _ _ _ c E). pose proof (IH _ _ c H). lia.
Qed.

Lemma acts_app l : forall k w, acts w (l ++ k) = match acts w l with Some w => acts w k | None => None end.
Proof. induction l as [|a l IH]; intros k w; [reflexivity|]. cbn [app acts]. destruct (act w a); [apply IH|reflexivity]. Qed.
Lemma put_same w id t : find_timer (timers w) id = Some t -> put w id t = w.
Proof. intro F. destruct w as [ts n c s]. unfold put. cbn [timers next_id clk sent] in *. rewrite (set_same _ _ _ F). reflexivity. Qed.

Lemma alarm_result w id m : snd (alarm w (Some id) m) =
  match snd (timer_gettime w id) with inl (_, v) => if 0 <? tv_nsec v then (tv_sec v mod 2 ^ 32 + 1) mod 2 ^ 32 else tv_sec v mod 2 ^ 32 | inr _ => 0 end.
Proof.
  unfold alarm, alarm_timespec. destruct (timer_gettime w id) as (w1, [(i, v)|e]); cbn [snd]; destruct (_ && _); reflexivity.
Qed.

Lemma alarm_armed w a n c l0 : acts (boot c) l0 = Some w -> ready w a -> 0 < n -> clocks_sane w ->
  exists w0 l1 id t, acts (boot c) l1 = Some w0 /\ clk w0 = clk w /\ sent w0 = sent w /\ find_timer (timers w0) id = Some t /\ idle t /\ clock t = 1 /\ notify t = 0 /\ signo t = 14 /\
    alarm w a n = (fst (timer_settime w0 id 0 ts_zero {| tv_sec := n; tv_nsec := 0 |} false), Some id, 0).
Proof.
  intros R RD N CS. destruct a as [id|].
  - destruct RD as (t & F & ID & C & NT & SG). exists w, l0, id, t. do 3 (split; [assumption || reflexivity|]). do 5 (split; [assumption|]).
    unfold alarm, alarm_timespec, timer_gettime. rewrite F. unfold gettime. rewrite NT. change (0 =? SIGEV_NONE) with false. cbn [andb]. destruct ID as (_ & _ & _ & ->). change (ts_is_zero ts_zero) with true. cbn iota beta.
    rewrite (put_same _ _ _ F). cbn [tv_sec tv_nsec ts_zero Z.ltb Z.compare]. destruct (Z.eqb_spec n 0); [lia|]. reflexivity.
  - destruct (timer_create w CLOCK_REALTIME SIGEV_SIGNAL SIGALRM false) as (w0, r) eqn:E. assert (X : exists id, r = inl id) by (unfold timer_create in E; cbn in E; injection E as _ <-; eexists; reflexivity).
    destruct X as (id & ->). destruct (created c l0 w _ _ _ _ w0 id R E) as (_ & (t & F & ID & C & NT & SG & _) & _).
    exists w0, (l0 ++ [Create CLOCK_REALTIME SIGEV_SIGNAL SIGALRM false]), id, t. split; [rewrite acts_app, R; cbn [acts act]; rewrite E; reflexivity|].
    split; [unfold timer_create in E; cbn in E; injection E as <- _; reflexivity|]. split; [unfold timer_create in E; cbn in E; injection E as <- _; reflexivity|].
    do 5 (split; [assumption|]). unfold alarm, alarm_timespec. cbn [tv_sec tv_nsec]. destruct (Z.eqb_spec n 0); [lia|]. cbn [andb]. rewrite E. reflexivity.
Qed.

Theorem alarm_ok c l0 w a n : acts (boot c) l0 = Some w -> clocks_sane w -> ready w a -> 0 < n < 2 ^ 32 ->
  exists w1 id t, alarm w a n = (w1, Some id, 0) /\ find_timer (timers w1) id = Some t /\ clock t = 1 /\ notify t = 0 /\ signo t = 14 /\
  forall l w', Forall (hands_off id) l -> acts w1 l = Some w' ->
  let d := nanos (clk w 1) + n * 1000000000 in
  let now := nanos (clk w' 1) in
  exists new, sent w' = sent w ++ new /\ on_time d 0 (times id new) /\
    match due d 0 (times id new) with
    | Some x => (x <= now -> exists k w2, acts w' k = Some w2 /\ sent w2 = sent w' ++ [(id, clk w' 1)]) /\
                (forall k q w2, act w' (Expire id k q) = Some w2 -> x <= now) /\
                forall m, snd (alarm w' (Some id) m) = if now <=? x then seconds_up (x - now) else 0
    | None => ready w' (Some id) /\ (forall k q, act w' (Expire id k q) = None) /\ forall m, snd (alarm w' (Some id) m) = 0
    end.
Proof.
  intros R CS RD N. destruct (alarm_armed w a n c l0 R RD ltac:(lia) CS) as (w0 & l1 & id & t & R0 & C0 & S0 & F & ID & CL & NT & SG & E).
  assert (CS0 : clocks_sane w0) by (intro x; rewrite C0; apply CS). assert (NTF : notifies t) by (left; exact NT).
  set (v := {| tv_sec := n; tv_nsec := 0 |}) in *. assert (SV : sane v) by (unfold sane, v; cbn [tv_sec tv_nsec]; change (2 ^ 32) with 4294967296 in *; change (2 ^ 62) with 4611686018427387904; lia).
  assert (SZ : sane ts_zero) by (unfold sane; cbn; lia). assert (VN : nanos v = n * 1000000000) by (unfold nanos, v; cbn [tv_sec tv_nsec]; lia).
  pose proof (acts_below _ _ _ (boot_below c) R0) as B0.
  destruct (settime_world w0 id t 0 ts_zero v false F B0 CS0 (sane_valid v SV)) as (w1 & o & t1 & E1 & F1 & S1 & C1 & N1 & A1); try assumption.
  { unfold v. cbn. lia. } { unfold v, ts_is_zero. cbn [tv_sec tv_nsec]. destruct (Z.eqb_spec n 0); [lia|]. reflexivity. } { intros _. exact SV. }
  exists w1, id, t1. split; [rewrite E, E1; reflexivity|]. split; [exact F1|]. destruct A1 as (A11 & A12 & A13 & _). split; [congruence|]. split; [congruence|]. split; [congruence|].
  intros l w' HO RW d now.
  assert (NZV : nanos v <> 0) by lia.
  destruct (timer_runs c l1 w0 id t 0 ts_zero v false w1 (o, None) l w' R0 F ID NTF CS0 SZ SV NZV E1 HO RW) as (new & _ & SN & OT & DU).
  destruct (timer_shows c l1 w0 id t 0 ts_zero v false w1 (o, None) l w' R0 F ID NTF CS0 SZ SV NZV E1 HO RW) as (new' & iv' & v' & SN' & GT & SH).
  assert (new' = new) by (rewrite SN in SN'; apply app_inv_head in SN'; congruence). subst new'.
  change (Z.land 0 1 =? 0) with true in *. cbn iota in *. change (nanos ts_zero) with 0 in *. rewrite CL, C0, VN in *. fold d in OT, DU, SH. fold now in DU, SH. cbv zeta in SH.
  assert (MT : nanos (clk w 1) <= now) by (unfold now; rewrite <- C1; apply (acts_clk l); exact RW).
  exists new. split; [rewrite SN, S0; reflexivity|]. split; [exact OT|]. destruct (times id new) as [|x ts] eqn:T; cbn [due] in *.
  - destruct DU as (D1 & D2). split; [exact D1|]. split; [exact D2|]. intro m. rewrite alarm_result, GT. destruct SH as (_ & SH1 & _ & SH2). destruct (Z.leb_spec now d) as [L|L].
    + destruct (SH2 L) as (P & Q). rewrite <- Q. assert (U : seconds_up (d - now) <= n).
      { unfold seconds_up. apply Z.lt_succ_r. apply Z.div_lt_upper_bound; [lia|]. unfold d. lia. }
      rewrite <- Q in U. destruct (0 <? tv_nsec v'); [rewrite (Z.mod_small (tv_sec v')) by lia; rewrite Z.mod_small by lia; reflexivity|rewrite Z.mod_small by lia; lia].
    + rewrite (SH1 L). reflexivity.
  - cbn [Z.eqb] in *. destruct DU as ((t' & F' & ID' & C' & N' & G' & _) & D2). split; [exists t'; split; [exact F'|]; split; [exact ID'|]; split; [congruence|]; split; congruence|]. split; [exact D2|].
    intro m. rewrite alarm_result, GT. destruct SH as (_ & ->). reflexivity.
Qed.
