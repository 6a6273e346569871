From Verif Require Import Base Sort_model Sort_proofs String_model Word_mem Epoll_model Epoll_spec.

Lemma of_le_bytes k : forall x, bytes_of k x = le_bytes k x.
Proof. induction k as [|k IH]; intro x; cbn; [reflexivity|]. rewrite IH. reflexivity. Qed.
Definition u64 (x : Z) : Prop := 0 <= x < 2 ^ 64.
Definition fine (e : event) : Prop := u64 (id e) /\ u64 (flags e) /\ u64 (data e).
Definition shown (e : event) : Z * Z := (conditions (Z.testbit (flags e) 0) (Z.testbit (flags e) 1), data e).
Definition of_descriptor (tid : Z) (e : event) : bool := negb (id e =? tid).

Lemma land_bit f i : 0 <= i -> Z.land f (2 ^ i) = if Z.testbit f i then 2 ^ i else 0.
Proof.
  intro I0. apply Z.bits_inj'. intros n N. rewrite Z.land_spec, Z.pow2_bits_eqb by exact I0.
  destruct (Z.eqb_spec i n) as [<-|D].
  - destruct (Z.testbit f i); [rewrite Z.pow2_bits_eqb, Z.eqb_refl by exact I0|rewrite Z.bits_0]; reflexivity.
  - rewrite andb_false_r. destruct (Z.testbit f i); [rewrite Z.pow2_bits_eqb by exact I0|rewrite Z.bits_0; reflexivity].
    destruct (Z.eqb_spec i n); [contradiction|reflexivity].
Qed.
Lemma land_1 f : Z.land f 1 = if Z.testbit f 0 then 1 else 0.
Proof. exact (land_bit f 0 ltac:(lia)). Qed.
Lemma to_epoll f : event_flags_to_epoll f = conditions (Z.testbit f 0) (Z.testbit f 1).
Proof.
  unfold event_flags_to_epoll, EVENT_READ, EVENT_WRITE. rewrite land_1, (land_bit f 1 ltac:(lia) : Z.land f 2 = _).
  destruct (Z.testbit f 0), (Z.testbit f 1); reflexivity.
Qed.
Lemma to_event ev : epoll_to_event_flags ev = (if Z.testbit ev 0 then 1 else 0) + (if Z.testbit ev 2 then 2 else 0).
Proof.
  unfold epoll_to_event_flags, EPOLLIN, EPOLLOUT. rewrite land_1, (land_bit ev 2 ltac:(lia) : Z.land ev 4 = _).
  destruct (Z.testbit ev 0), (Z.testbit ev 2); reflexivity.
Qed.

Lemma event_len e : len (event_bytes e) = 24.
Proof. unfold event_bytes. rewrite !len_app, !le_bytes_len. reflexivity. Qed.
Lemma events_len l : len (concat (map event_bytes l)) = 24 * len l.
Proof. induction l as [|e l IH]; [reflexivity|]. cbn [map concat]. rewrite len_app, IH, event_len, len_cons. lia. Qed.

Lemma store_ok m a ev d : mapped m a 24 -> exists m', store_epoll m a ev d = Ok m' /\ entry_at m' a (ev, d) /\
  (forall x, ~ a <= x < a + 24 -> m' x = m x) /\ forall b n, mapped m b n -> mapped m' b n.
Proof.
  intro M. unfold store_epoll.
  destruct (st_bytes_ok (le_bytes 4 ev) m a) as (m1 & E1 & S1); [rewrite le_bytes_len; eapply mapped_sub; [exact M|lia|lia]|].
  rewrite E1. cbn [bind].
  assert (L : len (le_bytes 8 d ++ le_bytes 8 0) = 16) by (rewrite len_app, !le_bytes_len; reflexivity).
  destruct (st_bytes_ok (le_bytes 8 d ++ le_bytes 8 0) m1 (a + 8)) as (m2 & E2 & S2).
  { rewrite L. eapply stored_mapped; [exact S1|]. eapply mapped_sub; [exact M|lia|lia]. }
  exists m2. split; [exact E2|]. split; [|split].
  - split; cbn [fst snd]; rewrite of_le_bytes.
    + eapply bytes_at_ext; [|exact (proj1 S1)]. rewrite le_bytes_len. intros x X. apply (proj2 S2). rewrite L. lia.
    + destruct S2 as (B & _). apply bytes_at_app in B. exact (proj1 B).
  - intros x X. rewrite (proj2 S2) by (rewrite L; lia). apply (proj2 S1). rewrite le_bytes_len. lia.
  - intros b n MM. eapply stored_mapped; [exact S2|]. eapply stored_mapped; [exact S1|exact MM].
Qed.

Lemma translate_ok tid l : forall m p target count, Forall fine l -> bytes_at m p (concat (map event_bytes l)) -> target <= p ->
  mapped m target (p + 24 * len l - target) ->
  exists m', translate tid (length l) m p target count = Ok (m', count + len (filter (of_descriptor tid) l)) /\
    entries_at m' target (map shown (filter (of_descriptor tid) l)) /\
    forall x, ~ target <= x < p + 24 * len l -> m' x = m x.
Proof.
  induction l as [|e l IH]; intros m p target count F B T M.
  - exists m. cbn. rewrite Z.add_0_r. auto.
  - inversion F as [|? ? (I1 & I2 & I3) FL]; subst. rewrite len_cons in M. pose proof (len_nonneg l) as LN.
    cbn [map concat] in B. apply bytes_at_app in B. destruct B as (BE & BL). rewrite event_len in BL.
    unfold event_bytes in BE. apply bytes_at_app in BE. destruct BE as (B1 & BE). apply bytes_at_app in BE. destruct BE as (B2 & B3).
    rewrite le_bytes_len in B2, B3. rewrite le_bytes_len in B3. change (Z.of_nat 8) with 8 in *. replace (p + 8 + 8) with (p + 16) in B3 by lia.
    cbn [length translate].
    rewrite (ld_le_bytes 8 m p (id e) B1 I1), (ld_le_bytes 8 m (p + 8) (flags e) B2 I2), (ld_le_bytes 8 m (p + 16) (data e) B3 I3).
    cbn [bind filter]. change (of_descriptor tid e) with (negb (id e =? tid)). destruct (Z.eqb_spec (id e) tid) as [ET|NT]; cbn [negb].
    + destruct (IH m (p + 24) target count FL BL) as (m' & E & R & C); [lia|replace (p + 24 + 24 * len l - target) with (p + 24 * (len l + 1) - target) by lia; exact M|].
      exists m'. split; [exact E|]. split; [exact R|]. intros x X. apply C. rewrite len_cons in X. lia.
    + destruct (store_ok m target (event_flags_to_epoll (flags e)) (data e)) as (m1 & E1 & EN & C1 & M1); [eapply mapped_sub; [exact M|lia|lia]|].
      rewrite E1. cbn [bind].
      destruct (IH m1 (p + 24) (target + 24) (count + 1) FL) as (m' & E & R & C).
      * eapply bytes_at_ext; [|exact BL]. intros x X. apply C1. lia.
      * lia.
      * apply M1. eapply mapped_sub; [exact M|lia|lia].
      * exists m'. rewrite E. split; [f_equal; f_equal; rewrite len_cons; lia|]. split.
        -- cbn [map entries_at]. split; [|exact R]. unfold shown at 1. rewrite <- to_epoll.
           destruct EN as (N1 & N2). split; [eapply bytes_at_ext; [|exact N1]|eapply bytes_at_ext; [|exact N2]]; cbn [fst snd]; rewrite of_le_bytes, le_bytes_len; intros x X; apply C; cbn in X; lia.
        -- intros x X. rewrite len_cons in X. rewrite C by lia. apply C1. lia.
Qed.

Lemma wait_ok tid write read m events maxevents timeout l : read maxevents = inl l -> 0 < maxevents -> -1 <= timeout -> (timeout <> -1 -> write (Ev tid 1 timeout) = None) ->
  Forall fine l -> len l <= maxevents -> mapped m events (24 * maxevents) ->
  exists m', epoll_pwait tid write read m events maxevents timeout = Ok (m', inl (len (filter (of_descriptor tid) l))) /\
    entries_at m' events (map shown (filter (of_descriptor tid) l)) /\
    forall x, ~ events <= x < events + 24 * maxevents -> m' x = m x.
Proof.
  intros RD MX TO W F L M. unfold epoll_pwait. destruct (Z.leb_spec maxevents 0); [lia|]. cbv zeta.
  assert (TT : (if timeout =? -1 then None else match register_timeout tid timeout with inl e => write e | inr e => Some e end) = None).
  { destruct (Z.eqb_spec timeout (-1)); [reflexivity|]. unfold register_timeout. destruct (Z.ltb_spec timeout 0); [lia|]. apply W. assumption. }
  rewrite TT, RD. destruct (st_bytes_ok (concat (map event_bytes l)) m events) as (m1 & E1 & S1); [rewrite events_len; eapply mapped_sub; [exact M|lia|lia]|].
  rewrite E1. cbn [bind].
  destruct (translate_ok tid l m1 events events 0 F (proj1 S1) ltac:(lia)) as (m' & E & R & C).
  { replace (events + 24 * len l - events) with (24 * len l) by lia. eapply stored_mapped; [exact S1|]. eapply mapped_sub; [exact M|lia|lia]. }
  exists m'. rewrite E. cbn [bind]. split; [reflexivity|]. split; [exact R|]. intros x X. rewrite C by lia. apply (proj2 S1). rewrite events_len. lia.
Qed.

(* time *)
Lemma delivery_in_time tid k n l t timeout : timeout <> -1 -> 0 <= timeout -> delivers tid (registered k timeout) n l t -> t <= now k + timeout.
Proof.
  intros N P (A & _ & _ & _ & E). unfold registered in *. destruct (Z.eqb_spec timeout (-1)); [contradiction|]. cbn in A, E.
  destruct (Z.le_gt_cases t (now k + timeout)) as [|G]; [assumption|].
  destruct (E (now k + timeout) ltac:(lia)) as (_ & D). specialize (D (now k + timeout)). assert (now k + timeout < now k + timeout); [|lia].
  apply D. apply in_or_app. right. left. reflexivity.
Qed.
Lemma none_in_time tid k n l t timeout : deadlines k = [] -> (forall s e, In e (ready k s) -> id e <> tid) ->
  delivers tid (registered k timeout) n l t -> filter (of_descriptor tid) l = [] -> timeout <> -1 /\ now k + timeout <= t.
Proof.
  intros D R (A & NE & _ & I1 & _) FI. destruct l as [|e l]; [contradiction|].
  assert (ET : id e = tid).
  { cbn [filter] in FI. change (of_descriptor tid e) with (negb (id e =? tid)) in FI. destruct (Z.eqb_spec (id e) tid); [assumption|discriminate FI]. }
  unfold registered in I1. destruct (Z.eqb_spec timeout (-1)) as [->|N].
  - destruct (I1 e (or_introl eq_refl)) as [X|(_ & d & X & _)]; [apply R in X; contradiction|]. rewrite D in X. destruct X.
  - split; [exact N|]. cbn in I1. destruct (I1 e (or_introl eq_refl)) as [X|(_ & d & X & Y)]; [apply R in X; contradiction|].
    rewrite D in X. destruct X as [<-|[]]. exact Y.
Qed.

(* the interest list *)
Definition small (c : call) : Prop :=
  match c with
  | Add fd ev d | Modify fd ev d => 0 <= fd < 2 ^ 31 /\ (ev = 1 \/ ev = 4 \/ ev = 5) /\ u64 d
  | Delete fd => 0 <= fd < 2 ^ 31
  end.
(* the call as made: operation, descriptor, and the event in memory *)
Definition made (m : mem) (a : Z) (c : call) : res (event + Z) :=
  match c with Add fd _ _ => ctl_record m 1 fd a | Modify fd _ _ => ctl_record m 3 fd a | Delete fd => ctl_record m 2 fd a end.
Definition holds (m : mem) (a : Z) (c : call) : Prop :=
  match c with Add _ ev d | Modify _ ev d => entry_at m a (ev, d) | Delete _ => True end.
Lemma record_ok m a c : small c -> holds m a c -> exists e, made m a c = Ok (inl e) /\
  match c with
  | Add fd ev d | Modify fd ev d => e = Ev fd (epoll_to_event_flags ev) d
  | Delete fd => e = Ev fd 0 0
  end.
Proof.
  assert (X : forall fd, 0 <= fd < 2 ^ 31 -> fd mod 2 ^ 64 = fd) by (intros; apply Z.mod_small; lia).
  destruct c as [fd ev d|fd ev d|fd]; cbn [small holds made]; intros S H.
  1,2: destruct S as (S1 & S2 & S3), H as (H1 & H2); cbn [fst snd] in H1, H2; rewrite of_le_bytes in H1, H2; unfold ctl_record; cbn [Z.eqb orb];
    cbv [EPOLL_CTL_ADD EPOLL_CTL_MOD]; cbn [Z.eqb Pos.eqb orb];
    rewrite (ld_le_bytes 4 m a ev H1) by (change (256 ^ Z.of_nat 4) with (2 ^ 32); lia); rewrite (ld_le_bytes 8 m (a + 8) d H2 S3);
    cbn [bind]; rewrite X by exact S1; eexists; split; reflexivity.
  unfold ctl_record, EPOLL_CTL_ADD, EPOLL_CTL_MOD, EPOLL_CTL_DEL. cbn [Z.eqb Pos.eqb orb]. rewrite X by exact S. eexists; split; reflexivity.
Qed.
(* all the calls, each with its memory and address *)
Inductive records : list (mem * Z * call) -> list event -> Prop :=
| records_0 : records [] []
| records_S m a c e l k : made m a c = Ok (inl e) -> records l k -> records ((m, a, c) :: l) (e :: k).
Definition same (t : interest) (s : Z -> option (Z * Z)) : Prop :=
  forall fd, match t fd with
             | None => s fd = None
             | Some (ev, d) => exists f, s fd = Some (f, d) /\ forall r w, event_flags_to_epoll (Z.land f (happened r w)) = Z.land ev (conditions r w)
             end.
Lemma flags_ok ev : ev = 1 \/ ev = 4 \/ ev = 5 -> epoll_to_event_flags ev <> 0 /\
  forall r w, event_flags_to_epoll (Z.land (epoll_to_event_flags ev) (happened r w)) = Z.land ev (conditions r w).
Proof. intros [->|[->| ->]]; (split; [discriminate|]); intros [|] [|]; reflexivity. Qed.
Lemma interest_ok l : forall t s t', accepted t (map snd l) t' -> same t s -> Forall (fun x => small (snd x) /\ holds (fst (fst x)) (snd (fst x)) (snd x)) l ->
  exists k, records l k /\ same t' (fold_left register k s).
Proof.
  induction l as [|((m & a) & c) l IH]; intros t s t' A SM F; cbn [map snd] in A.
  - inversion A; subst. exists []. split; [constructor|exact SM].
  - inversion A as [|? ? t1 ? ? AS AL]; subst. inversion F as [|? ? (SC & HC) FL]; subst. cbn [fst snd] in SC, HC.
    destruct (record_ok m a c SC HC) as (e & ME & EE).
    destruct (IH t1 (register s e) t' AL) as (k & R & SK); [|exact FL|exists (e :: k); split; [constructor; assumption|exact SK]].
    destruct c as [fd ev d|fd ev d|fd]; subst e; cbn [asked] in AS; destruct (t fd) eqn:TF; try discriminate AS; injection AS as <-; intro x; unfold set, register; cbn [id flags data];
      pose proof (SM x) as SX.
    3: { destruct (x =? fd); [reflexivity|]. exact SX. }
    all: destruct (x =? fd); [|exact SX]; destruct SC as (_ & S2 & _); destruct (flags_ok ev S2) as (NZ & FF);
      destruct (Z.eqb_spec (epoll_to_event_flags ev) 0); [contradiction|]; eexists; split; [reflexivity|exact FF].
Qed.
