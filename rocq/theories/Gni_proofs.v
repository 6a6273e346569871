From Coq Require Import ZArith List Bool Lia.
From Verif Require Import Base Word_mem Sort_model Sort_proofs Shadow_model Inet_model Dns_model Dns_proofs Gai_model Gai_spec.
Import ListNotations.
Open Scope Z_scope.

Definition kept (m m' : mem) : Prop := forall x, (exists b, m x = Some b) -> exists b, m' x = Some b.
Lemma kept_mapped m m' a n : kept m m' -> mapped m a n -> mapped m' a n.
Proof. intros K M x X. apply K, M, X. Qed.

Lemma put_text_ok m p size l : mapped m p size ->
  (len l < size -> exists m', put_text m p size l = Ok (m', 0) /\ stored m m' p (l ++ [0])) /\
  (size <= len l -> put_text m p size l = Ok (m, EAI_MEMORY)).
Proof.
  intros M. unfold put_text. split; intros H.
  - destruct (Z.leb_spec size (len l)); [lia|]. destruct (st_bytes_ok l m p) as (m1 & E & S); [eapply mapped_sub; [exact M|lia|lia]|].
    rewrite E. cbn [bind]. pose proof (len_nonneg l). rewrite st_ok by (eapply (stored_mapped _ _ _ _ _ _ S M); lia). cbn [bind].
    eexists. split; [reflexivity|]. eapply stored_app; [exact S|]. apply stored_cons. apply stored_nil.
  - destruct (Z.leb_spec size (len l)); [reflexivity|lia].
Qed.
Definition within (m m' : mem) (p size : Z) : Prop := (forall a, ~ p <= a < p + size -> m' a = m a) /\ kept m m'.
Lemma within_refl m p size : within m m p size.
Proof. split; [reflexivity|intros x X; exact X]. Qed.
Lemma stored_within m m' p l size : mapped m p size -> len l <= size -> stored m m' p l -> within m m' p size.
Proof.
  intros M L S. split; [intros a A; apply S; lia|]. intros x [b X].
  destruct (stored_mapped _ _ _ _ x 1 S ltac:(intros y Y; replace y with x by lia; eauto) x ltac:(lia)) as [c C]. eauto.
Qed.
Lemma put_text_any m p size l : mapped m p size -> exists m' v, put_text m p size l = Ok (m', v) /\ within m m' p size.
Proof.
  intros M. destruct (put_text_ok m p size l M) as [A B]. destruct (Z_lt_dec (len l) size) as [L|L].
  - destruct (A L) as (m' & E & S). exists m', 0. split; [exact E|]. eapply stored_within; [exact M| |exact S]. rewrite len_app. change (len [0]) with 1. lia.
  - exists m, EAI_MEMORY. split; [apply B; lia|apply within_refl].
Qed.
Lemma ld_mapped m a n x : mapped m a n -> a <= x < a + n -> exists b, ld m x = Ok b.
Proof. intros M X. destruct (M x X) as [b B]. exists b. apply ld_ok, B. Qed.
Lemma put_quad_any m addr p size : mapped m addr 16 -> mapped m p size -> exists m' v, put_quad m addr p size = Ok (m', v) /\ within m m' p size.
Proof.
  intros MA M. unfold put_quad.
  destruct (ld_mapped m addr 16 (addr + 4) MA ltac:(lia)) as [a ->]. destruct (ld_mapped m addr 16 (addr + 5) MA ltac:(lia)) as [b ->].
  destruct (ld_mapped m addr 16 (addr + 6) MA ltac:(lia)) as [c ->]. destruct (ld_mapped m addr 16 (addr + 7) MA ltac:(lia)) as [d ->].
  cbn [bind]. apply put_text_any, M.
Qed.
Lemma revdns_fault d : parse_revdns d <> Fault.
Proof.
  unfold parse_revdns. destruct d as [|c r]; [discriminate|]. destruct (c =? 0); [discriminate|].
  assert (H : forall f e out cur idx, rev_loop f e out cur idx <> Fault); [|apply H].
  induction f as [|f IH]; intros e out cur idx; [discriminate|].
  cbn [rev_loop]. destruct (_ <? _)%nat; [|discriminate]. unfold index. destruct (nth_error e idx); [|discriminate]. cbn [bind].
  destruct (_ <? _); [discriminate|]. destruct (_ <? _)%nat; [apply IH|discriminate].
Qed.
Lemma names_fault l : all_names l <> Fault.
Proof.
  induction l as [|a l IH]; [discriminate|]. cbn [all_names]. destruct (_ && _); [|exact IH].
  destruct (parse_revdns (da_data a)) eqn:E; cbn [bind]; try discriminate; [|exfalso; exact (revdns_fault _ E)].
  destruct (all_names l); cbn [bind]; try discriminate. congruence.
Qed.
Lemma addr_fault fuel tid ask a : lookup_addr fuel tid ask a <> Fault.
Proof.
  unfold lookup_addr. pose proof (parse_calm fuel (ask (addr_query tid a))) as [_ P]. destruct (parse _ _) as [[[p i]|]| | |]; cbn [bind]; try discriminate; [|congruence].
  pose proof (names_fault (d_answers p)). destruct (all_names _); cbn [bind]; congruence.
Qed.

Lemma gni_bounds fuel tid ask m addr addrlen host hostlen serv servlen flags :
  (addr <> 0 -> mapped m addr 16) -> (host <> 0 -> mapped m host hostlen) -> (serv <> 0 -> mapped m serv servlen) ->
  match getnameinfo fuel tid ask m addr addrlen host hostlen serv servlen flags with
  | Ok (m', v) => forall a, ~ (host <> 0 /\ host <= a < host + hostlen) -> ~ (serv <> 0 /\ serv <= a < serv + servlen) -> m' a = m a
  | Fault => False
  | Panic | OutOfFuel => True
  end.
Proof.
  intros MA MH MS. unfold getnameinfo. destruct (Z.eqb_spec addr 0) as [->|NA]; [cbn [orb]; auto|]. cbn [orb].
  destruct (negb (addrlen =? 16)); [auto|]. specialize (MA NA).
  set (first := if negb (serv =? 0) && (0 <? servlen) then _ else _).
  assert (F : exists m1 v, first = Ok (m1, v) /\ (forall a, ~ (serv <> 0 /\ serv <= a < serv + servlen) -> m1 a = m a) /\ kept m m1).
  { unfold first. destruct (Z.eqb_spec serv 0) as [->|NS]; cbn [negb andb]; [exists m, 0; split; [reflexivity|]; split; [reflexivity|intros x X; exact X]|].
    specialize (MS NS). destruct (Z.ltb_spec 0 servlen) as [LS|LS]; [|exists m, 0; split; [reflexivity|]; split; [reflexivity|intros x X; exact X]].
    destruct (has flags NI_NUMERICSERV).
    - destruct (ld_mapped m addr 16 (addr + 2) MA ltac:(lia)) as [x ->]. destruct (ld_mapped m addr 16 (addr + 3) MA ltac:(lia)) as [y ->]. cbn [bind].
      destruct (put_text_any m serv servlen (dec (256 * x + y)) MS) as (m1 & v & E & W1 & W2). exists m1, v. split; [exact E|]. split; [|exact W2].
      intros a A. apply W1. tauto.
    - rewrite st_ok by (apply MS; lia). cbn [bind]. eexists _, _. split; [reflexivity|].
      destruct (stored_within m (upd m serv 0) serv [0] servlen MS) as [W1 W2]; [change (len [0]) with 1; lia|apply stored_cons, stored_nil|].
      split; [|exact W2]. intros a A. apply W1. tauto. }
  destruct F as (m1 & v & -> & W1 & W2). cbn [bind]. destruct (negb (v =? 0)); [intros a _ A; apply W1, A|].
  destruct (Z.eqb_spec host 0) as [->|NH]; cbn [negb andb]; [intros a _ A; apply W1, A|].
  destruct (0 <? hostlen); [|intros a _ A; apply W1, A].
  pose proof (kept_mapped _ _ _ _ W2 MA) as MA1. pose proof (kept_mapped _ _ _ _ W2 (MH NH)) as MH1.
  assert (Q : forall r : res (mem * Z), (exists m2 v2, r = Ok (m2, v2) /\ within m1 m2 host hostlen) ->
     match r with Ok (m', v0) => forall a, ~ (host <> 0 /\ host <= a < host + hostlen) -> ~ (serv <> 0 /\ serv <= a < serv + servlen) -> m' a = m a
     | Fault => False | Panic | OutOfFuel => True end).
  { intros r (m2 & v2 & -> & U1 & _). intros a H S. rewrite U1 by tauto. apply W1, S. }
  destruct (has flags NI_NUMERICHOST); [apply Q, put_quad_any; assumption|].
  destruct (ld_mapped m1 addr 16 (addr + 4) MA1 ltac:(lia)) as [a ->]. destruct (ld_mapped m1 addr 16 (addr + 5) MA1 ltac:(lia)) as [b ->].
  destruct (ld_mapped m1 addr 16 (addr + 6) MA1 ltac:(lia)) as [c ->]. destruct (ld_mapped m1 addr 16 (addr + 7) MA1 ltac:(lia)) as [d ->]. cbn [bind].
  pose proof (addr_fault fuel tid ask [a; b; c; d]) as NF. destruct (lookup_addr _ _ _ _) as [[[|n ns]|e]| | |]; cbn [bind]; auto.
  - destruct (has flags NI_NAMEREQD); intros x _ X; apply W1, X.
  - apply Q, put_text_any, MH1.
  - destruct (has flags NI_NAMEREQD); [intros x _ X; apply W1, X|apply Q, put_quad_any; assumption].
Qed.

(* ---- what is stored ---- *)
Lemma sockaddr_bytes m addr port a b c d : bytes_at m addr (inet_sockaddr port [a; b; c; d]) ->
  m (addr + 2) = Some (port / 256) /\ m (addr + 3) = Some (port mod 256) /\
  m (addr + 4) = Some a /\ m (addr + 5) = Some b /\ m (addr + 6) = Some c /\ m (addr + 7) = Some d.
Proof.
  unfold inet_sockaddr. cbn [app repeat bytes_at]. intros (_ & _ & H2 & H3 & H4 & H5 & H6 & H7 & _).
  replace (addr + 2) with (addr + 1 + 1) by lia. replace (addr + 3) with (addr + 1 + 1 + 1) by lia.
  replace (addr + 4) with (addr + 1 + 1 + 1 + 1) by lia. replace (addr + 5) with (addr + 1 + 1 + 1 + 1 + 1) by lia.
  replace (addr + 6) with (addr + 1 + 1 + 1 + 1 + 1 + 1) by lia. replace (addr + 7) with (addr + 1 + 1 + 1 + 1 + 1 + 1 + 1) by lia. auto 10.
Qed.
Lemma frame_bytes m m' p l q k : stored m m' p l -> disjoint p (len l) q (len k) -> bytes_at m q k -> bytes_at m' q k.
Proof. intros S D. apply bytes_at_ext. intros x X. apply S. unfold disjoint in D. lia. Qed.

Section Numeric.
Variables (m : mem) (addr port a b c d host hostlen serv servlen flags : Z).
Hypothesis SA : bytes_at m addr (inet_sockaddr port [a; b; c; d]).
Hypothesis PT : 0 <= port < 65536.
Hypothesis NA : addr <> 0.
Hypothesis NH : host <> 0.
Hypothesis NS : serv <> 0.
Hypothesis MH : mapped m host hostlen.
Hypothesis MS : mapped m serv servlen.
Hypothesis D1 : disjoint addr 16 serv servlen.
Hypothesis D2 : disjoint host hostlen serv servlen.
Hypothesis LH : 0 < hostlen.
Hypothesis FS : has flags NI_NUMERICSERV = true.

Lemma serv_ok : len (dec port) < servlen -> exists m1, put_text m serv servlen (dec port) = Ok (m1, 0) /\ stored m m1 serv (dec port ++ [0]) /\
  bytes_at m1 addr (inet_sockaddr port [a; b; c; d]) /\ mapped m1 host hostlen.
Proof.
  intros L. destruct (proj1 (put_text_ok m serv servlen (dec port) MS) L) as (m1 & E & S). exists m1. split; [exact E|]. split; [exact S|].
  assert (len (dec port ++ [0]) <= servlen) by (rewrite len_app; change (len [0]) with 1; lia).
  split; [|eapply stored_mapped; [exact S|exact MH]].
  eapply frame_bytes; [exact S| |exact SA]. unfold disjoint in *. change (len (inet_sockaddr port [a; b; c; d])) with 16. lia.
Qed.
(* with the serv part done, the host text t *)
Lemma gni_texts fuel tid ask t : len (dec port) < servlen -> len t < hostlen ->
  (has flags NI_NUMERICHOST = true /\ t = dotted_quad a b c d \/
   has flags NI_NUMERICHOST = false /\ (exists ns, lookup_addr fuel tid ask [a; b; c; d] = Ok (inl (t :: ns))) \/
   has flags NI_NUMERICHOST = false /\ has flags NI_NAMEREQD = false /\ (exists e, lookup_addr fuel tid ask [a; b; c; d] = Ok (inr e)) /\ t = dotted_quad a b c d) ->
  exists m', getnameinfo fuel tid ask m addr 16 host hostlen serv servlen flags = Ok (m', 0) /\
    bytes_at m' host (t ++ [0]) /\ bytes_at m' serv (dec port ++ [0]) /\
    forall x, ~ host <= x < host + len t + 1 -> ~ serv <= x < serv + len (dec port) + 1 -> m' x = m x.
Proof.
  intros LS LT HT. unfold getnameinfo. destruct (Z.eqb_spec addr 0); [contradiction|]. change (16 =? 16) with true. cbn [orb negb].
  destruct (Z.eqb_spec serv 0); [contradiction|]. pose proof (len_nonneg (dec port)). destruct (Z.ltb_spec 0 servlen); [|lia]. cbn [negb andb]. rewrite FS.
  destruct (sockaddr_bytes _ _ _ _ _ _ _ SA) as (B2 & B3 & _). rewrite (ld_ok _ _ _ B2), (ld_ok _ _ _ B3). cbn [bind].
  replace (256 * (port / 256) + port mod 256) with port by (pose proof (Z.div_mod port 256); lia).
  destruct (serv_ok LS) as (m1 & E & S & SA1 & MH1). rewrite E. cbn [bind]. change (negb (0 =? 0)) with false. cbv iota.
  destruct (Z.eqb_spec host 0); [contradiction|]. destruct (Z.ltb_spec 0 hostlen); [|lia]. cbn [negb andb].
  destruct (sockaddr_bytes _ _ _ _ _ _ _ SA1) as (_ & _ & B4 & B5 & B6 & B7).
  destruct (proj1 (put_text_ok m1 host hostlen t MH1) LT) as (m2 & E2 & S2).
  assert (R : forall v : Z, exists m' : mem, Ok (m2, v) = Ok (m', v) /\ bytes_at m' host (t ++ [0]) /\ bytes_at m' serv (dec port ++ [0]) /\
    forall x, ~ host <= x < host + len t + 1 -> ~ serv <= x < serv + len (dec port) + 1 -> m' x = m x).
  { intros v. exists m2. split; [reflexivity|]. split; [apply S2|]. pose proof (len_nonneg t). split.
    - eapply frame_bytes; [exact S2| |apply S]. unfold disjoint in *. rewrite !len_app. change (len [0]) with 1. lia.
    - intros x X Y. rewrite (proj2 S2) by (rewrite len_app; change (len [0]) with 1; lia). apply S. rewrite len_app. change (len [0]) with 1. lia. }
  destruct HT as [[HN ->]|[[HN (ns & HT)]|(HN & HR & (e & HT) & ->)]]; rewrite HN.
  - unfold put_quad. rewrite (ld_ok _ _ _ B4), (ld_ok _ _ _ B5), (ld_ok _ _ _ B6), (ld_ok _ _ _ B7). cbn [bind]. rewrite E2. apply R.
  - rewrite (ld_ok _ _ _ B4), (ld_ok _ _ _ B5), (ld_ok _ _ _ B6), (ld_ok _ _ _ B7). cbn [bind]. rewrite HT. cbn [bind]. rewrite E2. apply R.
  - rewrite (ld_ok _ _ _ B4), (ld_ok _ _ _ B5), (ld_ok _ _ _ B6), (ld_ok _ _ _ B7). cbn [bind]. rewrite HT. cbn [bind]. rewrite HR.
    unfold put_quad. rewrite (ld_ok _ _ _ B4), (ld_ok _ _ _ B5), (ld_ok _ _ _ B6), (ld_ok _ _ _ B7). cbn [bind]. rewrite E2. apply R.
Qed.
(* what does not fit, and names that are required *)
Lemma gni_errors fuel tid ask :
  (servlen <= len (dec port) -> 0 < servlen -> getnameinfo fuel tid ask m addr 16 host hostlen serv servlen flags = Ok (m, EAI_MEMORY)) /\
  (len (dec port) < servlen -> forall v : Z,
   (v = EAI_MEMORY /\ has flags NI_NUMERICHOST = true /\ hostlen <= len (dotted_quad a b c d) \/
    v = EAI_MEMORY /\ has flags NI_NUMERICHOST = false /\ (exists t ns, lookup_addr fuel tid ask [a; b; c; d] = Ok (inl (t :: ns)) /\ hostlen <= len t) \/
    v = EAI_NONAME /\ has flags NI_NUMERICHOST = false /\ has flags NI_NAMEREQD = true /\
      (lookup_addr fuel tid ask [a; b; c; d] = Ok (inl []) \/ exists e, lookup_addr fuel tid ask [a; b; c; d] = Ok (inr e))) ->
   exists m', getnameinfo fuel tid ask m addr 16 host hostlen serv servlen flags = Ok (m', v) /\
     forall x, ~ serv <= x < serv + len (dec port) + 1 -> m' x = m x).
Proof.
  unfold getnameinfo. destruct (Z.eqb_spec addr 0); [contradiction|]. change (16 =? 16) with true. cbn [orb negb].
  destruct (Z.eqb_spec serv 0); [contradiction|]. pose proof (len_nonneg (dec port)). cbn [negb andb]. rewrite FS.
  destruct (sockaddr_bytes _ _ _ _ _ _ _ SA) as (B2 & B3 & _). rewrite (ld_ok _ _ _ B2), (ld_ok _ _ _ B3). cbn [bind].
  replace (256 * (port / 256) + port mod 256) with port by (pose proof (Z.div_mod port 256); lia).
  split.
  - intros L P. destruct (Z.ltb_spec 0 servlen); [|lia]. rewrite (proj2 (put_text_ok m serv servlen (dec port) MS) L). reflexivity.
  - intros L v HV. destruct (Z.ltb_spec 0 servlen); [|lia].
    destruct (serv_ok L) as (m1 & E & S & SA1 & MH1). rewrite E. cbn [bind]. change (negb (0 =? 0)) with false. cbv iota.
    destruct (Z.eqb_spec host 0); [contradiction|]. destruct (Z.ltb_spec 0 hostlen); [|lia]. cbn [negb andb].
    destruct (sockaddr_bytes _ _ _ _ _ _ _ SA1) as (_ & _ & B4 & B5 & B6 & B7).
    assert (F : forall x, ~ serv <= x < serv + len (dec port) + 1 -> m1 x = m x) by (intros x X; apply S; rewrite len_app; change (len [0]) with 1; lia).
    exists m1. split; [|exact F].
    destruct HV as [(-> & HN & HL)|[(-> & HN & t & ns & HT & HL)|(-> & HN & HR & HT)]]; rewrite HN.
    + unfold put_quad. rewrite (ld_ok _ _ _ B4), (ld_ok _ _ _ B5), (ld_ok _ _ _ B6), (ld_ok _ _ _ B7). cbn [bind]. apply put_text_ok; assumption.
    + rewrite (ld_ok _ _ _ B4), (ld_ok _ _ _ B5), (ld_ok _ _ _ B6), (ld_ok _ _ _ B7). cbn [bind]. rewrite HT. cbn [bind]. apply put_text_ok; assumption.
    + rewrite (ld_ok _ _ _ B4), (ld_ok _ _ _ B5), (ld_ok _ _ _ B6), (ld_ok _ _ _ B7). cbn [bind]. rewrite HR. destruct HT as [->|[e ->]]; reflexivity.
Qed.
End Numeric.
