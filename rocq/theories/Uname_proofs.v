(* Lemmas for C158. *)
From Verif Require Import Base Uname_model Uname_spec.

Lemma puts_ok : forall l m p, mapped m p (len l) -> exists m', puts m p l = Ok m' /\ stored m m' p l.
Proof.
  induction l as [|c l IH]; intros m p M; [exists m; split; [reflexivity|apply stored_nil]|]. cbn [puts]. rewrite len_cons in M. pose proof (len_nonneg l).
  rewrite st_ok by (apply M; lia). cbn [bind]. destruct (IH (upd m p c) (p + 1)) as (m' & E & S0).
  - apply mapped_upd. apply (mapped_sub m p (len l + 1)); [exact M|lia|lia].
  - exists m'. split; [exact E|]. apply stored_cons. exact S0.
Qed.
Lemma firstn_len (l : list Z) n : 0 <= n <= len l -> len (firstn (Z.to_nat n) l) = n.
Proof. unfold len. intro. rewrite firstn_length. lia. Qed.
Lemma skipn_len (l : list Z) n : 0 <= n <= len l -> len (skipn (Z.to_nat n) l) = len l - n.
Proof. unfold len. intro. rewrite skipn_length. lia. Qed.
(* what the loop leaves: a prefix of the file *)
Lemma host_loop_ok s name : forall fuel i m read rest, 0 <= read <= 64 -> 64 - read < Z.of_nat fuel -> mapped m name 65 ->
  exists m' r l, host_loop s fuel i m name read rest = Ok (m', r) /\ stored m m' (name + read) l /\ read + len l <= 64 /\
    (forall n, r = Some n -> l = firstn (Z.to_nat (64 - read)) rest /\ n = read + len l) /\ ((forall j, reads s j <> None) -> r <> None) /\ ((forall j, reads s j = None) -> r = None).
Proof.
  induction fuel as [|fuel IH]; intros i m read rest R F M; [lia|]. cbn [host_loop]. change (UTSLENGTH - 1) with 64. rewrite (proj2 (Z.ltb_ge 64 read)) by lia.
  destruct (reads s i) as [k|] eqn:E.
  2:{ exists m, None, []. split; [reflexivity|]. split; [apply stored_nil|]. split; [rewrite len_nil; lia|]. split; [discriminate|]. split; [intros H _; exact (H i E)|reflexivity]. }
  cbv zeta. pose proof (len_nonneg rest). set (n := Z.min (Z.max 1 k) (Z.min (64 - read) (len rest))). destruct (Z.eqb_spec n 0) as [Z0|Z0].
  - exists m, (Some read), []. split; [reflexivity|]. split; [apply stored_nil|]. split; [rewrite len_nil; lia|]. split; [|split; [discriminate|intro H0; rewrite H0 in E; discriminate]].
    intros x X. rewrite len_nil. assert (x = read) by congruence. split; [|lia].
    destruct (Z.eq_dec (len rest) 0) as [L|L]; [destruct rest; [destruct (Z.to_nat (64 - read)); reflexivity|rewrite len_cons in L; pose proof (len_nonneg rest); lia]|].
    replace (64 - read) with 0 by lia. reflexivity.
  - assert (N : 1 <= n <= len rest /\ n <= 64 - read) by lia.
    destruct (puts_ok (firstn (Z.to_nat n) rest) m (name + read)) as (m1 & P & S1).
    { rewrite firstn_len by lia. apply (mapped_sub m name 65); [exact M|lia|lia]. }
    rewrite P. cbn [bind]. destruct (IH (S i) m1 (read + n) (skipn (Z.to_nat n) rest)) as (m2 & r & l & E2 & S2 & L2 & C1 & C2 & C3); [lia|lia|exact (stored_mapped _ _ _ _ _ _ S1 M)|].
    exists m2, r, (firstn (Z.to_nat n) rest ++ l). split; [exact E2|]. rewrite len_app, firstn_len by lia. split; [|split; [lia|split; [|split; assumption]]].
    + apply (stored_app m m1 m2); [exact S1|]. rewrite firstn_len by lia. replace (name + read + n) with (name + (read + n)) by lia. exact S2.
    + intros x X. destruct (C1 x X) as [-> ->]. split; [|lia]. rewrite <- (firstn_skipn (Z.to_nat n) rest) at 3.
      assert (A : (Z.to_nat (64 - read) = Z.to_nat n + Z.to_nat (64 - (read + n)))%nat) by lia. rewrite A.
      assert (Q : length (firstn (Z.to_nat n) rest) = Z.to_nat n) by (rewrite firstn_length; unfold len in *; lia). rewrite <- Q at 3. rewrite firstn_app_2. reflexivity.
Qed.
Lemma gethostname_ok s m name : mapped m name 65 -> exists m' b l, gethostname s m name = Ok (m', b) /\ stored m m' name l /\ len l <= 65 /\
  (b = true -> exists h, hostname s = Some h /\ l = firstn 64 h ++ [0]) /\
  (hostname s = None -> b = false) /\ ((forall j, reads s j = None) -> b = false) /\ (hostname s <> None -> (forall j, reads s j <> None) -> b = true).
Proof.
  intro M. unfold gethostname. destruct (hostname s) as [h|].
  2:{ exists m, false, []. split; [reflexivity|]. split; [apply stored_nil|]. split; [rewrite len_nil; lia|]. split; [discriminate|]. split; [reflexivity|]. split; [reflexivity|]. intro H. contradiction. }
  destruct (host_loop_ok s name 66 0 m 0 h) as (m1 & r & l & E & S1 & L & C1 & C2 & C3); [lia|lia|exact M|]. rewrite E. cbn [bind]. rewrite Z.add_0_r in S1. pose proof (len_nonneg l). destruct r as [n|].
  - destruct (C1 n eq_refl) as [A B]. rewrite st_ok by (apply (stored_mapped _ _ _ _ _ _ S1 M); lia). cbn [bind]. eexists. exists true, (l ++ [0]). split; [reflexivity|].
    split; [apply (stored_snoc m m1 _ name 0 l S1); rewrite B; reflexivity|]. split; [rewrite len_app; change (len [0]) with 1; lia|].
    split; [intros _; exists h; split; [reflexivity|rewrite A; reflexivity]|]. split; [discriminate|]. split; [intro H0; discriminate (C3 H0)|reflexivity].
  - exists m1, false, l. split; [reflexivity|]. split; [exact S1|]. split; [lia|]. split; [discriminate|]. split; [reflexivity|]. split; [reflexivity|]. intros _ H0. destruct (C2 H0 eq_refl).
Qed.

(* lines *)
Lemma until_end : forall c, ~ In 10 c -> until c = (c, []).
Proof.
  induction c as [|x c IH]; intro N; [reflexivity|]. cbn [until]. destruct (Z.eqb_spec x 10) as [E|E]; [destruct N; left; exact E|]. rewrite IH; [reflexivity|]. intro H. apply N. right. exact H.
Qed.
Lemma until_line : forall raw c, ~ In 10 raw -> until (raw ++ 10 :: c) = (raw ++ [10], c).
Proof.
  induction raw as [|x raw IH]; intros c N; [reflexivity|]. cbn [until app]. destruct (Z.eqb_spec x 10) as [E|E]; [destruct N; left; exact E|]. rewrite IH; [reflexivity|]. intro H. apply N. right. exact H.
Qed.
Lemma until_cases : forall c, ~ In 10 c \/ exists raw r, ~ In 10 raw /\ c = raw ++ 10 :: r.
Proof.
  induction c as [|x c IH]; [left; intros []|]. destruct (Z.eq_dec x 10) as [->|N]; [right; exists [], c; split; [intros []|reflexivity]|].
  destruct IH as [IH|(raw & r & A & ->)]; [left; intros [E|E]; [contradiction|exact (IH E)]|]. right. exists (x :: raw), r. split; [intros [E|E]; [contradiction|exact (A E)]|reflexivity].
Qed.
Lemma pop_snoc x l : pop x (l ++ [x]) = Some l.
Proof. unfold pop. rewrite rev_app_distr. cbn [rev app]. rewrite Z.eqb_refl, rev_involutive. reflexivity. Qed.
Lemma pop_spec x l : match pop x l with Some k => l = k ++ [x] | None => forall k, l <> k ++ [x] end.
Proof.
  unfold pop. destruct (rev l) as [|y r] eqn:E.
  - intros k ->. rewrite rev_app_distr in E. discriminate.
  - destruct (Z.eqb_spec y x) as [->|N]; [rewrite <- (rev_involutive l), E; reflexivity|]. intros k ->. rewrite rev_app_distr in E. cbn [rev app] in E. injection E as E _. congruence.
Qed.
Lemma pop_in x l : ~ In x l -> pop x l = None.
Proof. intro N. pose proof (pop_spec x l) as K. destruct (pop x l) as [k|]; [|reflexivity]. subst l. destruct N. apply in_or_app. right. left. reflexivity. Qed.
Lemma end_unique raw l : line_end raw l <-> l = match pop 13 raw with None => raw | Some k => k end.
Proof.
  pose proof (pop_spec 13 raw) as K. split.
  - intros [k|k H]; [rewrite pop_snoc; reflexivity|]. pose proof (pop_spec 13 k) as J. destruct (pop 13 k) as [j|]; [destruct (H j J)|reflexivity].
  - intros ->. destruct (pop 13 raw) as [k|]; [rewrite K; constructor|]. constructor. exact K.
Qed.
Lemma next_spec s c l ls : first_lines (utf8 s) c (l :: ls) <-> exists rest, next_line s c = Some (Some l, rest) /\ first_lines (utf8 s) rest ls.
Proof.
  split.
  - intro H. inversion H as [|raw l' c' ls' N V E F|l' N1 N2 V]; subst.
    + exists c'. split; [|exact F]. unfold next_line. rewrite (until_line raw c' N), V, pop_snoc. apply end_unique in E. rewrite E. destruct (raw ++ 10 :: c') eqn:X; [destruct raw; discriminate|]. reflexivity.
    + exists []. split; [|constructor]. unfold next_line. rewrite (until_end l N2), V, (pop_in 10 l N2). destruct l; [contradiction|reflexivity].
  - intros (rest & H & F). unfold next_line in H. destruct (until_cases c) as [N|(raw & r & N & ->)].
    + rewrite (until_end c N), (pop_in 10 c N) in H. destruct c as [|x c]; [discriminate|]. destruct (utf8 s (x :: c)) eqn:V; [|discriminate]. assert (l = x :: c) by congruence. assert (rest = []) by congruence. subst.
      inversion F; subst; [|destruct raw; discriminate|contradiction]. apply fl_last; [discriminate|exact N|exact V].
    + rewrite (until_line raw r N), pop_snoc in H. destruct (utf8 s (raw ++ [10])) eqn:V; [|destruct (raw ++ 10 :: r); discriminate].
      assert (Q : rest = r /\ l = match pop 13 raw with None => raw | Some k => k end) by (destruct (raw ++ 10 :: r) eqn:X; [destruct raw; discriminate|]; split; congruence). destruct Q as [-> Q].
      apply fl_line; [exact N|exact V|apply end_unique; exact Q|exact F].
Qed.
(* read_line: the lines in [ls] still to be had *)
Lemma read_line_ok s m dst c : mapped m dst 65 -> exists m' o k, read_line s m dst c = Ok (m', o) /\ stored m m' dst k /\ len k <= 65 /\
  match o with
  | Some rest => exists l, k = l ++ [0] /\ len l <= 64 /\ next_line s c = Some (Some l, rest)
  | None => forall l rest, next_line s c = Some (Some l, rest) -> 64 < len l
  end.
Proof.
  intro M. unfold read_line. destruct (next_line s c) as [[[l|] rest]|] eqn:E.
  - cbv zeta. change UTSLENGTH with 65. pose proof (len_nonneg l). assert (L : len (l ++ [0]) = len l + 1) by (rewrite len_app; reflexivity). rewrite L. destruct (Z.ltb_spec 65 (len l + 1)).
    + exists m, None, []. split; [reflexivity|]. split; [apply stored_nil|]. split; [rewrite len_nil; lia|]. intros l' r' H1. assert (l' = l) by congruence. subst. lia.
    + rewrite firstn_all2 by (unfold len in *; lia). destruct (puts_ok (l ++ [0]) m dst) as (m1 & P & S1); [apply (mapped_sub m dst 65); [exact M|lia|lia]|].
      rewrite P. cbn [bind]. exists m1, (Some rest), (l ++ [0]). split; [reflexivity|]. split; [exact S1|]. split; [lia|]. exists l. split; [reflexivity|]. split; [lia|reflexivity].
  - exists m, None, []. split; [reflexivity|]. split; [apply stored_nil|]. split; [rewrite len_nil; lia|]. intros l r H. congruence.
  - exists m, None, []. split; [reflexivity|]. split; [apply stored_nil|]. split; [rewrite len_nil; lia|]. intros l r H. congruence.
Qed.

Lemma outside m m' p l u : stored m m' p l -> u <= p -> p + len l <= u + 390 -> forall x, ~ u <= x < u + 390 -> m' x = m x.
Proof. intros [_ H] A B x X. apply H. lia. Qed.
Ltac failed := right; split; [reflexivity|]; split; [reflexivity|].
Lemma uname_ok s m u : mapped m u 390 -> exists m' r e, uname s m u = Ok (m', r, e) /\ (forall x, ~ u <= x < u + 390 -> m' x = m x) /\
  ((r = 0 /\ e = None /\ exists h a b c d, known s h a b c d /\ named m' u h a b c d) \/
   (r = -1 /\ e = Some EIO /\ ((forall j, reads s j <> None) -> forall h a b c d, ~ known s h a b c d))).
Proof.
  intro M. unfold uname. destruct (gethostname_ok s m (nodename u)) as (m0 & b0 & l0 & E0 & S0 & L0 & G1 & G2 & G3 & G4); [apply (mapped_sub m u 390); unfold nodename; [exact M|lia|lia]|].
  rewrite E0. cbn [bind]. pose proof (len_nonneg l0).
  assert (O0 : forall x, ~ u <= x < u + 390 -> m0 x = m x) by (apply (outside m m0 (nodename u) l0); [exact S0|unfold nodename; lia|unfold nodename; lia]).
  destruct b0; cbn [negb].
  2:{ exists m0, (-1), (Some EIO). split; [reflexivity|]. split; [exact O0|]. failed. intros R h a b c d (K & _). assert (X : hostname s <> None) by (rewrite K; discriminate). discriminate (G4 X R). }
  destruct (G1 eq_refl) as (h & Hh & Hl). destruct (about s) as [text|] eqn:A.
  2:{ exists m0, (-1), (Some EIO). split; [reflexivity|]. split; [exact O0|]. failed. intros R h' a b c d (_ & (t & K & _) & _). discriminate (eq_trans (eq_sym K) A). }
  assert (M0 := stored_mapped _ _ _ _ _ _ S0 M).
  destruct (read_line_ok s m0 (sysname u) text) as (m1 & o1 & k1 & E1 & S1 & L1 & C1); [apply (mapped_sub m0 u 390); unfold sysname; [exact M0|lia|lia]|]. rewrite E1. cbn [bind]. pose proof (len_nonneg k1).
  assert (O1 : forall x, ~ u <= x < u + 390 -> m1 x = m x) by (intros x X; rewrite (outside m0 m1 (sysname u) k1 u S1); [exact (O0 x X)|unfold sysname; lia|unfold sysname; lia|exact X]).
  destruct o1 as [t1|].
  2:{ exists m1, (-1), (Some EIO). split; [reflexivity|]. split; [exact O1|]. failed. intros R h' a b c d (_ & (t & K & F) & La & _). assert (t = text) by congruence. subst t.
      apply next_spec in F. destruct F as (r1 & N1 & _). pose proof (C1 _ _ N1). lia. }
  destruct C1 as (la & -> & La & Na). assert (M1 := stored_mapped _ _ _ _ _ _ S1 M0).
  destruct (read_line_ok s m1 (release u) t1) as (m2 & o2 & k2 & E2 & S2 & L2 & C2); [apply (mapped_sub m1 u 390); unfold release; [exact M1|lia|lia]|]. rewrite E2. cbn [bind]. pose proof (len_nonneg k2).
  assert (O2 : forall x, ~ u <= x < u + 390 -> m2 x = m x) by (intros x X; rewrite (outside m1 m2 (release u) k2 u S2); [exact (O1 x X)|unfold release; lia|unfold release; lia|exact X]).
  destruct o2 as [t2|].
  2:{ exists m2, (-1), (Some EIO). split; [reflexivity|]. split; [exact O2|]. failed. intros R h' a b c d (_ & (t & K & F) & _ & Lb & _). assert (t = text) by congruence. subst t.
      apply next_spec in F. destruct F as (r1 & N1 & F). assert (r1 = t1) by congruence. subst r1. apply next_spec in F. destruct F as (r2 & N2 & F). pose proof (C2 _ _ N2). lia. }
  destruct C2 as (lb & -> & Lb & Nb). assert (M2 := stored_mapped _ _ _ _ _ _ S2 M1).
  destruct (read_line_ok s m2 (machine u) t2) as (m3 & o3 & k3 & E3 & S3 & L3 & C3); [apply (mapped_sub m2 u 390); unfold machine; [exact M2|lia|lia]|]. rewrite E3. cbn [bind]. pose proof (len_nonneg k3).
  assert (O3 : forall x, ~ u <= x < u + 390 -> m3 x = m x) by (intros x X; rewrite (outside m2 m3 (machine u) k3 u S3); [exact (O2 x X)|unfold machine; lia|unfold machine; lia|exact X]).
  destruct o3 as [t3|].
  2:{ exists m3, (-1), (Some EIO). split; [reflexivity|]. split; [exact O3|]. failed. intros R h' a b c d (_ & (t & K & F) & _ & _ & Lc & _). assert (t = text) by congruence. subst t.
      apply next_spec in F. destruct F as (r1 & N1 & F). assert (r1 = t1) by congruence. subst r1. apply next_spec in F. destruct F as (r2 & N2 & F). assert (r2 = t2) by congruence. subst r2.
      apply next_spec in F. destruct F as (r3 & N3 & F). pose proof (C3 _ _ N3). lia. }
  destruct C3 as (lc & -> & Lc & Nc). assert (M3 := stored_mapped _ _ _ _ _ _ S3 M2).
  destruct (read_line_ok s m3 (version u) t3) as (m4 & o4 & k4 & E4 & S4 & L4 & C4); [apply (mapped_sub m3 u 390); unfold version; [exact M3|lia|lia]|]. rewrite E4. cbn [bind]. pose proof (len_nonneg k4).
  assert (O4 : forall x, ~ u <= x < u + 390 -> m4 x = m x) by (intros x X; rewrite (outside m3 m4 (version u) k4 u S4); [exact (O3 x X)|unfold version; lia|unfold version; lia|exact X]).
  destruct o4 as [t4|].
  2:{ exists m4, (-1), (Some EIO). split; [reflexivity|]. split; [exact O4|]. failed. intros R h' a b c d (_ & (t & K & F) & _ & _ & _ & Ld). assert (t = text) by congruence. subst t.
      apply next_spec in F. destruct F as (r1 & N1 & F). assert (r1 = t1) by congruence. subst r1. apply next_spec in F. destruct F as (r2 & N2 & F). assert (r2 = t2) by congruence. subst r2.
      apply next_spec in F. destruct F as (r3 & N3 & F). assert (r3 = t3) by congruence. subst r3. apply next_spec in F. destruct F as (r4 & N4 & F). pose proof (C4 _ _ N4). lia. }
  destruct C4 as (ld0 & -> & Ld & Nd). assert (M4 := stored_mapped _ _ _ _ _ _ S4 M3).
  destruct (puts_ok (repeat 0 (Z.to_nat UTSLENGTH)) m4 (domainname u)) as (m5 & E5 & S5); [change (len (repeat 0 (Z.to_nat UTSLENGTH))) with 65; apply (mapped_sub m4 u 390); unfold domainname; [exact M4|lia|lia]|].
  rewrite E5. cbn [bind]. exists m5, 0, None. split; [reflexivity|].
  split; [intros x X; rewrite (outside m4 m5 (domainname u) _ u S5); [exact (O4 x X)|unfold domainname; lia|change (len (repeat 0 (Z.to_nat UTSLENGTH))) with 65; unfold domainname; lia|exact X]|].
  left. split; [reflexivity|]. split; [reflexivity|]. exists h, la, lb, lc, ld0. split.
  - split; [exact Hh|]. split; [|repeat (split; [assumption|]); assumption]. exists text. split; [exact A|].
    apply next_spec. exists t1. split; [exact Na|]. apply next_spec. exists t2. split; [exact Nb|]. apply next_spec. exists t3. split; [exact Nc|]. apply next_spec. exists t4. split; [exact Nd|]. constructor.
  - assert (B : forall m m' p l q k, stored m m' p l -> len l <= 65 -> len k <= 65 -> p + 65 <= q \/ q + 65 <= p -> bytes_at m q k -> bytes_at m' q k).
    { intros x x' p l q k S6 Ll Lk D. apply (stored_frame x x' p l q k S6). unfold disjoint. lia. }
    rewrite Hl in S0. rewrite Hl in L0. assert (L5 : len (repeat 0 (Z.to_nat UTSLENGTH)) <= 65) by (change (len (repeat 0 (Z.to_nat UTSLENGTH))) with 65; lia).
    unfold named. split; [|split; [|split; [|split; [|split]]]]; [| | | | |exact (proj1 S5)];
    unfold sysname, nodename, release, machine, version, domainname in *;
    repeat match goal with
    | S : stored ?x m5 _ _ |- bytes_at m5 _ _ => first [exact (proj1 S)|apply (B _ _ _ _ _ _ S); [lia|lia|lia|]]
    | S : stored ?x m4 _ _ |- bytes_at m4 _ _ => first [exact (proj1 S)|apply (B _ _ _ _ _ _ S); [lia|lia|lia|]]
    | S : stored ?x m3 _ _ |- bytes_at m3 _ _ => first [exact (proj1 S)|apply (B _ _ _ _ _ _ S); [lia|lia|lia|]]
    | S : stored ?x m2 _ _ |- bytes_at m2 _ _ => first [exact (proj1 S)|apply (B _ _ _ _ _ _ S); [lia|lia|lia|]]
    | S : stored ?x m1 _ _ |- bytes_at m1 _ _ => first [exact (proj1 S)|apply (B _ _ _ _ _ _ S); [lia|lia|lia|]]
    end; exact (proj1 S0).
Qed.
