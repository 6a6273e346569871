(* Proofs for C91-C93 *)
From Coq Require Import ZArith List Bool Lia.
From Verif Require Import Base Fopen_model Fopen_spec.
Import ListNotations.
Open Scope Z_scope.

Lemma contains_iff c s : contains c s = true <-> In c s.
Proof.
  unfold contains. rewrite existsb_exists. split; [intros (x & I & E); apply Z.eqb_eq in E; subst; exact I|intro I; exists c; split; [exact I|apply Z.eqb_refl]].
Qed.
Lemma contains_tail c l u : letter l -> c <> 114 -> c <> 119 -> c <> 97 -> contains c (l :: u) = contains c u.
Proof.
  intros L H1 H2 H3. unfold contains. cbn. destruct (Z.eqb_spec c l) as [->|]; [|reflexivity]. red in L. lia.
Qed.
Lemma set_only {A} (f : Z -> option A) x v : only f (set f x v) x v.
Proof. unfold only, set. rewrite Z.eqb_refl. split; [reflexivity|]. intros y H. destruct (Z.eqb_spec y x); [contradiction|reflexivity]. Qed.
Lemma set_same {A} (f : Z -> option A) x v : set f x v x = v. Proof. apply set_only. Qed.
Lemma set_other {A} (f : Z -> option A) x v y : y <> x -> set f x v y = f y. Proof. apply set_only. Qed.
Lemma only_id {A} (f : Z -> option A) x v : f x = v -> only f f x v.
Proof. intro H. split; [exact H|reflexivity]. Qed.
Lemma only_trans {A} (f g h : Z -> option A) x v w : only f g x v -> only g h x w -> only f h x w.
Proof. intros (A1 & A2) (B1 & B2). split; [exact B1|]. intros y Y. rewrite B2, A2 by exact Y. reflexivity. Qed.

Definition has := contains_iff.
Ltac bools := repeat match goal with
  | |- context [contains ?c ?u] => let H := fresh "H" in let E := fresh "E" in
      pose proof (has c u) as H; destruct (contains c u) eqn:E
  end.
Lemma fopen_bad k nfd name s : ~ letter (head s) -> fopen k nfd name s = (k, None).
Proof.
  intro H. unfold fopen, letter in *. destruct (Z.eqb_spec (head s) 114); [lia|]. destruct (Z.eqb_spec (head s) 119); [lia|].
  destruct (Z.eqb_spec (head s) 97); [lia|]. reflexivity.
Qed.
Lemma k_cloexec_fds k fd d : fds k fd = Some d -> files (k_cloexec k fd) = files k /\
  only (fds k) (fds (k_cloexec k fd)) fd (Some (D (d_file d) (d_rd d) (d_wr d) (d_app d) true (d_pos d))).
Proof. intro H. unfold k_cloexec. rewrite H. cbn. split; [reflexivity|apply set_only]. Qed.

(* after the open: fcntl and fdopen *)
Lemma finish c u k k1 nfd name x : mode c u ->
  only (files k) (files k1) name (Some x) ->
  (exists d, only (fds k) (fds k1) nfd (Some d) /\ descriptor c u name d) ->
  exists k' f, fdopen (if contains 101 (c :: u) then k_cloexec k1 nfd else k1) nfd (c :: u) = (k', Some f) /\ opened c u k nfd name x k' f.
Proof.
  intros (L & S & X) FO (d & DO & DD). unfold fdopen. cbn [head].
  assert (LB : negb (c =? 114) && negb (c =? 119) && negb (c =? 97) = false).
  { red in L. destruct (Z.eqb_spec c 114); [reflexivity|]. destruct (Z.eqb_spec c 119); [reflexivity|]. destruct (Z.eqb_spec c 97); [reflexivity|lia]. }
  rewrite LB. clear LB. rewrite !(contains_tail 43 c u) by (exact L || lia). rewrite !(contains_tail 101 c u) by (exact L || lia).
  destruct DD as (D1 & D2 & D3 & D4 & D5 & D6).
  assert (ID : contains 101 u = true -> D (d_file d) (d_rd d) (d_wr d) (d_app d) true (d_pos d) = d).
  { intro H. apply has in H. apply D5 in H. destruct d; cbn in *. subst. reflexivity. }
  assert (SD : forall k2, only (fds k) (fds k2) nfd (Some d) -> contains 101 u = true -> files (k_cloexec k2 nfd) = files k2 /\
     only (fds k) (fds (k_cloexec k2 nfd)) nfd (Some d)).
  { intros k2 O2 C. destruct O2 as (O2a & O2b). destruct (k_cloexec_fds k2 nfd d O2a) as (A & B). rewrite (ID C) in B.
    split; [exact A|]. destruct B as (B1 & B2). split; [exact B1|]. intros y Y. rewrite B2, O2b by exact Y. reflexivity. }
  set (k2 := if contains 101 u then k_cloexec k1 nfd else k1) in *.
  assert (P2 : files k2 = files k1 /\ only (fds k) (fds k2) nfd (Some d)).
  { unfold k2. destruct (contains 101 u) eqn:E; [apply SD; [exact DO|reflexivity]|split; [reflexivity|exact DO]]. }
  destruct P2 as (P2a & P2b).
  set (k3 := if contains 101 u then k_cloexec k2 nfd else k2).
  assert (P3 : files k3 = files k1 /\ only (fds k) (fds k3) nfd (Some d)).
  { unfold k3. destruct (contains 101 u) eqn:E; [|split; assumption]. destruct (SD k2 P2b eq_refl) as (Q1 & Q2). split; [congruence|exact Q2]. }
  destruct P3 as (P3a & P3b).
  assert (K4 : (if c =? 97 then match fds k3 nfd with Some d0 => if d_app d0 then k3 else k_setfl k3 nfd true | None => k3 end else k3) = k3).
  { destruct (Z.eqb_spec c 97) as [E|E]; [|reflexivity]. destruct P3b as (-> & _). apply D4 in E. rewrite E. reflexivity. }
  rewrite K4. eexists _, _. split; [reflexivity|]. split; [rewrite P3a; exact FO|]. split; [exists d; split; [exact P3b|repeat split; tauto]|].
  split; [|reflexivity]. unfold fresh. cbn. pose proof (has 43 u) as H43.
  red in L. destruct (contains 43 u); cbn; destruct (Z.eqb_spec c 114); cbn; intuition (try discriminate; try lia).
Qed.
Lemma fopen_ok c u k nfd name y : mode c u -> opens c u (files k name) y ->
  match y with
  | None => fopen k nfd name (c :: u) = (k, None)
  | Some x => exists k' f, fopen k nfd name (c :: u) = (k', Some f) /\ opened c u k nfd name x k' f
  end.
Proof.
  intros M H. pose proof M as (L & S & X). unfold fopen. cbn [head].
  assert (LB : negb (c =? 114) && negb (c =? 119) && negb (c =? 97) = false).
  { red in L. destruct (Z.eqb_spec c 114); [reflexivity|]. destruct (Z.eqb_spec c 119); [reflexivity|]. destruct (Z.eqb_spec c 97); [reflexivity|lia]. }
  rewrite LB. clear LB.
  assert (FIN : forall k1 x, only (files k) (files k1) name (Some x) ->
     fds k1 = set (fds k) nfd (Some (D name (o_rd (parse_mode_flags (c :: u))) (o_wr (parse_mode_flags (c :: u))) (o_app (parse_mode_flags (c :: u))) (o_cloexec (parse_mode_flags (c :: u))) 0)) ->
     exists k' f, fdopen (if contains 101 (c :: u) then k_cloexec k1 nfd else k1) nfd (c :: u) = (k', Some f) /\ opened c u k nfd name x k' f).
  { intros k1 x O1 FE. apply finish; [exact M|exact O1|]. rewrite FE. eexists. split; [apply set_only|].
    unfold parse_mode_flags. cbn [o_rd o_wr o_app o_cloexec head]. rewrite !(contains_tail 43 c u), !(contains_tail 101 c u) by (exact L || lia).
    unfold descriptor. cbn [d_file d_rd d_wr d_app d_cloexec d_pos]. pose proof (has 43 u) as H43. pose proof (has 101 u) as H101.
    red in L. destruct (contains 43 u), (contains 101 u), (Z.eqb_spec c 114), (Z.eqb_spec c 119), (Z.eqb_spec c 97); cbn; intuition (try discriminate; try lia). }
  set (o := parse_mode_flags (c :: u)) in *.
  assert (OC : o_creat o = negb (c =? 114)) by reflexivity. assert (OT : o_trunc o = (c =? 119)) by reflexivity.
  assert (OX : o_excl o = contains 120 u) by (unfold o, parse_mode_flags; cbn [o_excl]; apply contains_tail; [exact L|lia|lia|lia]).
  assert (OE : o_cloexec o = contains 101 (c :: u)) by reflexivity.
  pose proof (has 120 u) as H120. clearbody o. unfold k_open. rewrite OC, OT, OX, OE in *.
  remember (files k name) as q eqn:EQ.
  assert (GO : forall k1 x, only (files k) (files k1) name (Some x) -> fds k1 = set (fds k) nfd (Some (D name (o_rd o) (o_wr o) (o_app o) (contains 101 (c :: u)) 0)) ->
     exists k' f, match fdopen (if contains 101 (c :: u) then k_cloexec k1 nfd else k1) nfd (c :: u) with
       | (k0, Some f0) => (k0, Some f0) | (k0, None) => (k_close k0 nfd, None) end = (k', Some f) /\ opened c u k nfd name x k' f).
  { intros k1 x O1 O2. destruct (FIN k1 x O1 O2) as (k' & f & E & G). exists k', f. rewrite E. split; [reflexivity|exact G]. }
  clear FIN. destruct H as [x E|E|x E NX|x E NX|E|x E NX].
  - subst c. cbn [Z.eqb Pos.eqb negb andb]. apply GO; [|reflexivity]. apply only_id. symmetry. exact EQ.
  - subst c. reflexivity.
  - subst c. cbn [Z.eqb Pos.eqb negb andb]. destruct x as [x|].
    + destruct (contains 120 u); [specialize (NX (proj1 H120 eq_refl)); discriminate|].
      apply GO; [|reflexivity]. apply set_only.
    + apply GO; [|reflexivity]. apply set_only.
  - subst c. cbn [Z.eqb Pos.eqb negb andb]. destruct (contains 120 u); [elim NX; apply H120; reflexivity|].
    apply GO; [|reflexivity]. apply only_id. symmetry. exact EQ.
  - subst c. cbn [Z.eqb Pos.eqb negb andb]. apply GO; [|reflexivity]. apply set_only.
  - destruct (Z.eqb_spec c 114); [contradiction|]. apply H120 in NX. rewrite NX. reflexivity.
Qed.

(* freopen *)
Lemma flush_ok k f k1 : flushed k f k1 -> exists f1, flush k f = (k1, f1) /\ f_wbuf f1 = [] /\ f_fd f1 = f_fd f /\
  f_perm f1 = f_perm f /\ f_unget f1 = f_unget f /\ f_rbuf f1 = f_rbuf f.
Proof.
  unfold flushed, flush. destruct (f_wbuf f) as [|b l] eqn:E; intro H.
  - subst. exists f. repeat split. exact E.
  - rewrite H. eexists. split; [reflexivity|]. repeat split.
Qed.
Lemma write_fds k fd l k1 : k_write k fd l = Some k1 -> exists d, fds k1 fd = Some d.
Proof.
  unfold k_write. destruct (fds k fd) as [d|]; [|discriminate]. destruct (d_wr d); [|discriminate]. destruct (files k (d_file d)); [|discriminate].
  intro H. injection H as <-. cbn. eexists. apply set_same.
Qed.
Lemma fclose_clean k f : f_wbuf f = [] -> fclose k f = k_close k (f_fd f).
Proof. intro H. unfold fclose, flush. rewrite H. reflexivity. Qed.
Lemma freopen_ok c u k nfd name f k1 y : mode c u -> c <> 97 -> ~ In 101 u ->
  flushed k f k1 -> f_unget f = [] -> f_rbuf f = [] -> fds k1 nfd = None -> nfd <> f_fd f -> opens c u (files k1 name) y ->
  match y with
  | None => exists k', freopen k nfd name (c :: u) f = (k', None) /\ files k' = files k1 /\ only (fds k1) (fds k') (f_fd f) None
  | Some x => exists k' f', freopen k nfd name (c :: u) f = (k', Some f') /\
      only (files k1) (files k') name (Some x) /\ (exists d, only (fds k1) (fds k') (f_fd f) (Some d) /\ descriptor c u name d) /\
      fresh c u (f_fd f) f' /\ f_perm f' = f_perm f
  end.
Proof.
  intros M NA NE FL U R N NF H. destruct (flush_ok k f k1 FL) as (f1 & E & W & FD & PM & UG & RB).
  pose proof (fopen_ok c u k1 nfd name y M H) as P. unfold freopen. rewrite E. destruct y as [x|].
  - destruct P as (k2 & new & -> & P1 & (d & P2 & P3) & P4 & P5). pose proof P4 as (Q1 & Q2 & Q3 & Q4 & Q5 & Q6 & Q7 & Q8 & Q9).
    rewrite Q1, FD. destruct (Z.eqb_spec nfd (f_fd f)); [contradiction|].
    eexists _, _. split; [reflexivity|]. rewrite (fclose_clean _ new Q8), Q1.
    unfold k_dup2. destruct P2 as (P2a & P2b). rewrite P2a. unfold k_setfl. cbn [fds files k_close]. rewrite set_same. cbn [fds files d_file d_rd d_wr d_cloexec d_pos].
    split; [exact P1|]. split; [|split; [|rewrite P5, orb_false_r; exact PM]].
    + eexists. split.
      * split; [rewrite set_other by (intro X; apply NF; congruence); apply set_same|]. intros z Z0.
        destruct (Z.eq_dec z nfd) as [->|ZN]; [rewrite set_same; symmetry; exact N|]. rewrite !set_other by assumption. apply P2b. exact ZN.
      * destruct P3 as (D1 & D2 & D3 & D4 & D5 & D6). unfold descriptor. cbn. intuition discriminate.
    + unfold fresh. cbn. rewrite UG, RB, W. repeat split; try tauto; try congruence.
  - rewrite P. eexists. split; [reflexivity|]. rewrite (fclose_clean _ f1 W), FD. cbn. split; [reflexivity|apply set_only].
Qed.
(* exit *)
Lemma exit_ok k out err others k1 k2 : flushed k out k1 -> flushed k1 err k2 -> exit_flush k out err others = k2.
Proof.
  intros A B. destruct (flush_ok _ _ _ A) as (f1 & E1 & _). destruct (flush_ok _ _ _ B) as (f2 & E2 & _). unfold exit_flush. rewrite E1, E2. reflexivity.
Qed.
