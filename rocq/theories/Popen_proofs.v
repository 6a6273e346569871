(* popen, pclose and system: proofs. *)
From Verif Require Import Base Waitpid_model Waitpid_spec Popen_model Popen_spec Waitpid_proofs Prop_Waitpid.

Lemma parse_after : forall l w c, parse_mode l (Some w) c = if forallb (fun b => b =? 101) l then Some (w, c || negb (Nat.eqb (length l) 0)) else None.
Proof.
  induction l as [|b l IH]; intros w c; cbn [parse_mode forallb length]; [rewrite orb_false_r; reflexivity|]. destruct (b =? 101); [|reflexivity]. cbn [andb].
  rewrite IH. destruct (forallb _ l); [|reflexivity]. destruct c; [reflexivity|]. reflexivity.
Qed.
Lemma es_repeat : forall l, forallb (fun b => b =? 101) l = true -> l = repeat 101 (length l).
Proof. induction l as [|b l IH]; [reflexivity|]. cbn. intro H. apply andb_prop in H. destruct H as [A B]. apply Z.eqb_eq in A. subst b. f_equal. auto. Qed.
Lemma repeat_es : forall n, forallb (fun b => b =? 101) (repeat 101 n) = true.
Proof. induction n; [reflexivity|]. cbn. assumption. Qed.
Lemma parse_good : forall a b w c, parse_mode (repeat 101 a ++ (if w : bool then 119 else 114) :: repeat 101 b) None c = Some (w, c || negb (Nat.eqb (a + b) 0)).
Proof.
  induction a as [|a IH]; intros b w c; cbn [repeat app parse_mode].
  - destruct w; cbn [Z.eqb Pos.eqb]; rewrite parse_after, repeat_es, repeat_length; reflexivity.
  - rewrite Z.eqb_refl, IH. destruct c; reflexivity.
Qed.
Lemma parse_only : forall l c w e, parse_mode l None c = Some (w, e) -> exists a b, l = repeat 101 a ++ (if w then 119 else 114) :: repeat 101 b.
Proof.
  induction l as [|x l IH]; intros c w e; cbn [parse_mode]; [discriminate|]. destruct (Z.eqb_spec x 101) as [->|].
  - intro H. destruct (IH _ _ _ H) as (a & b & ->). exists (S a), b. reflexivity.
  - assert (G : forall v, parse_mode l (Some v) c = Some (w, e) -> l = repeat 101 (length l) /\ w = v).
    { intros v H. rewrite parse_after in H. destruct (forallb _ l) eqn:F; [|discriminate H]. injection H as <- <-. split; [apply es_repeat; exact F|reflexivity]. }
    destruct (Z.eqb_spec x 114) as [->|]; [intro H|destruct (Z.eqb_spec x 119) as [->|]; [intro H|discriminate]];
      destruct (G _ H) as [E ->]; exists O, (length l); cbn; f_equal; exact E.
Qed.
Lemma parse_iff l w e : parse_mode l None false = Some (w, e) <-> good_mode l w e.
Proof.
  split.
  - intro H. destruct (parse_only _ _ _ _ H) as (a & b & ->). exists a, b. split; [reflexivity|]. rewrite parse_good in H. injection H as <-. reflexivity.
  - intros (a & b & -> & ->). change ([if w then 119 else 114] ++ repeat 101 b) with ((if w then 119 else 114) :: repeat 101 b). rewrite parse_good. reflexivity.
Qed.

Lemma put_same t k x : put t k x k = x.
Proof. unfold put. rewrite Z.eqb_refl. reflexivity. Qed.
Lemma put_other t k x n : n <> k -> put t k x n = t n.
Proof. intro H. unfold put. destruct (Z.eqb_spec n k); [contradiction|reflexivity]. Qed.
Lemma pipe_above t r w fr fw : new_pipe t r w fr fw -> t 0 <> None -> t 1 <> None -> 2 <= r /\ 2 <= w /\ r <> w /\ t r = None /\ t w = None.
Proof.
  intros ((R1 & R2 & _) & (W1 & W2 & _) & _) Z0 Z1.
  assert (N : w <> r) by (intros ->; rewrite put_same in W2; discriminate W2). rewrite put_other in W2 by exact N.
  assert (r <> 0) by (intros ->; contradiction). assert (r <> 1) by (intros ->; contradiction).
  assert (w <> 0) by (intros ->; contradiction). assert (w <> 1) by (intros ->; contradiction). repeat split; try lia; assumption.
Qed.

Lemma popen_ok t mode write cloexec r w fr fw pid : good_mode mode write cloexec -> new_pipe t r w fr fw -> t 0 <> None -> t 1 <> None ->
  exists t' tc, popen t mode (Some (r, w, fr, fw)) (Some pid) = Opened t' (Stream (if write then w else r) (Some pid) write) (Some tc) /\
    callers t (if write then w else r) (if write then fw else fr) cloexec t' /\ commands t (if write then 0 else 1) (if write then fr else fw) tc.
Proof.
  intros G P Z0 Z1. destruct (pipe_above _ _ _ _ _ P Z0 Z1) as (R2 & W2 & N & TR & TW). apply parse_iff in G. unfold popen. rewrite G. cbv zeta.
  set (t2 := put (put t r (Some (fr, false))) w (Some (fw, false))).
  assert (T1 : t2 r = Some (fr, false)) by (unfold t2; rewrite put_other by exact N; apply put_same).
  assert (T2 : t2 w = Some (fw, false)) by (unfold t2; apply put_same).
  assert (T3 : forall k, k <> r -> k <> w -> t2 k = t k) by (intros k A B; unfold t2; rewrite !put_other by assumption; reflexivity).
  unfold child_table, dup2. replace (t2 (if write then r else w)) with (Some (if write then fr else fw, false)) by (destruct write; symmetry; assumption).
  replace ((if write then r else w) =? (if write then 0 else 1)) with false by (symmetry; apply Z.eqb_neq; destruct write; lia).
  eexists. eexists. split; [reflexivity|]. split.
  - destruct write, cloexec; unfold callers, close; (split; [rewrite ?put_same, ?put_other by lia; rewrite ?T1, ?T2; reflexivity|]); intros k K;
      rewrite ?(put_other _ _ _ _ K); (destruct (Z.eq_dec k r) as [->|]; [try contradiction; rewrite put_same; symmetry; assumption|] || idtac);
      (destruct (Z.eq_dec k w) as [->|]; [try contradiction; rewrite put_same; symmetry; assumption|] || idtac); rewrite ?put_other by assumption; apply T3; assumption.
  - unfold commands, exec, close. split.
    + rewrite !(put_other _ w), !(put_other _ r) by (destruct write; lia). rewrite put_same. reflexivity.
    + intros k K. destruct (Z.eq_dec k w) as [->|KW]; [rewrite put_same, TW; reflexivity|]. rewrite (put_other _ w) by exact KW.
      destruct (Z.eq_dec k r) as [->|KR]; [rewrite put_same, TR; reflexivity|]. rewrite (put_other _ r) by exact KR. rewrite put_other by exact K. rewrite T3 by assumption. reflexivity.
Qed.

Lemma valid0 : valid_options 0.
Proof. exists false, false, false. reflexivity. Qed.
(* a child's status *)
Lemma status_ok fuel own w tr p w' tr' q status : 0 < p < 2 ^ 31 -> good state_ok w tr ->
  waitpid fuel own false w tr p 0 = Ret w' tr' (inl q) status ->
  q = p /\ exists t c s, tr = t ++ tr' /\ In c w /\ pid c = p /\ ended s = true /\ status = encode s /\ latest p (report c) t = Some s.
Proof.
  intros P G E. assert (B : - 2 ^ 31 <= p < 2 ^ 31) by lia. assert (Q : q = p).
  { destruct (C145_results _ _ _ _ _ _ _ _ _ _ valid0 B E) as [[-> N]|(c & <- & M)]; [discriminate N|]. destruct M as [M|[[M _]|[[M _]|[_ M]]]]; lia. }
  split; [exact Q|]. subst q. destruct (C145_reported _ _ _ _ _ _ _ _ _ _ valid0 B G E ltac:(lia)) as (t & c & s & A & A' & C & D & F & H & K).
  exists t, c, s. repeat split; auto. destruct s; [reflexivity|reflexivity| |]; cbn [wanted] in F; discriminate F.
Qed.
Lemma error_ok fuel own w tr p w' tr' e status : 0 < p < 2 ^ 31 -> waitpid fuel own false w tr p 0 = Ret w' tr' (inr e) status ->
  e = 4 \/ e = 10 /\ forall c, In c w' -> pid c <> p.
Proof.
  intros P E. assert (B : - 2 ^ 31 <= p < 2 ^ 31) by lia. destruct (C145_results _ _ _ _ _ _ _ _ _ _ valid0 B E) as [->|[-> N]]; [left; reflexivity|right]. split; [reflexivity|].
  intros c I0 C. apply (N c I0). right. right. right. split; [lia|exact C].
Qed.
