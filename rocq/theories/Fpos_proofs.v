From Coq Require Import ZArith List Bool Lia.
From Verif Require Import Base Istream_model Istream_spec Istream_proofs Ostream_model Ostream_spec Ostream_proofs Fpos_model Fpos_spec.
Import ListNotations.
Open Scope Z_scope.

(* ---------- write_at ---------- *)
Lemma wa_len F o d : d <> [] -> length (write_at F o d) = Nat.max (length F) (o + length d).
Proof.
  intro N. unfold write_at. destruct d as [|x d]; [destruct N; reflexivity|].
  rewrite !app_length, firstn_length, skipn_length, app_length, repeat_length. lia.
Qed.
Lemma wa_nth F o d i : d <> [] -> nth i (write_at F o d) 0 = if ((o <=? i) && (i <? o + length d))%nat then nth (i - o) d 0 else nth i F 0.
Proof.
  intro N. unfold write_at. destruct d as [|x0 d0] eqn:E; [destruct N; reflexivity|]. rewrite <- E. clear E N x0 d0.
  set (A := firstn o (F ++ repeat 0 (o - length F))).
  assert (LA : length A = o) by (unfold A; rewrite firstn_length, app_length, repeat_length; lia).
  destruct (Nat.leb_spec o i) as [H|H]; cbn [andb].
  - rewrite app_nth2 by lia. rewrite LA. destruct (Nat.ltb_spec i (o + length d)) as [H1|H1].
    + rewrite app_nth1 by lia. reflexivity.
    + rewrite app_nth2 by lia. rewrite <- (firstn_skipn (o + length d) F) at 2.
      destruct (Nat.le_gt_cases (length F) (o + length d)) as [L|L].
      * rewrite !skipn_all2 by lia. rewrite app_nil_r. rewrite (nth_overflow []) by (cbn; lia).
        rewrite nth_overflow; [reflexivity|]. rewrite firstn_length. lia.
      * rewrite (app_nth2 (firstn _ F)) by (rewrite firstn_length; lia). f_equal. rewrite firstn_length. lia.
  - rewrite app_nth1 by lia. unfold A.
    assert (X : nth i (F ++ repeat 0 (o - length F)) 0 = nth i F 0).
    { destruct (Nat.lt_ge_cases i (length F)); [apply app_nth1; auto|]. rewrite app_nth2 by lia.
      rewrite (nth_overflow F) by lia. destruct (Nat.lt_ge_cases (i - length F) (o - length F)).
      - apply nth_repeat.
      - apply nth_overflow. rewrite repeat_length. lia. }
    rewrite <- X. rewrite <- (firstn_skipn o (F ++ repeat 0 (o - length F))) at 2. fold A. rewrite app_nth1 by lia. reflexivity.
Qed.
Lemma wa_put F o d : put F o d (write_at F o d).
Proof.
  destruct d as [|x d]; [reflexivity|]. split; [apply wa_len; discriminate|]. intro i. apply wa_nth. discriminate.
Qed.
Lemma list_ext (a b : list Z) : length a = length b -> (forall i, nth i a 0 = nth i b 0) -> a = b.
Proof. intros L H. apply (nth_ext a b 0 0 L). auto. Qed.
Lemma wa_app F o a b : write_at (write_at F o a) (o + length a) b = write_at F o (a ++ b).
Proof.
  destruct a as [|x a]; [cbn [write_at length List.app]; rewrite Nat.add_0_r; reflexivity|].
  destruct b as [|y b]; [rewrite app_nil_r; reflexivity|].
  set (A := x :: a). set (B := y :: b). assert (NA : A <> []) by discriminate. assert (NB : B <> []) by discriminate.
  assert (NAB : A ++ B <> []) by discriminate.
  apply list_ext.
  - rewrite !wa_len by assumption. rewrite app_length. lia.
  - intro i. rewrite !wa_nth by assumption. rewrite app_length.
    destruct (Nat.leb_spec (o + length A) i), (Nat.ltb_spec i (o + length A + length B)), (Nat.leb_spec o i),
      (Nat.ltb_spec i (o + (length A + length B))), (Nat.ltb_spec i (o + length A)); cbn [andb]; try lia; try reflexivity.
    + rewrite app_nth2 by lia. f_equal. lia.
    + rewrite app_nth1 by lia. reflexivity.
Qed.

(* ---------- reading ---------- *)
Lemma refill_inp orc s : (length (inp (fst (refill orc s))) <= length (inp s))%nat.
Proof.
  unfold refill. destruct (orc (reads s)); [cbn; lia|]. destruct (_ =? 0)%nat; cbn [fst inp]; [lia|]. rewrite skipn_length. lia.
Qed.
Lemma fill_inp orc s s' r : fill_buf orc s = Ok (s', r) -> (length (inp s') <= length (inp s))%nat /\ unget s' = unget s.
Proof.
  unfold fill_buf. assert (I : inp (init_buf s) = inp s /\ unget (init_buf s) = unget s) by (unfold init_buf; destruct (rb s); auto).
  destruct I as (I & U). destruct (rpos (init_buf s) =? rsize (init_buf s))%nat.
  - pose proof (refill_inp orc (init_buf s)) as L.
    assert (V : unget (fst (refill orc (init_buf s))) = unget s).
    { unfold refill. destruct (orc _); [exact U|]. destruct (_ =? 0)%nat; exact U. }
    destruct (refill orc (init_buf s)) as [s1 ok]. cbn [fst] in *. destruct ok.
    + destruct (_ && _); [|discriminate]. intro H. injection H as <- <-. rewrite I in L. auto.
    + intro H. injection H as <- <-. rewrite I in L. auto.
  - destruct (_ && _); [|discriminate]. intro H. injection H as <- <-. rewrite I. auto.
Qed.
Lemma f_read_more orc s n s' r : f_read orc s n = Ok (s', r) -> (0 < n)%nat ->
  (length (inp s') <= length (inp s))%nat /\ unget s' = skipn (length (match r with Some d => d | None => [] end)) (unget s).
Proof.
  unfold f_read. intros H N. destruct (Nat.eqb_spec (Nat.min n (length (unget s))) 0) as [E|E].
  - assert (UG : unget s = []) by (destruct (unget s); [reflexivity|cbn in E; lia]).
    destruct (fill_buf orc s) as [[s1 b]| | |] eqn:EF; cbn [bind] in H; try discriminate.
    destruct (fill_inp _ _ _ _ EF) as (L & U). rewrite UG, skipn_nil. destruct b as [b|]; injection H as <- <-; cbn [consume inp unget];
      split; auto; congruence.
  - injection H as <- <-. split; [cbn; lia|]. cbn [set_unget unget]. f_equal. rewrite firstn_length. lia.
Qed.
Lemma fread_more orc total : forall fuel s got s' g', fread_loop fuel orc s total got = Ok (s', g') ->
  (length (inp s') <= length (inp s))%nat /\ exists d, g' = got ++ d /\ unget s' = skipn (length d) (unget s).
Proof.
  induction fuel as [|f IH]; intros s got s' g' H; [discriminate|]. cbn [fread_loop] in H.
  destruct (Nat.ltb_spec (length got) total) as [L|L].
  - destruct (f_read orc s (total - length got)) as [[s1 r]| | |] eqn:E; cbn [bind] in H; try discriminate.
    destruct (f_read_more _ _ _ _ _ E) as (L1 & U1); [lia|].
    destruct r as [[|x d]|].
    + injection H as <- <-. split; [exact L1|]. exists []. rewrite app_nil_r. auto.
    + destruct (IH _ _ _ _ H) as (L2 & d2 & -> & U2). split; [lia|]. exists ((x :: d) ++ d2).
      rewrite <- app_assoc. split; [reflexivity|]. rewrite U2, U1, app_length, skipn_plus. reflexivity.
    + injection H as <- <-. split; [exact L1|]. exists []. rewrite app_nil_r. auto.
  - injection H as <- <-. split; [lia|]. exists []. rewrite app_nil_r. auto.
Qed.

Section run.
Variables (k : wkind) (cap : nat) (rorc : nat -> rres) (worc : nat -> wres).
Hypothesis RG : rgood rorc.
Hypothesis WG : wgood worc.

Lemma no_err s s' : ~ hit_error rorc s s'.
Proof. intros (_ & j & _ & E). destruct (RG j) as (n & E' & _). congruence. Qed.
Lemma at_end s s' : hit_end rorc s s' -> unread s' = [].
Proof.
  intros (_ & U & [E|(j & _ & E)]); [congruence|]. destruct (RG j) as (n & E' & N). congruence.
Qed.
Lemma no_bad i j : ~ bad_in worc i j.
Proof. intros (x & _ & B). apply (WG x B). Qed.

Definition sinv' (s : fstream) : Prop := sinv k (Stream (Dev [] (wcalls s)) (wr s) false).
Definition R (a : afile) (s : fstream) : Prop :=
  inv (rd s) /\ sinv' s /\ pushed a = unget (rd s) /\ app s = false /\
  match ph a with
  | Writing => pend (rd s) = [] /\ pushed a = [] /\ cont a = write_at (disk s) (off s) (wbuf (wr s)) /\
      pos a = (off s + length (wbuf (wr s)))%nat
  | h => wbuf (wr s) = [] /\ cont a = disk s /\ off s = (pos a + length (pend (rd s)))%nat /\
      pend (rd s) ++ skipn (off s) (disk s) = skipn (pos a) (disk s) /\ (h <> Reading -> pend (rd s) = [] /\ pushed a = [])
  end.

Lemma sinv_wr s t : wr t = wr s -> sinv' s -> sinv' t.
Proof. unfold sinv', sinv. intros ->. auto. Qed.

Lemma f_out_spec s o : sinv' s -> valid_op o -> app s = false -> inv (rd s) -> exists s', f_out k cap worc s o = Ok (s', success o) /\
  sinv' s' /\ app s' = false /\ inv (rd s') /\ pend (rd s') = pend (rd s) /\ unget (rd s') = unget (rd s) /\
  rpos (rd s') = rpos (rd s) /\ rsize (rd s') = rsize (rd s) /\
  write_at (disk s') (off s') (wbuf (wr s')) = write_at (disk s) (off s) (wbuf (wr s) ++ given o) /\
  (off s' + length (wbuf (wr s')))%nat = (off s + length (wbuf (wr s) ++ given o))%nat /\ (o = OpFlush -> wbuf (wr s') = []).
Proof.
  intros SI V AP I. unfold f_out.
  destruct (o_exec_spec k cap worc _ o SI V) as (t & v & acc & E & _ & O & SI' & _ & FL & NB & _). rewrite E.
  destruct (NB (no_bad _ _)) as (-> & ->). clear NB. cbn [sdev out swr List.app] in O.
  eexists. split; [reflexivity|]. rewrite AP.
  set (i := if ferr t then _ else _).
  assert (II : inv i /\ pend i = pend (rd s) /\ unget i = unget (rd s) /\ rpos i = rpos (rd s) /\ rsize i = rsize (rd s)) by (unfold i; destruct (ferr t); repeat split; apply I).
  assert (SW : sinv k (Stream (Dev [] (calls (sdev t))) (swr t) false)) by (revert SI'; unfold sinv; auto).
  destruct II as (I1 & I2 & I3 & I4 & I5). rewrite <- O, app_length.
  destruct (out (sdev t)) as [|x d] eqn:D; unfold sinv'; cbn [rd wr wcalls disk off app]; (split; [exact SW|]); (split; [reflexivity|]);
    (split; [exact I1|]); (split; [exact I2|]); (split; [exact I3|]); (split; [exact I4|]); (split; [exact I5|]).
  - split; [reflexivity|]. split; [reflexivity|]. intros ->. apply FL; reflexivity.
  - split; [apply wa_app|]. split; [lia|]. intros ->. apply FL; reflexivity.
Qed.

(* a reading call, once its effect on the reading half is known *)
Lemma f_in_spec a s i' (d : list Z) h : R a s -> ph a <> Writing ->
  let i := set_inp (rd s) (skipn (off s) (disk s)) in
  inv i' -> unread i = d ++ unread i' -> (length (inp i') <= length (inp i))%nat -> unget i' = skipn (length d) (unget i) ->
  (h = Reading \/ (h = AtEnd /\ unread i' = [])) ->
  R (AF (cont a) (pos a + (length d - length (pushed a))) (skipn (length d) (pushed a)) h)
    (FS (disk s) (off s + (length (inp i) - length (inp i'))) (app s) i' (wr s) (wcalls s)).
Proof.
  intros (I & SI & U & AP & M) PH i I' UR L UG H.
  assert (M' : wbuf (wr s) = [] /\ cont a = disk s /\ off s = (pos a + length (pend (rd s)))%nat /\
     pend (rd s) ++ skipn (off s) (disk s) = skipn (pos a) (disk s)).
  { destruct (ph a); try (destruct PH; reflexivity); destruct M as (A & B & C & D & _); auto. }
  clear M. destruct M' as (WB & CO & OF & PE).
  assert (UI : unread i = unget (rd s) ++ skipn (pos a) (disk s)) by (rewrite unread_eq; f_equal; exact PE).
  rewrite (unread_eq i'), UG in UR. cbn [set_inp unget i] in UG, UR.
  change (unget i) with (unget (rd s)) in UR, UG.
  assert (PP : pend i' ++ inp i' = skipn (pos a + (length d - length (pushed a))) (disk s)).
  { rewrite UI in UR. rewrite U. apply (f_equal (skipn (length d))) in UR.
    rewrite (skipn_app (length d) d), skipn_all, Nat.sub_diag in UR. cbn [skipn List.app] in UR.
    rewrite skipn_app in UR. apply app_inv_head in UR. rewrite skipn_plus in UR. symmetry. exact UR. }
  assert (LL : (length (pend (rd s)) + length (inp i) = (length d - length (pushed a)) + length (pend i') + length (inp i'))%nat).
  { rewrite UI in UR. apply (f_equal (@length Z)) in UR. rewrite !app_length, !skipn_length in UR.
    assert (LI : (length (pend (rd s)) + length (inp i) = length (disk s) - pos a)%nat).
    { rewrite <- (skipn_length (pos a)), <- PE, app_length. reflexivity. }
    rewrite U. lia. }
  assert (OO : (off s + (length (inp i) - length (inp i')) = pos a + (length d - length (pushed a)) + length (pend i'))%nat) by lia.
  split; [exact I'|]. split; [exact SI|]. split; [cbn [pushed rd]; rewrite UG, U; reflexivity|]. split; [exact AP|].
  cbn [ph cont pos pushed disk off rd wr].
  assert (G : wbuf (wr s) = [] /\ cont a = disk s /\ (off s + (length (inp i) - length (inp i')) = pos a + (length d - length (pushed a)) + length (pend i'))%nat /\
    pend i' ++ skipn (off s + (length (inp i) - length (inp i'))) (disk s) = skipn (pos a + (length d - length (pushed a))) (disk s)).
  { split; [exact WB|]. split; [exact CO|]. split; [exact OO|]. rewrite OO, <- skipn_plus, <- PP.
    rewrite skipn_app, skipn_all, Nat.sub_diag. reflexivity. }
  destruct G as (G1 & G2 & G3 & G4).
  destruct H as [->|(-> & UE)]; (split; [exact G1|]); (split; [exact G2|]); (split; [exact G3|]); (split; [exact G4|]).
  - intro X. destruct X. reflexivity.
  - intros _. rewrite unread_eq in UE. apply app_eq_nil in UE. destruct UE as (UE1 & UE2). apply app_eq_nil in UE2.
    split; [apply UE2|]. rewrite U, <- UG. exact UE1.
Qed.

Lemma nth_error_skipn {A} (l : list A) : forall p c e, skipn p l = c :: e -> nth_error l p = Some c.
Proof. induction l as [|x l IH]; intros [|p] c e H; cbn in *; try discriminate; [injection H as -> ->; reflexivity|eauto]. Qed.

Lemma inv_set s l : inv s -> inv (set_inp s l).
Proof. intro I. exact I. Qed.

Lemma step_ok a s o : R a s -> allowed (ph a) (pushed a) o -> no_cur (pushed a) o ->
  exists s' v a', f_exec k cap rorc worc s o = Ok (s', v) /\ astep a o v a' /\ R a' s'.
Proof.
  intros RR AL NC. destruct a as [F p u h]. pose proof RR as (I & SI & U & AP & M). cbn [cont pos pushed ph] in *. destruct o as [o|o|d w|].
  - (* reading *)
    set (i := set_inp (rd s) (skipn (off s) (disk s))).
    assert (UI : h <> Writing -> unread i = u ++ skipn (p) F).
    { intro PH. rewrite unread_eq, U. change (unget i) with (unget (rd s)). f_equal.
      change (pend i) with (pend (rd s)). cbn [i set_inp inp]. destruct h; try (destruct PH; reflexivity); destruct M as (_ & -> & _ & PE & _); exact PE. }
    destruct o as [|size n|c|x| |x|x]; cbn [allowed] in AL; try (destruct AL; fail).
    + (* getc *)
      cbn [f_exec]. unfold f_in. cbn [i_exec]. fold i.
      destruct (f_read_spec rorc i 1 I) as (i' & r & E & I' & _ & MM); [lia|]. rewrite E.
      destruct (f_read_more _ _ _ _ _ E) as (L & UG); [lia|]. cbn [bind].
      destruct r as [[|c d]|].
      * destruct MM as (UR & _ & HE). specialize (at_end _ _ (HE eq_refl)) as UE.
        eexists _, _, _. split; [reflexivity|].
        pose proof (f_in_spec (AF F p u h) s i' [] AtEnd RR AL I' UR L UG) as K. cbn [length skipn Nat.sub] in K. rewrite Nat.add_0_r in K.
        split; [|apply K; auto]. rewrite UE in UR. rewrite UI in UR by assumption.
        apply app_eq_nil in UR. destruct UR as (U1 & U2). cbn [cont pos pushed ph] in *. clear K. rewrite U1.
        apply s_getc_end. apply (f_equal (@length Z)) in U2. rewrite skipn_length in U2. cbn in U2. lia.
      * destruct MM as (UR & LD & _). destruct d as [|y d]; [|cbn in LD; lia].
        pose proof (f_in_spec (AF F p u h) s i' [c] Reading RR AL I' UR L UG) as K.
        eexists _, _, _. split; [reflexivity|]. split; [|apply K; auto].
        rewrite UI in UR by assumption. cbn [cont pos pushed ph] in *.
        destruct u as [|u0 u]; cbn [length Nat.sub skipn List.app] in *.
        -- rewrite Nat.add_comm. apply s_getc. eapply nth_error_skipn, UR.
        -- injection UR as -> _. rewrite Nat.add_0_r. apply s_getc_pushed.
      * destruct MM as (_ & HE). destruct (no_err _ _ HE).
    + (* fread *)
      cbn [f_exec]. unfold f_in. cbn [i_exec]. fold i.
      assert (G : exists i' d, (if ((size =? 0) || (n =? 0))%nat then Ok (i, (0, []))
         else ' r <- fread_loop (S (size * n)) rorc i (size * n) [] ;; (let (s0, got) := r in Ok (s0, (Z.of_nat (length got / size), got))))
         = Ok (i', (Z.of_nat (length d / size), d)) /\ inv i' /\ unread i = d ++ unread i' /\ (length (inp i') <= length (inp i))%nat /\
         unget i' = skipn (length d) (unget i) /\ (length d <= size * n)%nat /\ ((length d < size * n)%nat -> unread i' = [])).
      { destruct (Nat.eqb_spec size 0) as [->|NS]; cbn [orb].
        - exists i, []. cbn [length skipn Nat.mul]. repeat split; auto; try lia; apply I.
        - destruct (Nat.eqb_spec n 0) as [->|NN].
          + exists i, []. rewrite Nat.div_0_l by lia. cbn [length skipn]. repeat split; auto; try lia; apply I.
          + destruct (fread_loop_spec rorc (size * n) (S (size * n)) i [] I) as (i' & d & E & I' & _ & UR & LD & HE); [cbn; lia|cbn; lia|].
            rewrite E. destruct (fread_more _ _ _ _ _ _ _ E) as (L & d' & ED & UG). cbn [List.app] in *. subst d'.
            exists i', d. split; [reflexivity|]. split; [exact I'|]. split; [exact UR|]. split; [exact L|]. split; [exact UG|]. split; [exact LD|].
            intro SH. destruct (HE SH) as [X|X]; [destruct (no_err _ _ X)|exact (at_end _ _ X)]. }
      destruct G as (i' & d & E & I' & UR & L & UG & LD & HE). rewrite E. cbn [bind].
      pose proof (f_in_spec (AF F p u h) s i' d (if (length d <? size * n)%nat then AtEnd else Reading) RR AL I' UR L UG) as K.
      eexists _, _, _. split; [reflexivity|].
      split; [|apply K; destruct (Nat.ltb_spec (length d) (size * n)) as [SH|SH]; [right; auto|left; reflexivity]].
      rewrite UI in UR by assumption. cbn [cont pos pushed ph] in *.
      apply s_fread with (e := unread i'); auto.
      rewrite UR, app_length. destruct (Nat.lt_ge_cases (length d) (size * n)) as [SH|SH].
      * rewrite (HE SH). cbn [length]. lia.
      * lia.
    + (* ungetc *)
      cbn [f_exec]. unfold f_in. cbn [i_exec bind]. fold i. eexists _, _, _. split; [reflexivity|].
      cbn [cont pos pushed ph] in *. split; [apply s_ungetc|].
      unfold R. cbn [ph cont pos pushed disk off rd wr app]. change (inp (set_unget i _)) with (inp i).
      rewrite Nat.sub_diag, Nat.add_0_r. change (pend (set_unget i _)) with (pend (rd s)).
      split; [exact I|]. split; [exact SI|]. split; [cbn [set_unget unget]; rewrite U; reflexivity|]. split; [exact AP|].
      destruct h; try (destruct AL; reflexivity); destruct M as (A & B & C & D & _); repeat split; auto; match goal with H : Reading <> Reading |- _ => destruct H; reflexivity end.
    + (* clearerr *)
      cbn [f_exec]. unfold f_in. cbn [i_exec bind]. fold i. eexists _, _, _. split; [reflexivity|].
      cbn [cont pos pushed ph] in *. split; [apply s_clearerr|].
      unfold R. cbn [ph cont pos pushed disk off rd wr app]. change (inp (set_flags i _)) with (inp i).
      rewrite Nat.sub_diag, Nat.add_0_r. change (pend (set_flags i _)) with (pend (rd s)).
      split; [exact I|]. split; [exact SI|]. split; [exact U|]. split; [exact AP|]. exact M.
  - (* writing *)
    assert (V : valid_op o) by (destruct o; try exact Logic.I; apply AL).
    destruct (f_out_spec s o SI V AP I) as (s' & E & SI' & AP' & I' & P' & U' & _ & _ & WA & LE & FL).
    cbn [f_exec]. rewrite E. cbn [bind]. eexists _, _.
    assert (DO : o = OpFlush \/ o <> OpFlush) by (destruct o; try (right; discriminate); left; reflexivity).
    destruct DO as [->|NF].
    + eexists. split; [reflexivity|]. cbn [cont pos pushed ph] in *. split; [apply s_flush|].
      specialize (FL eq_refl). rewrite FL in WA, LE. cbn [given write_at length] in WA, LE. rewrite app_nil_r in WA, LE. rewrite Nat.add_0_r in LE.
      unfold R. cbn [ph cont pos pushed]. rewrite P', U', FL, WA, LE.
      split; [exact I'|]. split; [exact SI'|]. split; [exact U|]. split; [exact AP'|].
      destruct h.
      * destruct M as (WB & B & C & D & X). rewrite WB. cbn [write_at length]. rewrite Nat.add_0_r. auto.
      * destruct M as (WB & B & C & D & X). rewrite WB. cbn [write_at length]. rewrite Nat.add_0_r. auto.
      * destruct M as (WB & B & C & D & X). rewrite WB. cbn [write_at length]. rewrite Nat.add_0_r. auto.
      * destruct M as (PE & UE & CO & PO). rewrite PE. cbn [length List.app]. rewrite <- PO, Nat.add_0_r.
        repeat split; auto.
    + assert (ALL : h <> Reading /\ u = []).
      { destruct o; try (destruct NF; reflexivity); cbn [allowed] in AL; tauto. }
      destruct ALL as (NR & PU). cbn [cont pos pushed ph] in *. rewrite PU in *.
      assert (G : F = write_at (disk s) (off s) (wbuf (wr s)) /\ p = (off s + length (wbuf (wr s)))%nat /\ pend (rd s) = []).
      { destruct h.
        - destruct M as (WB & B & C & D & X). destruct X as (X & _); [discriminate|]. rewrite WB, X in *. cbn [length write_at] in *.
          repeat split; auto; lia.
        - destruct NR; reflexivity.
        - destruct M as (WB & B & C & D & X). destruct X as (X & _); [discriminate|]. rewrite WB, X in *. cbn [length write_at] in *.
          repeat split; auto; lia.
        - destruct M as (X & _ & A & B). auto. }
      destruct G as (FF & PP & PE). eexists. split; [reflexivity|]. split; [apply s_write; [exact NF|apply wa_put]|].
      unfold R. cbn [ph cont pos pushed]. rewrite P', U'. split; [exact I'|]. split; [exact SI'|]. split; [exact U|]. split; [exact AP'|].
      split; [exact PE|]. split; [reflexivity|]. split.
      * rewrite WA, FF, PP. apply wa_app.
      * rewrite app_length in LE. lia.
  - (* seeking *)
    destruct (f_out_spec s OpFlush SI Logic.I AP I) as (s' & E & SI' & AP' & I' & P' & U' & RP & RS & WA & LE & FL).
    specialize (FL eq_refl). rewrite FL in WA, LE. cbn [given write_at length] in WA, LE. rewrite app_nil_r in WA, LE. rewrite Nat.add_0_r in LE.
    cbn [f_exec]. unfold fseek. rewrite E. cbn [bind success]. rewrite Z.eqb_refl.
    assert (G : F = disk s' /\ (off s' = p + length (pend (rd s)))%nat /\
       pend (rd s) ++ skipn (off s') (disk s') = skipn (p) (disk s') /\ (h <> Reading -> pend (rd s) = [] /\ u = [])).
    { rewrite WA, LE. destruct h.
      - destruct M as (WB & B & C & D & X). rewrite WB. cbn [write_at length]. rewrite Nat.add_0_r. auto.
      - destruct M as (WB & B & C & D & X). rewrite WB. cbn [write_at length]. rewrite Nat.add_0_r. auto.
      - destruct M as (WB & B & C & D & X). rewrite WB. cbn [write_at length]. rewrite Nat.add_0_r. auto.
      - destruct M as (PE & UE & CO & PO). rewrite PE. cbn [length List.app]. rewrite <- PO, Nat.add_0_r. auto. }
    destruct G as (CO & OF & PE & XX).
    set (t := match w with SEEK_SET => 0 | SEEK_CUR => tell (AF F p u h) | SEEK_END => Z.of_nat (length F) end + d).
    assert (LS : lseek s' (match w with SEEK_CUR => d - Z.of_nat (rsize (rd s) - rpos (rd s)) | _ => d end) w = if t <? 0 then None else Some (Z.to_nat t)).
    { unfold lseek, t. destruct w; try reflexivity.
      - cbn [no_cur] in NC. unfold tell. rewrite NC. cbn [length]. rewrite <- (pend_len (rd s) I), OF.
        replace (Z.of_nat (p + length (pend (rd s))) + (d - Z.of_nat (length (pend (rd s))))) with (Z.of_nat (p) - Z.of_nat 0 + d) by lia.
        reflexivity.
      - rewrite CO. reflexivity. }
    rewrite LS. destruct (Z.ltb_spec t 0) as [TN|TN]; cbn [bind].
    + eexists _, _, _. split; [reflexivity|]. split; [apply s_seek_bad with (t := t); auto; reflexivity|].
      unfold R. cbn [cont pos pushed ph] in *. rewrite P', U'. split; [exact I'|]. split; [exact SI'|]. split; [exact U|]. split; [exact AP'|].
      rewrite FL. cbn [write_at length]. destruct h.
      * auto.
      * auto.
      * auto.
      * destruct XX as (X1 & X2); [discriminate|]. rewrite X1 in *. cbn [length] in *. repeat split; auto; lia.
    + eexists _, _, _. split; [reflexivity|]. split; [apply s_seek with (t := t); auto; reflexivity|].
      unfold R. cbn [cont pos pushed ph disk off rd wr app] in *.
      split. { destruct I' as (A & B & C). unfold inv. cbn [rpos rsize rb arr]. repeat split; try lia; auto. }
      split; [exact (sinv_wr s' _ eq_refl SI')|]. split; [reflexivity|]. split; [exact AP'|].
      split; [exact FL|]. split; [exact CO|]. unfold pend. cbn [rsize rpos Nat.sub firstn length List.app]. rewrite Nat.add_0_r. auto.
  - (* ftell *)
    cbn [f_exec]. eexists _, _, _. split; [reflexivity|].
    assert (T : ftell s = tell (AF F p u h)).
    { unfold ftell, lseek. rewrite Z.add_0_r. destruct (Z.ltb_spec (Z.of_nat (off s)) 0); [lia|]. rewrite Nat2Z.id.
      rewrite <- (pend_len (rd s) I), <- U. unfold tell.
      destruct h; try (destruct M as (WB & _ & OF & _); rewrite WB, OF; cbn [length pos pushed]; lia).
      destruct M as (PE & _ & _ & PO). rewrite PE, PO. cbn [length pos pushed]. lia. }
    rewrite T. split; [apply s_tell|exact RR].
Qed.

Lemma run_ok : forall l a s, R a s -> allowed_run no_cur a l ->
  exists s' vs a', f_run k cap rorc worc s l = Ok (s', vs) /\ arun a l vs a' /\ R a' s'.
Proof.
  induction l as [|o l IH]; intros a s RR AL.
  - exists s, [], a. split; [reflexivity|]. split; [constructor|exact RR].
  - inversion AL as [|? ? ? A1 A2 A3]; subst. destruct (step_ok a s o RR A1 A2) as (s1 & v & a1 & E & ST & R1).
    destruct (IH a1 s1 R1 (A3 _ _ ST)) as (s2 & vs & a2 & E2 & AR & R2).
    exists s2, (v :: vs), a2. cbn [f_run]. rewrite E. cbn [bind]. rewrite E2. cbn [bind].
    split; [reflexivity|]. split; [econstructor; eassumption|exact R2].
Qed.

Lemma open_R F b : b <> Some [] -> R (AF F 0 [] Idle) (f_open F false b).
Proof.
  intro B. unfold R, f_open. cbn [rd wr app disk off ph cont pos pushed unget wbuf].
  split. { unfold inv. cbn [rpos rsize rb]. split; [lia|]. split; [lia|exact B]. }
  split. { unfold sinv'. apply (sinv_open k). }
  repeat split; reflexivity.
Qed.
Lemma fpos_run F b l : b <> Some [] -> allowed_run no_cur (AF F 0 [] Idle) l ->
  exists s vs a, f_run k cap rorc worc (f_open F false b) l = Ok (s, vs) /\ arun (AF F 0 [] Idle) l vs a /\
    (ph a <> Writing -> disk s = cont a).
Proof.
  intros B AL. destruct (run_ok l _ _ (open_R F b B) AL) as (s & vs & a & E & AR & RR).
  exists s, vs, a. split; [exact E|]. split; [exact AR|]. destruct RR as (_ & _ & _ & _ & M). intro H.
  destruct (ph a); try (destruct H; reflexivity); destruct M as (_ & -> & _); reflexivity.
Qed.
End run.

Lemma fseek_clears k cap rorc worc s d w s' l : f_exec k cap rorc worc s (FSeek d w) = Ok (s', (0, l)) ->
  Z.land (flags (rd s')) F_EOF = 0 /\ Z.land (flags (rd s')) F_ERR = 0 /\ unget (rd s') = [].
Proof.
  cbn [f_exec]. unfold fseek. destruct (f_out k cap worc s OpFlush) as [[s1 v]| | |] eqn:E; cbn [bind]; try discriminate.
  destruct (Z.eqb_spec v 0); cbn [bind]; [|intros X; discriminate].
  match goal with |- context [lseek ?a ?b ?c] => destruct (lseek a b c) end; cbn [bind]; intros X; [|discriminate].
  injection X as <- <-. cbn [rd flags unget]. rewrite <- !Z.land_assoc.
  change (Z.land (Z.lnot (Z.lor F_EOF F_ERR)) F_EOF) with 0. change (Z.land (Z.lnot (Z.lor F_EOF F_ERR)) F_ERR) with 0.
  rewrite Z.land_0_r. auto.
Qed.
