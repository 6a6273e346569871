(* Lemmas about Getdents_model. *)
From Verif Require Import Base Getdents_spec Getdents_model.

Lemma le_length n : forall v, length (le n v) = n.
Proof. induction n as [|n IH]; intros v; cbn; [reflexivity|]. rewrite IH. reflexivity. Qed.
Lemma of_le_le n : forall v, 0 <= v < 256 ^ Z.of_nat n -> of_le (le n v) = v.
Proof.
  induction n as [|n IH]; intros v L; [cbn in *; lia|]. cbn [le of_le]. rewrite Nat2Z.inj_succ, Z.pow_succ_r in L by lia.
  rewrite IH by (split; [apply Z.div_pos; lia|apply Z.div_lt_upper_bound; lia]). pose proof (Z.div_mod v 256 ltac:(lia)). lia.
Qed.
Lemma encode_length e : length (encode e) = (20 + length (ename e))%nat.
Proof. unfold encode. rewrite !app_length, !le_length. cbn. lia. Qed.
Lemma encode_len e : len (encode e) = 20 + len (ename e).
Proof. unfold len. rewrite encode_length. lia. Qed.
Lemma slice_at a n x y z : length x = a -> length y = n -> slice (x ++ y ++ z) a n = y.
Proof.
  intros A B. unfold slice. rewrite skipn_app, (skipn_all2 x) by lia. rewrite A, Nat.sub_diag. cbn [skipn app].
  rewrite firstn_app, B, Nat.sub_diag, firstn_O, app_nil_r. apply firstn_all2. lia.
Qed.
Lemma dent_ok e r : good e -> dent_reclen_offset (encode e ++ r) = Some (20 + len (ename e), next e).
Proof.
  intros [N L]. pose proof (len_nonneg (ename e)) as P. unfold dent_reclen_offset.
  destruct (Nat.ltb_spec (length (encode e ++ r)) 19) as [H|_]; [rewrite app_length, encode_length in H; lia|].
  assert (S1 : slice (encode e ++ r) 16 2 = le 2 (20 + len (ename e))).
  { unfold encode. rewrite <- !app_assoc. rewrite (app_assoc (le 8 (ino e))). apply slice_at; [rewrite app_length, !le_length; reflexivity|apply le_length]. }
  assert (S2 : slice (encode e ++ r) 8 8 = le 8 (next e)).
  { unfold encode. rewrite <- !app_assoc. apply slice_at; apply le_length. }
  rewrite S1, S2, !of_le_le.
  - destruct (Z.eqb_spec (20 + len (ename e)) 0); [lia|].
    assert (T : nth_error (encode e ++ r) (Z.to_nat (20 + len (ename e) - 1)) = Some 0).
    { rewrite nth_error_app1 by (rewrite encode_length; unfold len; lia). unfold encode. rewrite !app_assoc.
      rewrite nth_error_app2; [|rewrite !app_length, !le_length; cbn; unfold len; lia].
      rewrite !app_length, !le_length. replace (Z.to_nat (20 + len (ename e) - 1) - _)%nat with 0%nat by (cbn; unfold len; lia). reflexivity. }
    rewrite T. reflexivity.
  - change (256 ^ Z.of_nat 8) with 18446744073709551616. lia.
  - change (256 ^ Z.of_nat 2) with 65536. lia.
Qed.
Lemma encoded_app a b : encoded (a ++ b) = encoded a ++ encoded b.
Proof. unfold encoded. rewrite map_app, concat_app. reflexivity. Qed.
Lemma encoded_cons e es : encoded (e :: es) = encode e ++ encoded es. Proof. reflexivity. Qed.
Definition final_pos (p : Z) (es : list ent) : Z := match rev es with [] => p | e :: _ => next e end.
Lemma final_cons p e es : final_pos p (e :: es) = final_pos (next e) es.
Proof. unfold final_pos. cbn [rev]. destruct (rev es); reflexivity. Qed.
Lemma scan_ok tail : forall es done fuel p, Forall good es -> (length (encoded es) < fuel)%nat ->
  scan fuel ((done ++ encoded es) ++ tail) (len (done ++ encoded es)) (len done) p = Ok (Some (final_pos p es)).
Proof.
  induction es as [|e es IH]; intros done fuel p G F; (destruct fuel as [|fuel]; [lia|]); cbn [scan].
  - cbn [encoded map concat]. rewrite app_nil_r, Z.ltb_irrefl. reflexivity.
  - pose proof (Forall_inv G) as G1. pose proof (len_nonneg (ename e)) as P. pose proof (len_nonneg (encoded es)) as P2.
    rewrite encoded_cons in *. destruct (Z.ltb_spec (len done) (len (done ++ encode e ++ encoded es))) as [_|H]; [|rewrite !len_app, encode_len in H; lia].
    replace (Z.to_nat (len done)) with (length done) by (unfold len; lia). rewrite <- (app_assoc done). rewrite skipn_app, (skipn_all2 done), Nat.sub_diag by lia. cbn [skipn app]. rewrite <- (app_assoc (encode e)).
    rewrite (dent_ok e _ G1). destruct (Z.eqb_spec (20 + len (ename e)) 0); [lia|].
    rewrite !app_assoc. replace (len done + (20 + len (ename e))) with (len (done ++ encode e)) by (rewrite len_app, encode_len; lia).
    rewrite IH; [rewrite final_cons; reflexivity|exact (Forall_inv_tail G)|rewrite app_length, encode_length in F; lia].
Qed.
Lemma getdents_ok tail p es : Forall good es -> es <> [] -> posix_getdents p (inl (encoded es)) tail None = Ok (inl (encoded es), final_pos p es).
Proof.
  intros G N. unfold posix_getdents. pose proof (scan_ok tail es [] (S (length (encoded es))) p G ltac:(lia)) as H. cbn [app] in H. change (len []) with 0 in H.
  assert (L : 0 < len (encoded es)).
  { destruct es as [|e es]; [contradiction|]. rewrite encoded_cons, len_app, encode_len. pose proof (len_nonneg (ename e)). pose proof (len_nonneg (encoded es)). lia. }
  destruct (Z.eqb_spec (len (encoded es)) 0); [lia|]. rewrite H. cbn [bind].
  assert (B : 0 <= final_pos p es < 9223372036854775808).
  { unfold final_pos. destruct (rev es) as [|e r] eqn:R; [apply (f_equal (@rev ent)) in R; rewrite rev_involutive in R; contradiction|].
    assert (I : In e es) by (apply in_rev; rewrite R; left; reflexivity). rewrite Forall_forall in G. apply (G e I). }
  destruct (Z.ltb_spec (final_pos p es) 9223372036854775808); [|lia]. destruct (Z.ltb_spec (final_pos p es) 0); [lia|]. reflexivity.
Qed.

(* the kernel gives the records after the position, at least one if there are any *)
Definition kernel_ok (dir : list ent) (kernel : Z -> nat -> list Z + Z) : Prop :=
  forall past rest p c, dir = past ++ rest -> position past p ->
    exists es more, rest = es ++ more /\ kernel p c = inl (encoded es) /\ (rest <> [] -> es <> []).
Lemma position_final past p es : position past p -> position (past ++ es) (final_pos p es).
Proof. unfold position, final_pos. rewrite rev_app_distr. destruct (rev es) as [|e r]; cbn [app]; [auto|intros _; reflexivity]. Qed.
Lemma read_all_ok dir kernel tail : kernel_ok dir kernel -> Forall good dir -> forall counts past rest p,
  dir = past ++ rest -> position past p -> (length rest < length counts)%nat -> read_all kernel tail counts p = Ok (encoded rest).
Proof.
  intros K G. induction counts as [|c counts IH]; intros past rest p D P L; [cbn in L; lia|]. cbn [read_all].
  destruct (K past rest p c D P) as (es & more & R & E & N). rewrite E. destruct rest as [|x rest'].
  - symmetry in R. apply app_eq_nil in R. destruct R as [-> _]. reflexivity.
  - specialize (N ltac:(discriminate)). rewrite R in *. clear x rest' R.
    assert (GE : Forall good es) by (rewrite D in G; apply Forall_app in G; destruct G as [_ G]; apply Forall_app in G; apply G).
    rewrite (getdents_ok tail p es GE N). cbn [bind]. rewrite encoded_app.
    destruct (encoded es) as [|b bs] eqn:B.
    { exfalso. destruct es as [|e es]; [contradiction|]. rewrite encoded_cons in B. apply (f_equal (@length Z)) in B. rewrite app_length, encode_length in B. cbn in B. lia. }
    rewrite (IH (past ++ es) more).
    + reflexivity.
    + rewrite <- app_assoc. exact D.
    + apply position_final, P.
    + cbn [length] in L. rewrite app_length in L. destruct es; [contradiction|]. cbn [length] in L. lia.
Qed.
Lemma getdents_err pos g tail l r pos' : posix_getdents pos g tail l = Ok (inr r, pos') -> pos' = pos.
Proof.
  unfold posix_getdents. destruct g as [buf|e]; [|intros H; injection H as _ <-; reflexivity].
  destruct (len buf =? 0); [discriminate|]. destruct (scan _ _ _ 0 pos) as [[n|]| | |]; cbn [bind]; try discriminate; [|intros H; injection H as _ <-; reflexivity].
  destruct (_ <? 0); [intros H; injection H as _ <-; reflexivity|]. destruct l; [intros H; injection H as _ <-; reflexivity|discriminate].
Qed.
(* no answer of the kernel makes it run on or fault *)
Lemma dent_pos d r n : dent_reclen_offset d = Some (r, n) -> Forall is_byte d -> 0 < r <= len d.
Proof.
  unfold dent_reclen_offset. intros H B. destruct (length d <? 19)%nat; [discriminate|]. set (v := of_le (slice d 16 2)) in *.
  destruct (Z.eqb_spec v 0); [discriminate|]. destruct (nth_error d (Z.to_nat (v - 1))) as [x|] eqn:E; [|discriminate].
  assert (V : 0 <= v).
  { unfold v, slice. assert (Q : Forall is_byte (firstn 2 (skipn 16 d))).
    { apply Forall_forall. intros y Hy. rewrite Forall_forall in B. apply B. rewrite <- (firstn_skipn 16 d). apply in_or_app. right.
      rewrite <- (firstn_skipn 2 (skipn 16 d)). apply in_or_app. left. exact Hy. }
    induction Q as [|y l Y _ IH]; cbn [of_le]; [lia|]. unfold is_byte in Y. lia. }
  assert (L : (Z.to_nat (v - 1) < length d)%nat) by (apply nth_error_Some; rewrite E; discriminate).
  assert (v = r) by (destruct x; try discriminate; injection H as <- _; reflexivity). subst r. unfold len. lia.
Qed.
Lemma scan_total n : forall fuel buf done p, Forall is_byte buf -> 0 <= done -> (Z.to_nat (n - done) < fuel)%nat ->
  exists r, scan fuel buf n done p = Ok r.
Proof.
  induction fuel as [|fuel IH]; intros buf done p B D F; [lia|]. cbn [scan]. destruct (Z.ltb_spec done n); [|eexists; reflexivity].
  destruct (dent_reclen_offset (skipn (Z.to_nat done) buf)) as [[r o]|] eqn:E; [|eexists; reflexivity].
  assert (BS : Forall is_byte (skipn (Z.to_nat done) buf)).
  { apply Forall_forall. intros y Hy. rewrite Forall_forall in B. apply B. rewrite <- (firstn_skipn (Z.to_nat done) buf). apply in_or_app. right. exact Hy. }
  pose proof (dent_pos _ _ _ E BS) as P. destruct (Z.eqb_spec r 0); [lia|]. apply IH; [exact B| |]; lia.
Qed.
Lemma getdents_total pos g tail l : match g with inl buf => Forall is_byte (buf ++ tail) | inr _ => True end -> exists r, posix_getdents pos g tail l = Ok r.
Proof.
  intros B. unfold posix_getdents. destruct g as [buf|e]; [|eexists; reflexivity]. destruct (len buf =? 0); [eexists; reflexivity|].
  destruct (scan_total (len buf) (S (length buf)) (buf ++ tail) 0 pos B) as [r E]; [lia|unfold len; lia|]. rewrite E. cbn [bind].
  destruct r; [|eexists; reflexivity]. destruct (_ <? 0); [eexists; reflexivity|]. destruct l; eexists; reflexivity.
Qed.

(* two entries, given one at a time *)
Definition eg_dir : list ent := [E 5 17 4 [97]; E 6 33 8 [98; 99]].
Definition eg_kernel (p : Z) (_ : nat) : list Z + Z :=
  if p =? 0 then inl (encoded [E 5 17 4 [97]]) else if p =? 17 then inl (encoded [E 6 33 8 [98; 99]]) else inl [].
Lemma eg_ok : kernel_ok eg_dir eg_kernel.
Proof.
  intros past rest p c D P. unfold eg_dir in D. destruct past as [|a [|b [|d past]]]; cbn in D, P.
  - subst. exists [E 5 17 4 [97]], [E 6 33 8 [98; 99]]. split; [reflexivity|]. split; [reflexivity|discriminate].
  - injection D as <- <-. cbn in P. subst. exists [E 6 33 8 [98; 99]], []. split; [reflexivity|]. split; [reflexivity|discriminate].
  - injection D as <- <- <-. cbn in P. subst. exists [], []. split; [reflexivity|]. split; [reflexivity|congruence].
  - discriminate.
Qed.
