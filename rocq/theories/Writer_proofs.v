From Verif Require Import Base Utf8_model Utf8_proofs Writer_model.

Lemma stored_overwrite m m' m'' a l x k : stored m m' a (l ++ [x]) -> k <> [] ->
  stored m' m'' (a + len l) k -> stored m m'' a (l ++ k).
Proof.
  intros [H1 H2] Hk [H3 H4]. pose proof (len_nonneg l). apply bytes_at_app in H1. destruct H1 as [H1 _].
  assert (1 <= len k) by (destruct k; [congruence|]; rewrite len_cons; pose proof (len_nonneg k); lia). split.
  - apply bytes_at_app. split; [|exact H3]. eapply bytes_at_ext; [|exact H1]. intros y Hy. apply H4. lia.
  - intros y Hy. rewrite len_app in Hy. rewrite H4 by lia. apply H2. rewrite len_app, len_cons. cbv [len length Z.of_nat] in *. lia.
Qed.
Lemma len_firstn {A} n (l : list A) : len (firstn n l) = Z.min (Z.of_nat n) (len l).
Proof. unfold len. rewrite firstn_length. lia. Qed.
Lemma sw_write_ok m p n buf : 1 < n -> mapped m p n ->
  let k := firstn (Z.to_nat (n - 1)) buf in
  exists m', sw_write m (p, n) buf = Ok (m', (p + len k, n - len k)) /\ stored m m' p (k ++ [0]) /\ 0 <= len k <= n - 1.
Proof.
  intros Hn Hm k. unfold sw_write. replace (1 <? n) with true by lia.
  assert (Ek : firstn (Z.to_nat (Z.min (len buf) (n - 1))) buf = k).
  { subst k. destruct (Z_le_dec (len buf) (n - 1)).
    - rewrite Z.min_l by lia. unfold len in *. rewrite !firstn_all2; [reflexivity|lia|lia].
    - rewrite Z.min_r by lia. reflexivity. }
  assert (Lk : len k = Z.min (len buf) (n - 1)) by (subst k; rewrite len_firstn; pose proof (len_nonneg buf); lia).
  rewrite Ek. rewrite <- Lk. pose proof (len_nonneg k). pose proof (len_nonneg buf).
  destruct (st_list_ok k m p) as [m1 [E1 S1]]; [eapply mapped_sub; [exact Hm|lia|lia]|]. rewrite E1. cbn [bind].
  assert (Hx : exists b, m1 (p + len k) = Some b) by (eapply stored_mapped in Hm; [apply Hm|exact S1]; lia).
  rewrite (st_ok _ _ _ Hx). cbn [bind]. eexists. split; [reflexivity|]. split; [eapply stored_snoc; [exact S1|reflexivity]|lia].
Qed.

Definition WRAP : Z := 18446744073709551616.

Lemma cw_write_small pieces : forall m p n wr, n <= 1 -> 0 <= wr ->
  wr + len (concat pieces) < WRAP -> cw_write_all m (p, n) wr pieces = Ok (m, wr + len (concat pieces)).
Proof.
  induction pieces as [|b pieces IH]; intros m p n wr Hn Hwr Hs; cbn [cw_write_all concat] in *.
  - rewrite len_nil, Z.add_0_r. reflexivity.
  - rewrite len_app in Hs |- *. pose proof (len_nonneg b). pose proof (len_nonneg (concat pieces)). unfold sw_write. replace (1 <? n) with false by lia. cbn [bind].
    unfold WRAP in *. rewrite Z.mod_small by lia. rewrite IH by lia. do 2 f_equal. lia.
Qed.

Lemma cw_write_ok pieces : forall m0 m s n o wr, 1 < n -> mapped m0 s n -> 0 <= wr ->
  stored m0 m s (firstn (Z.to_nat (n - 1)) o ++ [0]) ->
  wr + len (concat pieces) < WRAP ->
  exists m', cw_write_all m (s + len (firstn (Z.to_nat (n - 1)) o), n - len (firstn (Z.to_nat (n - 1)) o)) wr pieces = Ok (m', wr + len (concat pieces)) /\
    stored m0 m' s (firstn (Z.to_nat (n - 1)) (o ++ concat pieces) ++ [0]).
Proof.
  induction pieces as [|b pieces IH]; intros m0 m s n o wr Hn Hm Hwr S Hs; cbn [cw_write_all concat] in *.
  - exists m. rewrite len_nil, Z.add_0_r, app_nil_r. auto.
  - rewrite len_app in Hs |- *. pose proof (len_nonneg b). pose proof (len_nonneg (concat pieces)). pose proof (len_nonneg o).
    set (k := firstn (Z.to_nat (n - 1)) o) in *.
    assert (Lk : len k = Z.min (n - 1) (len o)) by (subst k; rewrite len_firstn; lia).
    assert (Next : exists m1, sw_write m (s + len k, n - len k) b = Ok (m1, (s + len (firstn (Z.to_nat (n - 1)) (o ++ b)), n - len (firstn (Z.to_nat (n - 1)) (o ++ b)))) /\
              stored m0 m1 s (firstn (Z.to_nat (n - 1)) (o ++ b) ++ [0])).
    { rewrite firstn_app. fold k. destruct (Z_lt_dec (len o) (n - 1)) as [L|L].
      - assert (Ek : k = o) by (subst k; apply firstn_all2; unfold len in L; lia).
        destruct (sw_write_ok m (s + len k) (n - len k) b) as [m1 [E1 [S1 L1]]]; [lia| |].
        { eapply mapped_sub; [eapply stored_mapped; [exact S|exact Hm]|lia|lia]. }
        replace (Z.to_nat (n - len k - 1)) with (Z.to_nat (n - 1) - length o)%nat in * by (rewrite Ek; unfold len; lia).
        exists m1. split; [rewrite E1, len_app; do 3 f_equal; lia|].
        rewrite <- app_assoc. eapply stored_overwrite; [exact S| |exact S1]. intros C. apply app_eq_nil in C. destruct C; discriminate.
      - assert (E0 : firstn (Z.to_nat (n - 1) - length o) b = []) by (replace (Z.to_nat (n - 1) - length o)%nat with O by (unfold len in L; lia); reflexivity).
        rewrite E0, app_nil_r. exists m. split; [|exact S]. unfold sw_write. replace (1 <? n - len k) with false by lia. reflexivity. }
    destruct Next as [m1 [E1 S1]]. rewrite E1. cbn [bind]. unfold WRAP in *. rewrite Z.mod_small by lia.
    destruct (IH m0 m1 s n (o ++ b) (wr + len b) Hn Hm ltac:(lia) S1 ltac:(lia)) as [m' [E' S']].
    exists m'. rewrite E'. split; [do 2 f_equal; lia|]. rewrite <- app_assoc in S'. exact S'.
Qed.

(** Writing a non-empty list of pieces into a buffer of [n] > 1 bytes. *)
Lemma cw_write_top pieces m s n : pieces <> [] -> 1 < n -> mapped m s n -> len (concat pieces) < WRAP ->
  exists m', cw_write_all m (s, n) 0 pieces = Ok (m', len (concat pieces)) /\
    stored m m' s (firstn (Z.to_nat (n - 1)) (concat pieces) ++ [0]).
Proof.
  destruct pieces as [|b pieces]; [congruence|]. intros _ Hn Hm Hs. cbn [cw_write_all concat] in *.
  rewrite len_app in Hs. pose proof (len_nonneg b). pose proof (len_nonneg (concat pieces)).
  destruct (sw_write_ok m s n b Hn Hm) as [m1 [E1 [S1 L1]]]. rewrite E1. cbn [bind]. unfold WRAP in *. rewrite Z.add_0_l, Z.mod_small by lia.
  destruct (cw_write_ok pieces m m1 s n b (len b) Hn Hm ltac:(lia) S1 ltac:(unfold WRAP; lia)) as [m' [E' S']].
  exists m'. rewrite E', len_app. auto.
Qed.

Lemma usw_ok pieces : forall m p, pieces <> [] -> mapped m p (len (concat pieces) + 1) ->
  exists m', usw_write_all m p pieces = Ok m' /\ stored m m' p (concat pieces ++ [0]).
Proof.
  induction pieces as [|b pieces IH]; intros m p Hne Hm; [congruence|]. cbn [usw_write_all concat] in *. rewrite len_app in Hm.
  pose proof (len_nonneg b). pose proof (len_nonneg (concat pieces)).
  destruct (st_list_ok b m p) as [m1 [E1 S1]]; [eapply mapped_sub; [exact Hm|lia|lia]|]. rewrite E1. cbn [bind].
  assert (Hx : exists v, m1 (p + len b) = Some v) by (eapply stored_mapped in Hm; [apply Hm|exact S1]; lia).
  rewrite (st_ok _ _ _ Hx). cbn [bind].
  assert (S2 : stored m (upd m1 (p + len b) 0) p (b ++ [0])) by (eapply stored_snoc; [exact S1|reflexivity]).
  destruct pieces as [|c pieces].
  - cbn [usw_write_all concat]. eexists. split; [reflexivity|]. rewrite app_nil_r. exact S2.
  - destruct (IH (upd m1 (p + len b) 0) (p + len b)) as [m' [E' S']]; [discriminate| |].
    { eapply mapped_sub; [eapply stored_mapped; [exact S2|exact Hm]|lia|lia]. }
    exists m'. split; [exact E'|]. rewrite <- app_assoc. eapply stored_overwrite; [exact S2| |exact S'].
    intros C. apply app_eq_nil in C. destruct C; discriminate.
Qed.
