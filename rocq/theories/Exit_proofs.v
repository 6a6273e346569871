From Verif Require Import Base Exit_model.

Lemma register_ok fs : forall k f, register (map Some fs ++ repeat None k) f =
  match k with O => (map Some fs, 1) | S k' => (map Some (fs ++ [f]) ++ repeat None k', 0) end.
Proof.
  induction fs as [|g fs IH]; intros k f; cbn [map app register].
  - destruct k as [|k]; reflexivity.
  - rewrite IH. destruct k; reflexivity.
Qed.

Lemma register_all_ok new : forall fs k,
  register_all (map Some fs ++ repeat None k) new =
  (map Some (fs ++ firstn k new) ++ repeat None (k - length new), repeat 0 (min k (length new)) ++ repeat 1 (length new - k)).
Proof.
  induction new as [|f new IH]; intros fs k; cbn [register_all length].
  - rewrite firstn_nil, app_nil_r, Nat.sub_0_r, Nat.min_0_r. reflexivity.
  - rewrite register_ok. destruct k as [|k].
    + specialize (IH fs 0%nat). cbn [repeat] in IH. rewrite app_nil_r in IH. rewrite IH.
      cbn [firstn Nat.sub Nat.min repeat app]. rewrite !app_nil_r, Nat.sub_0_r. reflexivity.
    + rewrite IH. cbn [firstn Nat.min Nat.sub repeat app]. rewrite <- app_assoc. reflexivity.
Qed.

Lemma nth_some (fs : list Z) k i : nth i (map Some fs ++ repeat None k) None = nth_error fs i.
Proof.
  revert i; induction fs as [|f fs IH]; intros i; cbn [map app].
  - transitivity (@None Z); [|destruct i; reflexivity]. revert i; induction k as [|k IHk]; intros [|i]; cbn; auto.
  - destruct i as [|i]; cbn [nth nth_error]; auto.
Qed.

Lemma run_handlers_ok body i : forall fs k log regs,
  fst (run_handlers i (map Some fs ++ repeat None k) body log regs) = log ++ rev (firstn i fs).
Proof.
  induction i as [|i IH]; intros fs k log regs; cbn [run_handlers].
  - cbn. rewrite app_nil_r. reflexivity.
  - rewrite nth_some. destruct (nth_error fs i) as [f|] eqn:E.
    + rewrite register_all_ok. rewrite IH. assert (i < length fs)%nat by (apply nth_error_Some; congruence).
      rewrite firstn_app. replace (i - length fs)%nat with 0%nat by lia. rewrite firstn_O, app_nil_r.
      assert (S0 : firstn (S i) fs = firstn i fs ++ [f]).
      { clear IH. revert fs E H. induction i as [|i IH2]; intros [|g fs] E H; cbn in *; try lia; [injection E as ->; reflexivity|].
        rewrite <- IH2; auto; lia. }
      rewrite S0, rev_app_distr. cbn [rev app]. rewrite <- app_assoc. reflexivity.
    + rewrite IH. apply nth_error_None in E. rewrite !firstn_all2 by lia. reflexivity.
Qed.

Lemma atexit_results fs : snd (register_all empty_table fs) = repeat 0 (min 32 (length fs)) ++ repeat 1 (length fs - 32).
Proof. exact (f_equal snd (register_all_ok fs [] 32)). Qed.

Lemma exit_ok fs body : fst (exit (fst (register_all empty_table fs)) body) = rev (firstn 32 fs).
Proof.
  unfold exit. change empty_table with (map Some (@nil Z) ++ repeat None 32). rewrite register_all_ok. cbn [fst app].
  rewrite run_handlers_ok. cbn [app]. rewrite firstn_firstn. reflexivity.
Qed.
