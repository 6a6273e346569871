(* Lemmas for C163. *)
From Verif Require Import Base Getgroups_model Getgroups_spec.

Lemma same_eq : forall a b, same a b = true <-> a = b.
Proof.
  induction a as [|x a IH]; intros [|y b]; cbn [same]; split; intro H; try reflexivity; try discriminate.
  - apply andb_true_iff in H as [H1 H2]. apply Z.eqb_eq in H1. apply IH in H2. congruence.
  - injection H as -> ->. rewrite Z.eqb_refl. cbn. apply IH. reflexivity.
Qed.
Lemma found_in user : forall ms, found user ms = true <-> In user ms.
Proof.
  induction ms as [|x ms IH]; cbn [found In]; [split; [discriminate|tauto]|]. destruct (same x user) eqn:E; [apply same_eq in E; tauto|]. rewrite IH. split; [tauto|]. intros [->|H]; [|exact H].
  exfalso. assert (same user user = true) by (apply same_eq; reflexivity). congruence.
Qed.
Lemma write_length v : forall l i, List.length (write l i v) = List.length l.
Proof. induction l as [|x l IH]; intros [|i]; cbn [write List.length]; [reflexivity|reflexivity|reflexivity|]. rewrite IH. reflexivity. Qed.
Lemma write_app v : forall a x l, write (a ++ x :: l) (List.length a) v = a ++ v :: l.
Proof. induction a as [|y a IH]; intros x l; cbn [app write List.length]; [reflexivity|]. rewrite IH. reflexivity. Qed.
(* done: the ids found, as far as there is room *)
Definition state (cells0 done : list Z) : list Z := firstn (List.length cells0) (done ++ skipn (List.length done) cells0).
Lemma state_length c d : List.length (state c d) = List.length c.
Proof.
  unfold state. rewrite firstn_length, app_length, skipn_length. lia.
Qed.
Lemma state_write c d g : (List.length d < List.length c)%nat -> write (state c d) (List.length d) g = state c (d ++ [g]).
Proof.
  intro H. unfold state. rewrite !firstn_all2 by (rewrite !app_length, !skipn_length; try rewrite app_length; cbn [List.length]; lia).
  destruct (skipn (List.length d) c) as [|x r] eqn:E; [pose proof (f_equal (@List.length Z) E) as L; rewrite skipn_length in L; cbn in L; lia|]. rewrite write_app, <- app_assoc. cbn [app]. f_equal. f_equal.
  rewrite app_length. cbn [List.length]. rewrite Nat.add_comm. change (1 + List.length d)%nat with (S (List.length d)). symmetry. clear H. revert d E. induction c as [|y c IH]; intros d E; [rewrite skipn_nil in E; discriminate|].
  destruct d as [|z d]; cbn [List.length skipn] in *; [congruence|]. apply IH. exact E.
Qed.
Lemma state_full c d g : (List.length c <= List.length d)%nat -> state c (d ++ [g]) = state c d.
Proof.
  intro H. unfold state. rewrite <- !app_assoc. rewrite !firstn_app. replace (List.length c - List.length d)%nat with 0%nat by lia. cbn [firstn]. reflexivity.
Qed.
Lemma scan_ok file user c : forall l gids, groups_of user l gids -> all_entries l -> forall fuel d, (List.length l < fuel)%nat ->
  scan fuel file (Some l) user (state c d) (List.length d) = Ok (Some [], state c (d ++ gids), (List.length (d ++ gids))).
Proof.
  induction 1 as [|g ms l r M G IH|g ms l r M G IH|l r G IH]; intros B fuel d F; (destruct fuel as [|fuel]; [cbn in F; lia|]); cbn [scan getgrent].
  - rewrite app_nil_r. reflexivity.
  - apply found_in in M. rewrite M. assert (X : (if negb (len (state c d) =? 0) && (Z.of_nat (List.length d) <? len (state c d)) then write (state c d) (List.length d) g else state c d) = state c (d ++ [g])).
    { unfold len. rewrite state_length. destruct (Z.of_nat (List.length d) <? Z.of_nat (List.length c)) eqn:E.
      - apply Z.ltb_lt in E. replace (Z.of_nat (List.length c) =? 0) with false by (symmetry; apply Z.eqb_neq; lia). cbn [negb andb]. apply state_write. lia.
      - apply Z.ltb_ge in E. rewrite andb_false_r. symmetry. apply state_full. lia. }
    rewrite X. replace (S (List.length d)) with (List.length (d ++ [g])) by (rewrite app_length; cbn; lia). rewrite IH; [|intro; apply B; right; assumption|cbn in F; lia].
    rewrite <- app_assoc. reflexivity.
  - destruct (found user ms) eqn:E; [apply found_in in E; contradiction|]. apply IH; [intro; apply B; right; assumption|cbn in F; lia].
  - destruct B. left. reflexivity.
Qed.
Lemma state_nil c : state c [] = c. Proof. unfold state. cbn [app List.length skipn]. apply firstn_all. Qed.
Lemma getgroups_ok passwd euid user l gids r cells fuel : passwd euid = Some user -> groups_of user l gids -> all_entries l -> (List.length l < fuel)%nat ->
  exists cells', getgroups fuel passwd euid (Some l) r (len cells) cells = Ok (None, cells', answer gids (len cells)) /\ List.length cells' = List.length cells /\
    (forall k, answer gids (len cells) = inl k -> cells' = filled gids cells).
Proof.
  intros U G B F. exists (state cells gids). split; [|split; [apply state_length|]].
  - unfold getgroups. pose proof (len_nonneg cells). replace (len cells <? 0) with false by (symmetry; apply Z.ltb_ge; lia). rewrite U. cbn [setgrent].
    pose proof (scan_ok (Some l) user cells l gids G B fuel [] F) as S. rewrite state_nil in S. cbn [List.length app] in S. rewrite S. cbn [bind]. unfold len at 1 2. rewrite state_length. fold (len cells). fold (len gids). unfold endgrent, answer.
    destruct (len cells =? 0) eqn:Z0; cbn [negb andb orb]; [reflexivity|]. destruct (Z.leb_spec (len gids) (len cells)), (Z.ltb_spec (len cells) (len gids)); try lia; reflexivity.
  - intros k K. unfold answer in K. destruct cells as [|x cells]; [reflexivity|]. destruct ((len (x :: cells) =? 0) || (len gids <=? len (x :: cells))) eqn:E; [|discriminate].
    assert (L : (List.length gids <= List.length (x :: cells))%nat).
    { apply orb_true_iff in E as [E|E]; [apply Z.eqb_eq in E; rewrite len_cons in E; pose proof (len_nonneg cells); lia|]. apply Z.leb_le in E. unfold len in E. lia. }
    unfold filled, state. apply firstn_all2. rewrite app_length, skipn_length. lia.
Qed.
