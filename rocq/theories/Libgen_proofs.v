(* Proofs for C49. *)
From Verif Require Import Base String_model String_proofs Libgen_model Libgen_spec.

Lemma back_ok P lo k : forall fuel m path j, Forall (fun b => P b = true) k -> bytes_at m (path + j) k -> lo <= j ->
  (j = lo \/ exists b, m (path + (j - 1)) = Some b /\ P b = false) -> (length k < fuel)%nat ->
  back fuel m path (j + len k - 1) lo P = Ok (j - 1).
Proof.
  induction k as [|x k IH] using rev_ind; intros fuel m path j F B L S FU; (destruct fuel as [|f]; [lia|]); cbn [back].
  - change (len []) with 0. rewrite Z.add_0_r. destruct (Z.leb_spec lo (j - 1)); [|reflexivity].
    destruct S as [S|(b & E & S)]; [lia|]. rewrite (ld_ok _ _ _ E). cbn [bind]. rewrite S. reflexivity.
  - apply Forall_app in F. destruct F as (F & FX). inversion FX; subst. apply bytes_at_app in B. destruct B as (B & BX & _).
    rewrite len_app. change (len [x]) with 1. pose proof (len_nonneg k). rewrite app_length in FU. cbn [length] in FU.
    destruct (Z.leb_spec lo (j + (len k + 1) - 1)); [|lia].
    rewrite (ld_ok m _ x) by (rewrite <- BX; f_equal; lia). cbn [bind]. rewrite H1.
    replace (j + (len k + 1) - 1 - 1) with (j + len k - 1) by lia. apply IH; auto. lia.
Qed.

Lemma slash_split s : s <> [] -> slashes s \/ exists pre base tail, split_path s pre base tail.
Proof.
  assert (T : forall s : list Z, slashes s \/ exists q x t, s = q ++ x :: t /\ x <> 47 /\ slashes t).
  { induction s0 as [|x s0 IH] using rev_ind; [left; constructor|]. destruct (Z.eq_dec x 47) as [->|N].
    - destruct IH as [IH|(q & y & t & -> & Y & T)]; [left|right].
      + apply Forall_app. split; [exact IH|]. constructor; auto.
      + exists q, y, (t ++ [47]). split; [rewrite <- app_assoc; reflexivity|]. split; [exact Y|]. apply Forall_app. split; [exact T|]. constructor; auto.
    - right. exists s0, x, []. split; [reflexivity|]. split; [exact N|constructor]. }
  assert (B : forall q : list Z, exists a b, q = a ++ b /\ ~ In 47 b /\ (a = [] \/ exists r, a = r ++ [47])).
  { induction q as [|x q IH] using rev_ind; [exists [], []; cbn; auto|]. destruct (Z.eq_dec x 47) as [->|N].
    - exists (q ++ [47]), []. split; [rewrite app_nil_r; reflexivity|]. split; [auto|]. right. eauto.
    - destruct IH as (a & b & -> & NB & A). exists a, (b ++ [x]). split; [rewrite app_assoc; reflexivity|]. split; [|exact A].
      rewrite in_app_iff. cbn. intuition congruence. }
  intro N. destruct (T s) as [H|(q & x & t & -> & X & H)]; [auto|right]. destruct (B q) as (a & b & -> & NB & A).
  exists a, (b ++ [x]), t. split; [rewrite <- !app_assoc; reflexivity|]. split; [destruct b; discriminate|].
  split; [rewrite in_app_iff; cbn; intuition congruence|]. auto.
Qed.
Lemma slash_tail (pre : list Z) : pre <> [] -> (exists q, pre = q ++ [47]) ->
  slashes pre \/ exists dir mid, pre = dir ++ mid /\ dir <> [] /\ last dir 0 <> 47 /\ mid <> [] /\ slashes mid.
Proof.
  intros N (q & ->). clear N. induction q as [|x q IH] using rev_ind; [left; repeat constructor|].
  destruct (Z.eq_dec x 47) as [->|X].
  - destruct IH as [IH|(dir & mid & E & D & L & M & S)]; [left; apply Forall_app; split; [exact IH|constructor; auto]|right].
    exists dir, (mid ++ [47]). split; [rewrite E, app_assoc; reflexivity|]. split; [exact D|]. split; [exact L|].
    split; [destruct mid; discriminate|]. apply Forall_app; split; [exact S|constructor; auto].
  - right. exists (q ++ [x]), [47]. split; [reflexivity|]. split; [destruct q; discriminate|]. split; [rewrite last_last; exact X|].
    split; [discriminate|]. constructor; auto.
Qed.
(* Every path is covered. *)
Lemma basename_total s : exists x, basename_of s x.
Proof.
  destruct s as [|c s]; [eexists; constructor|]. destruct (slash_split (c :: s)) as [H|(p & b & t & H)]; [discriminate| |];
    eexists; [apply b_root; [discriminate|exact H]|eapply b_base; exact H].
Qed.
Lemma dirname_total s : exists x, dirname_of s x.
Proof.
  destruct s as [|c s]; [eexists; constructor|]. destruct (slash_split (c :: s)) as [H|(p & b & t & H)]; [discriminate|eexists; apply d_root; [discriminate|exact H]|].
  pose proof H as (_ & _ & _ & _ & [->|P]); [eexists; eapply d_none; exact H|].
  destruct (slash_tail p) as [S|(d & mi & -> & D & L & M & S)]; [destruct P as (q & ->); destruct q; discriminate|exact P| |].
  - eexists. eapply d_top; [exact H| |exact S]. destruct P as (q & ->). destruct q; discriminate.
  - eexists. eapply d_dir; eauto.
Qed.

Lemma slash_all k : slashes k -> Forall (fun b => slash b = true) k.
Proof. intro H. eapply Forall_impl; [|exact H]. intros a <-. reflexivity. Qed.
Lemma noslash_all k : ~ In 47 k -> Forall (fun b => noslash b = true) k.
Proof. intro H. apply Forall_forall. intros a A. unfold noslash. destruct (Z.eqb_spec a 47); [subst; contradiction|reflexivity]. Qed.
Lemma last_in {A} (l : list A) d : l <> [] -> exists q, l = q ++ [last l d].
Proof. intro H. exists (removelast l). apply app_removelast_last. exact H. Qed.

Section Call.
Variables (fuel : nat) (m : mem) (p : Z).

Lemma cut_str s t n : cstr m p (s ++ t) -> n = len s -> exists m', st m (p + n) 0 = Ok m' /\ stored m m' (p + n) [0] /\ cstr m' p s.
Proof.
  intros (C & B) ->. apply Forall_app in C. destruct C as (CS & CT).
  assert (MP : mapped m (p + len s) 1).
  { apply bytes_at_mapped in B. eapply mapped_sub; [exact B| |]; rewrite ?len_app; change (len [0]) with 1; pose proof (len_nonneg s); pose proof (len_nonneg t); lia. }
  destruct (MP (p + len s)) as (b & E); [lia|]. rewrite st_ok by eauto. eexists. split; [reflexivity|]. split.
  - split; [cbn; rewrite upd_same; auto|]. intros x X. change (len [0]) with 1 in X. apply upd_other. lia.
  - split; [exact CS|]. rewrite <- app_assoc in B. apply bytes_at_app in B. destruct B as (B & _). apply bytes_at_app. split.
    + apply bytes_at_upd_out; [lia|exact B].
    + cbn. rewrite upd_same. auto.
Qed.

(* the string after a prefix *)
Lemma sub_str m' a b : cstr m' p (a ++ b) -> cstr m' (p + len a) b.
Proof. intros (C & B). apply Forall_app in C. destruct C as (_ & C). rewrite <- app_assoc in B. apply bytes_at_app in B. split; [exact C|apply B]. Qed.

Lemma at_bytes a b c : cstr m p (a ++ b ++ c) -> bytes_at m (p + len a) b.
Proof. intro H. apply sub_str in H. apply cstr_bytes in H. apply bytes_at_app in H. apply H. Qed.
Lemma at_last a x c n : cstr m p ((a ++ [x]) ++ c) -> n = len a -> m (p + n) = Some x.
Proof. intros H ->. rewrite <- app_assoc in H. apply at_bytes in H. apply H. Qed.

(* The back-scan over the whole of k that follows a. *)
Lemma back_to P lo s a k c : cstr m p s -> s = a ++ k ++ c -> Forall (fun b => P b = true) k -> lo <= len a ->
  (len a = lo \/ exists q b, a = q ++ [b] /\ P b = false) -> (length s < fuel)%nat ->
  back fuel m p (len a + len k - 1) lo P = Ok (len a - 1).
Proof.
  intros H -> F L S FU. rewrite !app_length in FU. apply back_ok; auto; [eapply at_bytes; exact H| |lia].
  destruct S as [S|(q & b & -> & PB)]; [left; lia|right]. exists b. split; [|exact PB]. eapply at_last; [exact H|]. rewrite len_app. change (len [b]) with 1. lia.
Qed.

Lemma basename_ok s x : p <> NULL -> cstr m p s -> (length s < fuel)%nat -> basename_of s x ->
  exists m' r, basename fuel m p = Ok (m', r) /\ result_is m' r x /\ cut_inside m m' p (len s + 1).
Proof.
  intros NP C FU H. unfold basename. destruct (Z.eqb_spec p NULL); [contradiction|]. rewrite (strlen_ok s fuel m p NP C FU). cbn [bind].
  destruct (Z.eqb_spec (len s) 0) as [E0|N0].
  { destruct s as [|y s]; [|rewrite len_cons in E0; pose proof (len_nonneg s); lia].
    inversion H as [|? N _|? pre base tail (E & BN & _)]; subst; [|congruence|].
    - exists m, (Lit [46]). repeat split. left. reflexivity.
    - symmetry in E. apply app_eq_nil in E. destruct E as (_ & E). apply app_eq_nil in E. destruct E. congruence. }
  inversion H as [|? N SL|? pre base tail SP]; subst; [exfalso; apply N0; reflexivity| |].
  - pose proof (back_to slash 0 s [] s [] C) as B. change (len (@nil Z)) with 0 in B.
    rewrite Z.add_0_l in B. rewrite B; auto; [|rewrite app_nil_r; reflexivity|apply slash_all; exact SL|lia]. cbn [bind]. cbn.
    exists m, (Lit [47]). repeat split. left. reflexivity.
  - destruct SP as (-> & BN & NB & ST & PR).
    assert (LB : 0 < len x) by (destruct x; [congruence|rewrite len_cons; pose proof (len_nonneg x); lia]).
    pose proof (len_nonneg pre). pose proof (len_nonneg tail).
    assert (B1 : back fuel m p (len (pre ++ x ++ tail) - 1) 0 slash = Ok (len pre + len x - 1)).
    { pose proof (back_to slash 0 _ (pre ++ x) tail [] C) as B. rewrite len_app in B. rewrite !len_app, Z.add_assoc. apply B; auto.
      - rewrite app_nil_r, app_assoc. reflexivity.
      - apply slash_all; exact ST.
      - lia.
      - right. destruct (last_in x 0 BN) as (q & E). exists (pre ++ q), (last x 0). rewrite <- app_assoc, <- E. split; [reflexivity|].
        unfold slash. apply Z.eqb_neq. intro X. apply NB. rewrite E, X. apply in_or_app. right. left. reflexivity. }
    rewrite B1. cbn [bind]. destruct (Z.eqb_spec (len pre + len x - 1) (-1)); [lia|].
    assert (B2 : back fuel m p (len pre + len x - 1) 0 noslash = Ok (len pre - 1)).
    { eapply (back_to noslash 0 _ pre x tail C); auto; [apply noslash_all; exact NB|].
      destruct PR as [->|(q & ->)]; [left; reflexivity|right]. exists q, 47. split; reflexivity. }
    rewrite B2. cbn [bind].
    destruct (cut_str (pre ++ x) tail (len pre + len x - 1 + 1)) as (m' & E & S & C'); [rewrite <- app_assoc; exact C|rewrite len_app; lia|].
    rewrite E. cbn [bind]. exists m', (Ptr (p + (len pre - 1 + 1))). split; [reflexivity|]. split.
    + cbn. replace (p + (len pre - 1 + 1)) with (p + len pre) by lia. eapply sub_str. exact C'.
    + right. exists (len pre + len x - 1 + 1). split; [rewrite !len_app; lia|exact S].
Qed.

Lemma dirname_ok s x : p <> NULL -> cstr m p s -> (length s < fuel)%nat -> dirname_of s x ->
  exists m' r, dirname fuel m p = Ok (m', r) /\ result_is m' r x /\ cut_inside m m' p (len s + 1).
Proof.
  intros NP C FU H. unfold dirname. destruct (Z.eqb_spec p NULL); [contradiction|]. rewrite (strlen_ok s fuel m p NP C FU). cbn [bind].
  destruct (Z.eqb_spec (len s) 0) as [E0|N0].
  { assert (s = []) by (destruct s as [|y s]; [reflexivity|rewrite len_cons in E0; pose proof (len_nonneg s); lia]). subst s.
    assert (K : forall a b c, ~ split_path [] a b c).
    { intros a b c (E & BN & _). symmetry in E. apply app_eq_nil in E. destruct E as (_ & E). apply app_eq_nil in E. destruct E. congruence. }
    exists m, (Lit [46]). split; [reflexivity|]. split; [|left; reflexivity].
    inversion H; subst; try congruence; try reflexivity; match goal with Q : split_path [] _ _ _ |- _ => destruct (K _ _ _ Q) end. }
  (* the first two loops stop at the end of the part before the last component *)
  assert (KEY : forall pre base tail, split_path s pre base tail ->
    exists e1, back fuel m p (len s - 1) 1 slash = Ok e1 /\ back fuel m p e1 0 noslash = Ok (len pre - 1)).
  { intros pre base tail (-> & BN & NB & ST & PR).
    assert (LB : 0 < len base) by (destruct base; [congruence|rewrite len_cons; pose proof (len_nonneg base); lia]).
    pose proof (len_nonneg pre). exists (len pre + len base - 1). split.
    - pose proof (back_to slash 1 _ (pre ++ base) tail [] C) as B. rewrite len_app in B. rewrite !len_app, Z.add_assoc. apply B; auto.
      + rewrite app_nil_r, app_assoc. reflexivity.
      + apply slash_all; exact ST.
      + lia.
      + right. destruct (last_in base 0 BN) as (q & E). exists (pre ++ q), (last base 0). rewrite <- app_assoc, <- E. split; [reflexivity|].
        unfold slash. apply Z.eqb_neq. intro X. apply NB. rewrite E, X. apply in_or_app. right. left. reflexivity.
    - eapply (back_to noslash 0 _ pre base tail C); auto; [apply noslash_all; exact NB|].
      destruct PR as [->|(q & ->)]; [left; reflexivity|right]. exists q, 47. split; reflexivity. }
  inversion H as [|? N SL|? base tail SP|? pre base tail SP PN SL|? dir mid base tail SP DN DL MN SL]; subst.
  - exfalso. apply N0. reflexivity.
  - destruct s as [|y s]; [congruence|]. inversion SL; subst. 
    pose proof (back_to slash 1 _ [47] s [] C) as B. change (len [47]) with 1 in B.
    replace (len (47 :: s) - 1) with (1 + len s - 1) by (rewrite len_cons; lia). rewrite B; auto; [|rewrite app_nil_r; reflexivity|apply slash_all; assumption|lia].
    cbn [bind]. assert (L0 : ld m p = Ok 47) by (apply cstr_cons in C; apply ld_ok; apply C).
    assert (B2 : forall P lo, P 47 = false -> back fuel m p (1 - 1) lo P = Ok 0).
    { intros P lo PF. change (1 - 1) with 0. destruct fuel; [lia|]. cbn [back]. rewrite Z.add_0_r, L0. cbn [bind]. rewrite PF. destruct (lo <=? 0); reflexivity. }
    rewrite B2 by reflexivity. cbn [bind].
    assert (B3 : back fuel m p 0 1 slash = Ok 0) by (destruct fuel; [lia|]; reflexivity). rewrite B3. cbn [bind Z.eqb].
    destruct (cut_str [47] s (0 + 1)) as (m' & E & S & C'); [exact C|reflexivity|]. rewrite E. cbn [bind].
    exists m', (Ptr p). split; [reflexivity|]. split; [exact C'|]. right. exists (0 + 1). split; [rewrite len_cons; pose proof (len_nonneg s); lia|exact S].
  - destruct (KEY _ _ _ SP) as (e1 & K1 & K2). rewrite K1. cbn [bind]. rewrite K2. cbn [bind]. change (len (@nil Z) - 1) with (-1).
    assert (B3 : back fuel m p (-1) 1 slash = Ok (-1)) by (destruct fuel; [lia|]; reflexivity). rewrite B3. cbn.
    exists m, (Lit [46]). repeat split. left. reflexivity.
  - destruct (KEY _ _ _ SP) as (e1 & K1 & K2). rewrite K1. cbn [bind]. rewrite K2. cbn [bind]. destruct SP as (-> & BN & _).
    destruct pre as [|y pre]; [congruence|]. inversion SL; subst.
    pose proof (back_to slash 1 _ [47] pre (base ++ tail) C) as B. change (len [47]) with 1 in B.
    replace (len (47 :: pre) - 1) with (1 + len pre - 1) by (rewrite len_cons; lia). rewrite B; auto; [|apply slash_all; assumption|lia].
    change (1 - 1) with 0. cbn [bind Z.eqb].
    destruct (cut_str [47] (pre ++ base ++ tail) (0 + 1)) as (m' & E & S & C'); [exact C|reflexivity|]. rewrite E. cbn [bind].
    exists m', (Ptr p). split; [reflexivity|]. split; [exact C'|]. right. exists (0 + 1). split; [cbn [app]; rewrite len_cons; pose proof (len_nonneg (pre ++ base ++ tail)); lia|exact S].
  - destruct (KEY _ _ _ SP) as (e1 & K1 & K2). rewrite K1. cbn [bind]. rewrite K2. cbn [bind]. destruct SP as (-> & BN & _).
    assert (LD : 0 < len x) by (destruct x; [congruence|rewrite len_cons; pose proof (len_nonneg x); lia]).
    rewrite len_app. rewrite (back_to slash 1 _ x mid (base ++ tail) C); auto; [|rewrite <- !app_assoc; reflexivity|apply slash_all; exact SL|lia|].
    2:{ right. destruct (last_in x 0 DN) as (q & E). exists q, (last x 0). split; [exact E|]. unfold slash. apply Z.eqb_neq. exact DL. }
    cbn [bind]. destruct (Z.eqb_spec (len x - 1) (-1)); [lia|].
    destruct (cut_str x (mid ++ base ++ tail) (len x - 1 + 1)) as (m' & E & S & C'); [rewrite <- app_assoc in C; exact C|lia|]. rewrite E. cbn [bind].
    exists m', (Ptr p). split; [reflexivity|]. split; [exact C'|]. right. exists (len x - 1 + 1).
    split; [|exact S]. rewrite !len_app. pose proof (len_nonneg mid). pose proof (len_nonneg base). pose proof (len_nonneg tail). lia.
Qed.
End Call.
