(* Proofs for C95 *)
From Coq Require Import ZArith List Bool Lia.
From Verif Require Import Base Dirent_model Dirent_spec.
Import ListNotations.
Open Scope Z_scope.

Lemma place_snoc p e : place (p ++ [e]) = e_next e.
Proof. induction p as [|x p IH]; [reflexivity|]. cbn [app place]. destruct (p ++ [e]) eqn:E; [destruct p; discriminate|]. exact IH. Qed.
Lemma place_range all p s : positions all -> all = p ++ s -> 0 <= place p < 2 ^ 63.
Proof.
  intros P E. destruct p as [|x p] using rev_ind; [cbn; lia|]. rewrite place_snoc. unfold positions in P. rewrite Forall_forall in P.
  apply P. rewrite E, <- app_assoc. apply in_or_app. right. left. reflexivity.
Qed.
(* the stream is at the place between p and s *)
Definition at_place (d : dir) (p s : list ent) : Prop :=
  d_opaque d = place p /\ 0 < d_cap d /\ exists l r, d_pend d = Some l /\ s = l ++ r.
Lemma fill_ok all gd p s : serves false all gd -> all = p ++ s ->
  forall k d, d_opaque d = place p -> 0 < d_cap d -> (forall e, In e s -> e_len e <= d_cap d * 2 ^ Z.of_nat k) ->
  forall fuel, (k < fuel)%nat ->
  exists d1 l r, fill fuel gd d = Ok (d1, inl l) /\ s = l ++ r /\ (l = [] -> s = []) /\
    d_opaque d1 = place p /\ 0 < d_cap d1 /\ d_pend d1 = Some l.
Proof.
  intros SV EA k. induction k as [|k IH]; intros d O C F [|f] L; try lia; cbn [fill]; rewrite O;
    pose proof (SV (d_calls d) p s (d_cap d) C EA) as A; destruct (gd (d_calls d) (place p) (d_cap d)) as [l|e].
  - destruct A as (r & A1 & A2 & A3). eexists _, l, r. split; [reflexivity|]. cbn. auto.
  - destruct A as [(-> & x & r & -> & A)|(A & _)]; [|discriminate]. exfalso. specialize (F x (or_introl eq_refl)). cbn in F. lia.
  - destruct A as (r & A1 & A2 & A3). eexists _, l, r. split; [reflexivity|]. cbn. auto.
  - destruct A as [(-> & x & r & -> & A)|(A & _)]; [|discriminate]. rewrite Z.eqb_refl. apply IH; cbn [d_opaque d_cap]; [reflexivity|lia| |lia].
    intros e I. specialize (F e I). replace (Z.of_nat (S k)) with (Z.of_nat k + 1) in F by lia. rewrite Z.pow_add_r in F by lia. lia.
Qed.
Lemma room (s : list ent) c : 0 < c -> exists k, forall e, In e s -> e_len e <= c * 2 ^ Z.of_nat k.
Proof.
  intro C. induction s as [|x s (k & IH)]; [exists 0%nat; intros e []|].
  exists (Nat.max k (Z.to_nat (e_len x))). intros e [<-|I].
  - destruct (Z.le_gt_cases (e_len x) 0) as [L|L]; [assert (0 < 2 ^ Z.of_nat (Nat.max k (Z.to_nat (e_len x)))) by (apply Z.pow_pos_nonneg; lia); nia|].
    assert (H : e_len x <= 2 ^ (e_len x)) by (pose proof (Z.pow_gt_lin_r 2 (e_len x)); lia).
    assert (G : 2 ^ (e_len x) <= 2 ^ Z.of_nat (Nat.max k (Z.to_nat (e_len x)))) by (apply Z.pow_le_mono_r; lia). nia.
  - specialize (IH e I). assert (G : 2 ^ Z.of_nat k <= 2 ^ Z.of_nat (Nat.max k (Z.to_nat (e_len x)))) by (apply Z.pow_le_mono_r; lia). nia.
Qed.
Lemma fill_mono gd : forall fuel d x k, fill fuel gd d = Ok x -> (fuel <= k)%nat -> fill k gd d = Ok x.
Proof.
  induction fuel as [|f IH]; intros d x [|k] H L; try discriminate; try lia. cbn [fill] in *.
  destruct (gd _ _ _) as [l|e]; [exact H|]. destruct (e =? EINVAL); [apply IH; [exact H|lia]|exact H].
Qed.
Lemma readdir_mono gd fuel d x k : readdir fuel gd d = Ok x -> (fuel <= k)%nat -> readdir k gd d = Ok x.
Proof.
  unfold readdir. destruct (d_pend d) as [[|e r]|]; [|auto|auto]. intros H L.
  destruct (fill fuel gd d) as [y| | |] eqn:E; try discriminate. rewrite (fill_mono gd fuel d y k E L). exact H.
Qed.
Lemma exec_mono gd fuel d o x k : exec fuel gd d o = Ok x -> (fuel <= k)%nat -> exec k gd d o = Ok x.
Proof.
  destruct o; cbn [exec]; auto. intros H L. destruct (readdir fuel gd d) as [y| | |] eqn:E; try discriminate. rewrite (readdir_mono gd fuel d y k E L). exact H.
Qed.
Lemma run_mono gd ops : forall fuel d x k, run fuel gd d ops = Ok x -> (fuel <= k)%nat -> run k gd d ops = Ok x.
Proof.
  induction ops as [|o ops IH]; intros fuel d x k H L; cbn [run] in *; [exact H|].
  destruct (exec fuel gd d o) as [[d1 y]| | |] eqn:E; try discriminate. rewrite (exec_mono gd fuel d o _ k E L). cbn [bind] in *.
  destruct (run fuel gd d1 ops) as [[d2 ys]| | |] eqn:R; try discriminate. rewrite (IH fuel d1 _ k R L). exact H.
Qed.
Lemma read_step all gd p s d : positions all -> serves false all gd -> all = p ++ s -> at_place d p s ->
  exists fuel d1 g, readdir fuel gd d = Ok (d1, g) /\
    match s with
    | [] => g = GEnd /\ at_place d1 p []
    | e :: s' => g = GEntry e /\ at_place d1 (p ++ [e]) s'
    end.
Proof.
  intros P SV EA (O & C & l & r & PD & ES). destruct l as [|e l].
  - cbn in ES. subst r. destruct (room s (d_cap d) C) as (k & F). exists (S k).
    destruct (fill_ok all gd p s SV EA k d O C F (S k)) as (d1 & l & r & E & ES & NE & O1 & C1 & PD1); [lia|].
    unfold readdir. rewrite PD, E. cbn [bind]. eexists _, _. rewrite (surjective_pairing (deliver d1 l)). split; [reflexivity|].
    destruct l as [|e l]; cbn [deliver fst snd].
    + rewrite (NE eq_refl). split; [reflexivity|]. split; [exact O1|]. split; [exact C1|]. exists [], []. split; [exact PD1|reflexivity].
    + subst s. cbn [app]. split; [reflexivity|]. split; [cbn; rewrite place_snoc; reflexivity|]. split; [exact C1|]. exists l, r. split; reflexivity.
  - exists 0%nat. unfold readdir. rewrite PD. eexists _, _. split; [reflexivity|]. subst s. cbn [app]. split; [reflexivity|].
    split; [cbn; rewrite place_snoc; reflexivity|]. split; [exact C|]. exists l, r. split; reflexivity.
Qed.
Lemma run_ok all gd : positions all -> serves false all gd ->
  forall p s ops xs, does all p s ops xs -> all = p ++ s -> forall d, at_place d p s ->
  exists fuel d', run fuel gd d ops = Ok (d', xs).
Proof.
  intros P SV p s ops xs D. induction D as [p s|p e s ops r D IH|p ops r D IH|p s ops r D IH|p s p' s' ops r E D IH|p s ops r D IH]; intros EA d AT.
  - exists 0%nat, d. reflexivity.
  - destruct (read_step all gd p (e :: s) d P SV EA AT) as (f1 & d1 & g & E1 & -> & AT1).
    destruct (IH ltac:(rewrite EA, <- app_assoc; reflexivity) d1 AT1) as (f2 & d2 & E2).
    exists (Nat.max f1 f2), d2. cbn [run exec]. rewrite (readdir_mono gd f1 d _ _ E1) by lia. cbn [bind].
    rewrite (run_mono gd ops f2 d1 _ _ E2) by lia. reflexivity.
  - destruct (read_step all gd p [] d P SV EA AT) as (f1 & d1 & g & E1 & -> & AT1).
    destruct (IH EA d1 AT1) as (f2 & d2 & E2).
    exists (Nat.max f1 f2), d2. cbn [run exec]. rewrite (readdir_mono gd f1 d _ _ E1) by lia. cbn [bind].
    rewrite (run_mono gd ops f2 d1 _ _ E2) by lia. reflexivity.
  - destruct (IH EA d AT) as (f2 & d2 & E2). exists f2, d2. cbn [run exec]. cbn [bind]. rewrite E2. cbn [bind].
    destruct AT as (O & _). unfold telldir. rewrite O. pose proof (place_range all p s P EA). destruct (Z.ltb_spec (place p) (2 ^ 63)); [reflexivity|lia].
  - pose proof (place_range all p' s' P E) as R. destruct (IH E (seek d (place p'))) as (f2 & d2 & E2).
    { split; [reflexivity|]. split; [apply AT|]. exists [], s'. split; reflexivity. }
    exists f2, d2. cbn [run exec bind]. unfold seekdir. destruct (Z.ltb_spec (place p') 0); [lia|]. rewrite E2. reflexivity.
  - destruct (IH eq_refl (seek d 0)) as (f2 & d2 & E2).
    { split; [reflexivity|]. split; [apply AT|]. exists [], all. split; reflexivity. }
    exists f2, d2. cbn [run exec bind]. unfold rewinddir. rewrite E2. reflexivity.
Qed.
Lemma opened_at all calls : at_place (opened calls) [] all.
Proof. split; [reflexivity|]. split; [cbn; lia|]. exists [], all. split; reflexivity. Qed.
(* scandir *)
Lemma collect_ok filter l : forall errno, (forall f e, filter = Some f -> In e l -> snd (f e) = 0) ->
  collect filter l errno = (List.filter (fun e => match filter with Some f => fst (f e) | None => true end) l, errno).
Proof.
  induction l as [|e l IH]; intros errno H; cbn [collect List.filter]; [reflexivity|].
  assert (H' : forall f e, filter = Some f -> In e l -> snd (f e) = 0) by (intros f x F I; apply (H f x F); right; exact I).
  destruct filter as [f|].
  - specialize (H f e eq_refl (or_introl eq_refl)). destruct (f e) as [ok n]. cbn in *. subst n. cbn. rewrite IH by exact H'. destruct ok; reflexivity.
  - rewrite IH by exact H'. reflexivity.
Qed.
