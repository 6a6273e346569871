(* Every table a process can come to have: Upperfd_spec holds of each operation on it. *)
From Coq Require Import ZArith List Bool Lia.
From Verif Require Import Upperfd_spec Upperfd_model Upperfd_proofs Upperfd_proofs2 Upperfd_proofs3.
Import ListNotations.
Open Scope Z_scope.

Lemma step_fine cap oth k t o : cap < 4294967296 -> inv cap oth t -> honest k t -> proper o -> (o = OtherClose -> 0 < oth) ->
  fine cap oth k t o (step cap k t o).
Proof.
  intros CAP I HON P C. destruct o as [fl|d|fds fl|d|d|d raw| |].
  - apply insert_fine; assumption.
  - apply override_fine; assumption.
  - destruct fds as [|d r].
    + split; [|exact I]. split; [reflexivity|]. split; [apply same_refl|reflexivity].
    + apply bulk_manual_fine; assumption.
  - apply (remove_fine cap oth k t CAP I d P).
  - apply (get_fine cap oth k t I d P).
  - apply (set_fine cap oth k t I d raw P).
  - apply other_open_fine; assumption.
  - apply other_close_fine; [assumption|assumption|apply C; reflexivity].
Qed.

Lemma rebuild_has x : has (rebuild_free_list x) = has x /\ kt (rebuild_free_list x) = kt x.
Proof. unfold rebuild_free_list. destruct (rebuild (tab x) 0). split; reflexivity. Qed.
Lemma place_len t h f : tlen (tab t) < 4294967296 ->
  match (match getz (tab t) h, setz (tab t) h (Occ f) with
    | Some (Vac _), Some l => Val (rebuild_free_list (with_cnt (with_tab t l) (w32 (cnt t + 1)))) (Fds [h])
    | Some (Occ _), Some l => Val (with_tab t l) (Fds [h])
    | _, _ => Unreach
    end) with
  | Val t' (Fds _) => has t' = has t /\ kt t' = kt t /\ tlen (tab t') = tlen (tab t)
  | Val _ _ => False
  | _ => True
  end.
Proof.
  intros L. destruct (getz (tab t) h) as [[v|x]|]; [| |exact Logic.I];
    (destruct (setz (tab t) h (Occ f)) as [l|] eqn:E; [|exact Logic.I]); apply setz_ok in E; destruct E as (_ & E & _ & _).
  - destruct (rebuild_has (with_cnt (with_tab t l) (w32 (cnt t + 1)))) as [X Y]. rewrite X, Y.
    split; [reflexivity|]. split; [reflexivity|].
    destruct (rebuild_tab (with_cnt (with_tab t l) (w32 (cnt t + 1)))) as (Z1 & _); cbn [tab with_cnt with_tab] in *; lia.
  - split; [reflexivity|]. split; [reflexivity|exact E].
Qed.
Lemma override_len cap k t d t' ds : cap < 4294967296 -> tlen (tab t) <= cap -> has t = false -> upper d ->
  override_at cap k t d = Val t' (Fds ds) ->
  has t' = false /\ kt t' = kt t /\ tlen (tab t') <= Z.max (tlen (tab t)) (index d + 1).
Proof.
  intros CAP TC H U. destruct (upper_index d U) as [S IP]. unfold override_at. rewrite S.
  assert (R : has (fst (fd_remove t d)) = false /\ kt (fst (fd_remove t d)) = kt t /\ tlen (tab (fst (fd_remove t d))) = tlen (tab t)).
  { unfold fd_remove, remove. destruct (getz (tab t) (strip_tags d)) as [[v|f]|]; try (split; [exact H|split; reflexivity]).
    destruct (setz (tab t) (strip_tags d) (Vac (first t))) as [l|] eqn:E; [|split; [exact H|split; reflexivity]].
    apply setz_ok in E. split; [exact H|]. split; [reflexivity|]. cbn [fst tab with_active]. apply E. }
  set (t1 := fst (fd_remove t d)) in *. clearbody t1. destruct R as (R1 & R2 & R3). rewrite <- R2, <- R3. rewrite <- R3 in TC. clear R2 R3 H t.
  unfold insert_at. destruct (tlen (tab t1) <=? index d) eqn:Q.
  - unfold sync_size. rewrite R1. apply Z.leb_le in Q.
    destruct (resize cap t1 (index d + 1)) as [t2|] eqn:E; [|discriminate].
    apply resize_ok in E; [|exact CAP|lia]. destruct E as (E1 & E2 & _ & _ & _ & _ & E3 & E4 & _).
    pose proof (place_len t2 (index d) 0 ltac:(lia)) as P.
    match goal with |- match ?m with _ => _ end = _ -> _ => destruct m as [t3 [x|x| |x]| |] end; try discriminate; try contradiction.
    intros V; injection V as <- <-; cbn [has kt tab with_active]. destruct P as (P1 & P2 & P3). rewrite P1, P2, P3. split; [congruence|]. split; [congruence|lia].
  - apply Z.leb_gt in Q. pose proof (place_len t1 (index d) 0 ltac:(lia)) as P.
    match goal with |- match ?m with _ => _ end = _ -> _ => destruct m as [t3 [x|x| |x]| |] end; try discriminate; try contradiction.
    intros V; injection V as <- <-; cbn [has kt tab with_active]. destruct P as (P1 & P2 & P3). rewrite P1, P2, P3. split; [congruence|]. split; [congruence|lia].
Qed.

Lemma populate_ok cap posix kt0 : cap < 4294967296 -> forall ds t t', inv cap posix t -> has t = false -> kt t = kt0 ->
  tlen (tab t) <= kt0 -> (forall d, In d ds -> upper d /\ index d < kt0) -> populate cap t ds = Some t' ->
  inv cap posix t' /\ has t' = false /\ tlen (tab t') <= kt t' /\ same (flags_of t') (put_all (flags_of t) ds 0).
Proof.
  intros CAP. induction ds as [|d ds IH]; intros t t' I H K L P E.
  - injection E as <-. split; [exact I|]. split; [exact H|]. split; [lia|apply same_refl].
  - cbn [populate] in E. destruct (P d (or_introl eq_refl)) as [U X].
    assert (HON : honest (fun _ => None) t) by (intros n Q; discriminate).
    pose proof (override_fine cap posix (fun _ => None) t d CAP I HON U) as F.
    destruct (override_at cap (fun _ => None) t d) as [t1 [fs|f| |e]| |] eqn:OV; try discriminate.
    destruct F as [D I1]. cbn [others] in I1.
    destruct (override_len cap _ t d t1 fs CAP (i_cap _ _ _ I) H U OV) as (H1 & K1 & L1).
    destruct (IH t1 t' I1 H1 ltac:(congruence) ltac:(lia) (fun x XX => P x (or_intror XX)) E) as (Q1 & Q2 & Q3 & Q4).
    split; [exact Q1|]. split; [exact Q2|]. split; [exact Q3|]. intros x. rewrite Q4. cbn [put_all].
    cbn [does] in D. destruct D as [(_ & D & _)|(e & D & _)]; [|discriminate].
    rewrite !put_all_get. destruct (existsb (Z.eqb x) ds); [reflexivity|]. apply D.
Qed.
Lemma new_inv cap posix kt0 n t : 0 <= cap < 4294967296 -> 0 <= posix <= MAXF -> 0 <= n ->
  resize cap (T [] 0 MAXF posix false kt0) n = Some t ->
  inv cap posix t /\ has t = false /\ kt t = kt0 /\ tlen (tab t) = n /\ same (flags_of t) (fun _ => None).
Proof.
  intros CAP P N R. apply resize_ok in R; [|lia|cbn; lia]. cbn [tab cnt first active has kt] in R.
  destruct R as (R1 & R2 & R3 & R4 & R5 & R6 & R7 & R8 & R9). cbn [nocc] in R3.
  split; [constructor; try assumption; try lia; rewrite R7; discriminate|].
  split; [exact R7|]. split; [exact R8|]. split; [exact R2|].
  intros d. destruct (upper_dec d) as [U|U]; [rewrite flags_upper by exact U; rewrite R4; reflexivity|apply flags_not, U].
Qed.
Lemma kernel_ok cap kt0 posix n ds t : 0 <= cap < 4294967296 -> 0 <= posix <= MAXF -> 0 <= n <= kt0 ->
  (forall d, In d ds -> upper d /\ index d < kt0) -> from_kernel cap kt0 posix n ds = Some t ->
  inv cap posix t /\ same (flags_of t) (put_all (fun _ => None) ds 0).
Proof.
  intros CAP P N D. unfold from_kernel. destruct (resize cap (T [] 0 MAXF posix false kt0) n) as [t0|] eqn:R; [|discriminate].
  destruct (new_inv cap posix kt0 n t0 CAP P ltac:(lia) R) as (I0 & H0 & K0 & L0 & V0).
  destruct (populate cap t0 ds) as [t1|] eqn:E; [|discriminate]. intros Q. injection Q as <-.
  destruct (populate_ok cap posix kt0 ltac:(lia) ds t0 t1 I0 H0 K0 ltac:(lia) D E) as (I1 & _ & L1 & V1). split.
  - destruct I1 as [X1 X2 X3 X4 X5 X6]. constructor; cbn [tab cnt first active has kt]; try assumption. intros _. exact L1.
  - intros x. change (flags_of (T (tab t1) (cnt t1) (first t1) (active t1) true (kt t1)) x) with (flags_of t1 x).
    rewrite V1, !put_all_get. destruct (existsb (Z.eqb x) ds); [reflexivity|apply V0].
Qed.
Lemma reach_inv cap oth t : 0 <= cap < 4294967296 -> reach cap oth t -> inv cap oth t.
Proof.
  intros CAP. induction 1 as [|kt0 posix n ds t P N D E|oth t k o t' a R IH HON PR C E].
  - constructor; cbn [tab cnt first active has kt with_capacity]; try (unfold MAXF; cbn; lia).
    exists []. split; [constructor|]. split; [constructor|]. intros _ i Ii. change (tlen []) with 0 in Ii. lia.
  - apply (kernel_ok cap kt0 posix n ds t CAP P N D E).
  - pose proof (step_fine cap oth k t o ltac:(lia) IH HON PR C) as F. rewrite E in F. apply F.
Qed.

(* counting *)
Fixpoint occs (l : list entry) (s : Z) : list Z :=
  match l with [] => [] | Occ _ :: r => (s + TAG) :: occs r (s + 1) | Vac _ :: r => occs r (s + 1) end.
Lemma occs_in : forall l s d, In d (occs l s) <-> occ l (index d - s) <> None.
Proof.
  induction l as [|e l IH]; intros s d; [split; [intros []|intros H; destruct (H eq_refl)]|].
  assert (Q : occ (e :: l) (index d - s) = if index d - s =? 0 then isocc (Some e) else occ l (index d - (s + 1))).
  { unfold occ. cbn [getz]. destruct (index d - s =? 0); [reflexivity|]. do 2 f_equal; lia. }
  rewrite Q. clear Q. cbn [occs]. destruct e as [v|f].
  - rewrite IH. destruct (index d - s =? 0) eqn:E; [|tauto]. apply Z.eqb_eq in E. rewrite occ_out by lia. cbn. tauto.
  - cbn [In]. rewrite IH. destruct (index d - s =? 0) eqn:E.
    + apply Z.eqb_eq in E. cbn [isocc]. split; [discriminate|]. intros _. left. unfold index in E. lia.
    + apply Z.eqb_neq in E. split; [intros [X|X]; [unfold index in E; lia|exact X]|tauto].
Qed.
Lemma occs_nodup : forall l s, NoDup (occs l s).
Proof.
  induction l as [|[v|f] l IH]; intros s; cbn [occs]; [constructor|apply IH|]. constructor; [|apply IH].
  rewrite occs_in. intros H. apply H, occ_out. unfold index. lia.
Qed.
Lemma occs_length : forall l s, Z.of_nat (length (occs l s)) = nocc l.
Proof. induction l as [|[v|f] l IH]; intros s; cbn [occs length nocc]; [reflexivity|apply IH|]. rewrite Nat2Z.inj_succ, IH. lia. Qed.
Lemma inv_counts cap oth t : 0 <= cap < 4294967296 -> inv cap oth t -> counts (flags_of t) (active t - oth).
Proof.
  intros CAP I. exists (occs (tab t) 0). split; [apply occs_nodup|]. split.
  - intros d. rewrite occs_in. replace (index d - 0) with (index d) by lia. destruct (upper_dec d) as [U|U].
    + rewrite flags_upper by exact U. tauto.
    + rewrite flags_not by exact U. split; [|tauto]. intros H. exfalso.
      destruct (getz (tab t) (index d)) as [e|] eqn:G; [|unfold occ in H; rewrite G in H; destruct (H eq_refl)].
      apply getz_range in G. pose proof (i_cap _ _ _ I). apply U. replace d with (index d + TAG) by (unfold index; lia). apply upper_add. unfold TAG. lia.
  - rewrite occs_length. rewrite (i_act _ _ _ I). lia.
Qed.
Lemma inv_kernel cap oth t d : inv cap oth t -> has t = true -> flags_of t d <> None -> index d < kt t.
Proof.
  intros I H F. destruct (upper_dec d) as [U|U]; [|rewrite flags_not in F by exact U; destruct (F eq_refl)].
  rewrite flags_upper in F by exact U. unfold occ in F. destruct (getz (tab t) (index d)) as [e|] eqn:G; [|destruct (F eq_refl)].
  apply getz_range in G. pose proof (i_kt _ _ _ I H). lia.
Qed.
(* a free slot below 65536 is used before the table grows *)
Lemma insert_reuses cap oth k t fl t' d : 0 <= cap < 4294967296 -> inv cap oth t -> tlen (tab t) <= MAXF ->
  step cap k t (Insert fl) = Val t' (Fds [d]) -> tlen (tab t) <= index d -> 
  forall i, 0 <= i < tlen (tab t) -> flags_of t (i + TAG) <> None.
Proof.
  intros CAP I M E D i Ii. cbn [step] in E. unfold insert_upper in E. destruct (MAXF <=? active t); [discriminate|].
  destruct (i_chain _ _ _ I) as (ks & C & N & F). pose proof (i_cap _ _ _ I) as IC.
  unfold insert in E. destruct (first t =? MAXF) eqn:Q.
  - apply Z.eqb_eq in Q. rewrite Q in C. assert (K0 : ks = []) by (inversion C; congruence). subst ks.
    rewrite flags_upper by (apply upper_add; unfold TAG; lia). replace (index (i + TAG)) with i by (unfold index; lia).
    intros O. destruct (F M i Ii O).
  - apply Z.eqb_neq in Q. inversion C as [Z|j nx ks' N1 G C' Q1 Q2]; [congruence|]. subst. rewrite G in E.
    destruct (setz (tab t) (first t) (Occ (w32 fl))); [|discriminate]. cbn [map] in E. injection E as _ ED.
    apply getz_range in G. rewrite tagged_add in ED by (unfold TAG; lia). unfold index in D. lia.
Qed.

Lemma upper_holds cap oth t k o : 0 <= cap < 4294967296 -> reach cap oth t -> honest k t -> proper o -> (o = OtherClose -> 0 < oth) ->
  match step cap k t o with
  | Val t' a => does k o a (flags_of t) (active t) (flags_of t') (active t')
  | Unreach => False
  | Nomem => short cap t o
  end
  /\ counts (flags_of t) (active t - oth).
Proof.
  intros CAP R HON P C. pose proof (reach_inv cap oth t CAP R) as I. split; [|apply (inv_counts cap oth t CAP I)].
  pose proof (step_fine cap oth k t o ltac:(lia) I HON P C) as F. destruct (step cap k t o) as [t' a| |]; [apply F|exact F|exact F].
Qed.
