(* Proofs for C90 *)
From Coq Require Import ZArith List Bool Lia.
From Verif Require Import Base String_model String_spec String_proofs Subopt_model Subopt_spec.
Import ListNotations.
Open Scope Z_scope.

Lemma lex_eq l : forall k, lex l k = Eq -> l = k.
Proof.
  induction l as [|a l IH]; intros [|b k] H; cbn in H; try discriminate; [reflexivity|].
  destruct (Z.compare_spec a b) as [->|?|?]; try discriminate. f_equal. apply IH. exact H.
Qed.

Lemma cut_last t : forall fuel m a, ~ In 44 t -> cstr m a t -> (length t < fuel)%nat -> cut fuel m a = Ok (m, a + len t).
Proof.
  induction t as [|c t IH]; intros [|f] m a N C F; cbn [length] in F; try lia; cbn [cut].
  - apply cstr_nil in C. rewrite (ld_ok _ _ _ C). cbn. rewrite Z.add_0_r. reflexivity.
  - apply cstr_cons in C. destruct C as (I & E & C). rewrite (ld_ok _ _ _ E). cbn [bind].
    red in I. destruct (Z.eqb_spec c 0); [lia|]. destruct (Z.eqb_spec c 44) as [->|?]; [elim N; left; reflexivity|].
    rewrite IH; [rewrite len_cons; do 2 f_equal; lia|intro X; apply N; right; exact X|exact C|lia].
Qed.
Lemma cut_more t s : forall fuel m a, ~ In 44 t -> cstr m a (t ++ 44 :: s) -> (length t < fuel)%nat ->
  cut fuel m a = Ok (upd m (a + len t) 0, a + len t + 1).
Proof.
  induction t as [|c t IH]; intros [|f] m a N C F; cbn [length] in F; try lia; cbn [cut app] in *.
  - apply cstr_cons in C. destruct C as (I & E & C). rewrite (ld_ok _ _ _ E). cbn. rewrite st_ok by (exists 44; exact E).
    cbn. rewrite Z.add_0_r. reflexivity.
  - apply cstr_cons in C. destruct C as (I & E & C). rewrite (ld_ok _ _ _ E). cbn [bind].
    red in I. destruct (Z.eqb_spec c 0); [lia|]. destruct (Z.eqb_spec c 44) as [->|?]; [elim N; left; reflexivity|].
    rewrite IH; [rewrite len_cons; do 2 f_equal; [f_equal|]; lia|intro X; apply N; right; exact X|exact C|lia].
Qed.

(* what strncmp against a key and the byte after it tell *)
Lemma firstn_bstr m a t n : cstr m a t -> bstr m a (Z.of_nat n) (firstn n t).
Proof.
  intros (F & B). split; [apply Forall_forall; intros x X; rewrite Forall_forall in F; apply F; rewrite <- (firstn_skipn n t); apply in_or_app; left; exact X|].
  rewrite <- (firstn_skipn n t) in B. rewrite <- app_assoc in B. apply bytes_at_app in B. destruct B as (B1 & B2). split; [exact B1|].
  destruct (Nat.le_gt_cases n (length t)) as [L|L].
  - left. unfold len. rewrite firstn_length_le by exact L. reflexivity.
  - right. unfold len in *. rewrite firstn_all2 in * by lia. split; [lia|]. rewrite skipn_all2 in B2 by lia. apply B2.
Qed.
Lemma key_cmp fuel m a b t k : cstr m a t -> cstr m b k -> (length k < fuel)%nat ->
  exists d, strncmp fuel m a b (len k) = Ok d /\ (d = 0 <-> firstn (length k) t = k).
Proof.
  intros T K F. pose proof (firstn_bstr m a t (length k) T) as T1. pose proof (firstn_bstr m b k (length k) K) as K1.
  rewrite firstn_all in K1. destruct (strncmp_ok _ _ fuel m a b (len k) T1 K1) as (d & E & S).
  { rewrite firstn_length. lia. }
  exists d. split; [exact E|]. split; intro H.
  - apply lex_eq. subst d. unfold sign_is in S. destruct (lex _ _); [reflexivity|lia|lia].
  - rewrite H, lex_refl in S. unfold sign_is in S. exact S.
Qed.
Lemma cstr_at m a k r : cstr m a (k ++ r) -> exists b, m (a + len k) = Some b /\ b = match r with [] => 0 | c :: _ => c end.
Proof.
  intros (F & B). rewrite <- app_assoc in B. apply bytes_at_app in B. destruct B as (_ & B). destruct r as [|c r]; cbn in B; eexists; split; try apply B; reflexivity.
Qed.
Lemma prefix_split (t k : list Z) : firstn (length k) t = k -> exists r, t = k ++ r.
Proof. intro H. exists (skipn (length k) t). rewrite <- H at 1. symmetry. apply firstn_skipn. Qed.
Lemma cstr_skip m a k r : cstr m a (k ++ r) -> cstr m (a + len k) r.
Proof.
  intros (F & B). apply Forall_app in F. rewrite <- app_assoc in B. apply bytes_at_app in B. split; [apply F|apply B].
Qed.

Lemma ans_fun t k v w : answers t k v -> answers t k w -> v = w.
Proof.
  intros [E1|v1 E1] [E2|v2 E2]; try reflexivity; rewrite E1 in E2.
  - apply (f_equal (@length Z)) in E2. rewrite app_length in E2. cbn in E2. lia.
  - apply (f_equal (@length Z)) in E2. rewrite app_length in E2. cbn in E2. lia.
  - apply app_inv_head in E2. injection E2 as ->. reflexivity.
Qed.
Lemma search_ok fuel m start t : cstr m start t ->
  forall keys kts i0 r, Forall2 (cstr m) keys kts -> Forall (fun k => k <> NULL) keys ->
  Forall (fun k => length k < fuel)%nat kts -> picks t kts r ->
  exists ret v, search fuel m start i0 keys = Ok (ret, v) /\ found_at m start i0 r ret v.
Proof.
  intros T keys. induction keys as [|p keys IH]; intros kts i0 r FK NN FL P; inversion FK as [|? k ? kts' K FK']; subst; cbn [search].
  - inversion P; subst. exists (-1), start. repeat split.
  - apply Forall_inv in NN as N1. apply Forall_inv_tail in NN. apply Forall_inv in FL as F1. apply Forall_inv_tail in FL.
    rewrite (strlen_ok k fuel m p N1 K F1). cbn [bind].
    destruct (key_cmp fuel m start p t k T K F1) as (d & -> & D). cbn [bind].
    assert (NO : (forall w, ~ answers t k w) -> exists r', picks t kts' r' /\
       r = match r' with Some (i, v) => Some (S i, v) | None => None end).
    { intro H. inversion P; subst; [elim (H v); assumption|exists (Some (i, v)); auto|exists None; auto]. }
    assert (GO : (forall w, ~ answers t k w) -> exists ret v, search fuel m start (i0 + 1) keys = Ok (ret, v) /\ found_at m start i0 r ret v).
    { intro H. destruct (NO H) as (r' & P' & ->). destruct (IH kts' (i0 + 1) r' FK' NN FL P') as (ret & v & E & G).
      exists ret, v. split; [exact E|]. destruct r' as [[i [w|]]|]; unfold found_at in *; [destruct G as (G1 & G2); split; [lia|exact G2] ..|exact G]. }
    assert (YES : forall w, answers t k w -> r = Some (0%nat, w)).
    { intros w A. inversion P as [|k0 r0 v A'|k0 r0 i v H P'|k0 r0 H P']; subst; [|elim (H _ A)|elim (H _ A)].
      do 2 f_equal. exact (ans_fun _ _ _ _ A' A). }
    destruct (Z.eqb_spec d 0) as [E|E].
    + apply D in E. destruct (prefix_split _ _ E) as (q & ->).
      destruct (cstr_at _ _ _ _ T) as (b & B & EB). rewrite (ld_ok _ _ _ B). cbn [bind].
      apply cstr_skip in T as TQ. destruct q as [|c q].
      * subst b. cbn. eexists _, _. split; [reflexivity|]. rewrite (YES None); [cbn; split; [lia|reflexivity]|]. constructor. apply app_nil_r.
      * subst b. apply cstr_cons in TQ. destruct TQ as (IC & _ & TQ). destruct (Z.eqb_spec c 61) as [->|C].
        -- eexists _, _. split; [reflexivity|]. rewrite (YES (Some q)); [cbn; split; [lia|]; split; [pose proof (len_nonneg k); lia|exact TQ]|constructor; reflexivity].
        -- red in IC. destruct (Z.eqb_spec c 0); [lia|]. apply GO. intros w A. inversion A as [E1|v1 E1].
           ++ apply (f_equal (@length Z)) in E1. rewrite app_length in E1. cbn in E1. lia.
           ++ apply app_inv_head in E1. injection E1 as E1. lia.
    + apply GO. intros w A. apply E. apply D. inversion A as [E1|v1 E1]; subst; [apply firstn_all|].
      rewrite firstn_app, firstn_all, Nat.sub_diag. apply app_nil_r.
Qed.

Lemma cut_ok fuel m start s t rest : cstr m start s -> first s t rest -> (length s < fuel)%nat ->
  exists m' next, cut fuel m start = Ok (m', next) /\ after m m' start t rest next.
Proof.
  intros C F L. destruct F as [t N|t s N].
  - exists m, (start + len t). split; [apply cut_last; assumption|]. split; [reflexivity|]. split; [exact C|]. split; [reflexivity|].
    apply cstr_nil. exact (cstr_end _ _ _ C).
  - rewrite app_length in L. cbn in L. exists (upd m (start + len t) 0), (start + len t + 1).
    split; [apply cut_more with s; [exact N|exact C|lia]|]. pose proof C as (FC & B). apply Forall_app in FC. destruct FC as (F1 & F2).
    rewrite <- app_assoc in B. apply bytes_at_app in B. destruct B as (B1 & B2). split; [intros x X; apply upd_other; exact X|]. split; [split; [exact F1|]|].
    + apply bytes_at_app. split; [apply bytes_at_upd_out; [lia|exact B1]|]. cbn. split; [apply upd_same|exact I].
    + split; [reflexivity|]. cbn [app] in B2. split; [exact (Forall_inv_tail F2)|]. apply bytes_at_upd_out; [lia|]. apply B2.
Qed.
Lemma getsubopt_ok fuel m start s t rest keys kts r :
  start <> NULL -> cstr m start s -> first s t rest -> Forall2 (cstr m) keys kts ->
  Forall2 (fun p k => p <> NULL /\ disjoint p (len k + 1) start (len s + 1)) keys kts ->
  picks t kts r -> (length s < fuel)%nat -> Forall (fun k => length k < fuel)%nat kts ->
  exists o, getsubopt fuel m start keys = Ok (Some o) /\
    after m (so_mem o) start t rest (so_option o) /\ found_at (so_mem o) start 0 r (so_ret o) (so_value o).
Proof.
  intros N C F K D P L FL. unfold getsubopt. destruct (Z.eqb_spec start NULL); [contradiction|].
  destruct (cut_ok fuel m start s t rest C F L) as (m' & next & -> & A). cbn [bind].
  pose proof A as (A1 & A2 & _).
  assert (LT : len t <= len s) by (destruct F; rewrite ?len_app, ?len_cons; pose proof (len_nonneg t); try pose proof (len_nonneg s); lia).
  assert (K' : Forall2 (cstr m') keys kts).
  { clear P FL. induction K as [|p k keys kts Kp K IH]; [constructor|]. inversion D as [|? ? ? ? (_ & DJ) D']; subst.
    constructor; [|apply IH; exact D']. apply (cstr_ext m); [|exact Kp]. intros x X. apply A1. red in DJ. pose proof (len_nonneg t). lia. }
  assert (NN : Forall (fun k => k <> NULL) keys).
  { clear - D. induction D as [|p k keys kts (H & _) D IH]; constructor; assumption. }
  destruct (search_ok fuel m' start t A2 keys kts 0 r K' NN FL P) as (ret & v & -> & G). cbn [bind].
  eexists. split; [reflexivity|]. split; assumption.
Qed.
