(* Lemmas for C162. *)
From Verif Require Import Base String_model Word_mem Sockmsg_model Cmsg_model Cmsg_spec.

Lemma num_le k : forall v, num k v = le_bytes k v.
Proof. induction k as [|k IH]; intro v; [reflexivity|]. cbn [num le_bytes]. rewrite IH. reflexivity. Qed.
Lemma ld_len m a x l : laid m a (x :: l) -> 16 + len (data x) < 2 ^ 63 -> ld_le 8 m a = Ok (16 + len (data x)).
Proof.
  intros [B _] H. apply bytes_at_app in B as [B _]. rewrite num_le in B. apply ld_le_bytes; [exact B|]. pose proof (len_nonneg (data x)).
  change (256 ^ Z.of_nat 8) with 18446744073709551616. change (2 ^ 63) with 9223372036854775808 in H. lia.
Qed.
Lemma align_ok n : 0 <= n < 2 ^ 63 -> (n + 7) mod 2 ^ 64 / 8 * 8 = (n + 7) / 8 * 8.
Proof. intro H. rewrite Z.mod_small; [reflexivity|]. change (2 ^ 64) with 18446744073709551616. change (2 ^ 63) with 9223372036854775808 in H. lia. Qed.
Lemma align_room d : (16 + len d + 7) / 8 * 8 = room d.
Proof. unfold room. replace (16 + len d + 7) with (len d + 7 + 2 * 8) by lia. rewrite Z.div_add by lia. lia. Qed.
Lemma room_ge d : 16 + len d <= room d.
Proof. unfold room. pose proof (Z.div_mod (len d + 7) 8 ltac:(lia)). pose proof (Z.mod_pos_bound (len d + 7) 8 ltac:(lia)). lia. Qed.
Lemma total_cons x l : total (x :: l) = room (data x) + total l. Proof. reflexivity. Qed.
Lemma total_nonneg l : 0 <= total l.
Proof. induction l as [|x l IH]; [cbn; lia|]. rewrite total_cons. pose proof (room_ge (data x)). pose proof (len_nonneg (data x)). lia. Qed.
Lemma needed_16 x l : 16 + (match l with [] => len (data x) | _ => 0 end) <= needed (x :: l).
Proof.
  revert x. induction l as [|y l IH]; intro x; [cbn; lia|]. cbn [needed]. specialize (IH y). pose proof (room_ge (data x)). pose proof (len_nonneg (data x)). destruct l; cbn [needed] in *; pose proof (len_nonneg (data y)); lia.
Qed.
Lemma M64 : 2 ^ 64 = 18446744073709551616. Proof. reflexivity. Qed.
Lemma M63 : 2 ^ 63 = 9223372036854775808. Proof. reflexivity. Qed.

Lemma fn_next m c0 n a x l : 0 < a -> a + total (x :: l) < 2 ^ 63 -> laid m a (x :: l) -> 0 < c0 -> 0 <= n -> a + needed (x :: l) <= c0 + n <= a + total (x :: l) ->
  CMSG_NXTHDR m c0 n a = Ok (match l with [] => 0 | _ => a + room (data x) end).
Proof.
  intros A T L C N E. rewrite total_cons in *. pose proof (total_nonneg l). pose proof (room_ge (data x)). pose proof (len_nonneg (data x)). unfold CMSG_NXTHDR.
  replace (a =? 0) with false by (symmetry; apply Z.eqb_neq; lia). rewrite (ld_len m a x l L) by lia. cbn [bind]. unfold CMSG_ALIGN at 1 3. rewrite align_ok, align_room by lia. change (CMSG_ALIGN 16) with 16.
  rewrite M63 in *. rewrite (Z.mod_small (a + room (data x) + 16)) by (rewrite M64; lia). rewrite (Z.mod_small (a + room (data x))) by (rewrite M64; lia).
  destruct l as [|y l].
  - cbn [total fold_right] in E. replace (c0 + n <? a + room (data x) + 16) with true by (symmetry; apply Z.ltb_lt; lia). reflexivity.
  - cbn [needed] in E. pose proof (needed_16 y l). change (match l with [] => 16 + len (data y) | _ => room (data y) + needed l end) with (needed (y :: l)) in E.
    assert (0 <= match l with [] => len (data y) | _ => 0 end) by (destruct l; [apply len_nonneg|lia]).
    replace (c0 + n <? a + room (data x) + 16) with false by (symmetry; apply Z.ltb_ge; lia). reflexivity.
Qed.
Lemma macro_next m c0 n a x l : 0 < a -> a + total (x :: l) < 2 ^ 63 -> laid m a (x :: l) -> 0 < c0 -> 0 <= n -> a + needed (x :: l) <= c0 + n <= a + total (x :: l) -> last_has_data (x :: l) ->
  MACRO_NXTHDR m c0 n a = Ok (match l with [] => 0 | _ => a + room (data x) end).
Proof.
  intros A T L C N E D. rewrite total_cons in *. pose proof (total_nonneg l). pose proof (room_ge (data x)). pose proof (len_nonneg (data x)). unfold MACRO_NXTHDR.
  rewrite (ld_len m a x l L) by lia. cbn [bind]. replace (16 + len (data x) <? 16) with false by (symmetry; apply Z.ltb_ge; lia). unfold MACRO_LEN. rewrite align_ok, align_room by lia.
  pose proof (needed_16 x l). assert (0 <= match l with [] => len (data x) | _ => 0 end) by (destruct l; lia).
  rewrite M63 in *. rewrite (Z.mod_small (c0 + n - a)) by (rewrite M64; lia). rewrite (Z.mod_small (room (data x) + 16)) by (rewrite M64; lia). rewrite (Z.mod_small (a + room (data x))) by (rewrite M64; lia).
  destruct l as [|y l].
  - cbn [total fold_right] in E. replace (c0 + n - a <=? room (data x) + 16) with true by (symmetry; apply Z.leb_le; lia). reflexivity.
  - assert (Q : 16 < needed (y :: l)).
    { pose proof (needed_16 y l). destruct l as [|z l].
      - cbn in D. destruct (data y) as [|b d] eqn:Y; [congruence|]. cbn [needed]. rewrite Y, len_cons. pose proof (len_nonneg d). lia.
      - pose proof (needed_16 z l). assert (0 <= match l with [] => len (data z) | _ => 0 end) by (destruct l; [apply len_nonneg|lia]). pose proof (room_ge (data y)). pose proof (len_nonneg (data y)).
        change (needed (y :: z :: l)) with (room (data y) + needed (z :: l)). lia. }
    change (needed (x :: y :: l)) with (room (data x) + needed (y :: l)) in E. replace (c0 + n - a <=? room (data x) + 16) with false by (symmetry; apply Z.leb_gt; lia). reflexivity.
Qed.
Lemma last_tail x y l : last_has_data (x :: y :: l) -> last_has_data (y :: l).
Proof. destruct l as [|z l]; [intros _; exact I|]. intro H. exact H. Qed.
Lemma walk_gen next (P : list message -> Prop) m c0 n :
  (forall x y l, P (x :: y :: l) -> P (y :: l)) ->
  (forall a x l, 0 < a -> a + total (x :: l) < 2 ^ 63 -> laid m a (x :: l) -> a + needed (x :: l) <= c0 + n <= a + total (x :: l) -> P (x :: l) ->
     next m c0 n a = Ok (match l with [] => 0 | _ => a + room (data x) end)) ->
  forall l a, 0 < a -> a + total l < 2 ^ 63 -> laid m a l -> a + needed l <= c0 + n <= a + total l -> P l ->
    walk next (S (List.length l)) m c0 n (match l with [] => 0 | _ => a end) = Ok (places a l).
Proof.
  intros PT NX. induction l as [|x l IH]; intros a A T L E D; [reflexivity|]. cbn [List.length]. remember (S (List.length l)) as f. cbn [walk].
  replace (a =? 0) with false by (symmetry; apply Z.eqb_neq; lia). rewrite (NX a x l A T L E D). cbn [bind]. subst f. destruct l as [|y l]; [reflexivity|].
  rewrite total_cons in T, E. pose proof (room_ge (data x)). pose proof (len_nonneg (data x)). specialize (IH (a + room (data x))). cbn match in IH. rewrite IH; [reflexivity|lia|lia|apply L| |apply PT in D; exact D].
  change (needed (x :: y :: l)) with (room (data x) + needed (y :: l)) in E. lia.
Qed.
Lemma first_ok a n l : 0 < a -> needed l <= n <= total l -> (if 16 <=? n then a else 0) = match l with [] => 0 | _ => a end.
Proof.
  intros A E. destruct l as [|x l]; [cbn in E; replace (16 <=? n) with false by (symmetry; apply Z.leb_gt; lia); reflexivity|].
  pose proof (needed_16 x l). assert (0 <= match l with [] => len (data x) | _ => 0 end) by (destruct l; [apply len_nonneg|lia]). replace (16 <=? n) with true by (symmetry; apply Z.leb_le; lia). reflexivity.
Qed.
Lemma needed_nonneg l : 0 <= needed l.
Proof. destruct l as [|x l]; [cbn; lia|]. pose proof (needed_16 x l). assert (0 <= match l with [] => len (data x) | _ => 0 end) by (destruct l; [apply len_nonneg|lia]). lia. Qed.
Lemma fn_walk_ok m a n l : buffer m a n l -> function_walk (S (List.length l)) m a n = Ok (places a l).
Proof.
  intros (A & T & L & E). pose proof (needed_nonneg l). unfold function_walk, CMSG_FIRSTHDR. rewrite (first_ok a n l A E). apply (walk_gen _ (fun _ => True)); try assumption; try lia; try (intros; exact I).
  intros; apply fn_next; try assumption; lia.
Qed.
Lemma macro_walk_ok m a n l : buffer m a n l -> last_has_data l -> macro_walk (S (List.length l)) m a n = Ok (places a l).
Proof.
  intros (A & T & L & E) D. pose proof (needed_nonneg l). unfold macro_walk, MACRO_FIRSTHDR. rewrite (first_ok a n l A E). apply (walk_gen _ last_has_data); try assumption; try lia; [apply last_tail|].
  intros; apply macro_next; try assumption; lia.
Qed.
Lemma place_data m : forall l a i p x, laid m a l -> nth_error (places a l) i = Some p -> nth_error l i = Some x ->
  bytes_at m p (num 8 (16 + len (data x)) ++ num 4 (level x) ++ num 4 (kind x)) /\ bytes_at m (MACRO_DATA p) (data x) /\ CMSG_DATA p = MACRO_DATA p.
Proof.
  induction l as [|y l IH]; intros a i p x L P X; [destruct i; discriminate|]. destruct L as [B L]. destruct i as [|i]; cbn [nth_error places] in *; [|apply (IH _ i p x L P X)].
  assert (p = a) by congruence. assert (y = x) by congruence. subst. rewrite !app_assoc in B. apply bytes_at_app in B as [B1 B2]. rewrite <- app_assoc in B1. split; [exact B1|]. split; [|reflexivity].
  rewrite !len_app, !num_le, !le_bytes_len in B2. exact B2.
Qed.
Lemma sizes n : 0 <= n < 2 ^ 32 - 24 -> CMSG_LEN n = 16 + n /\ CMSG_SPACE n = 16 + (n + 7) / 8 * 8.
Proof.
  intro H. change (2 ^ 32) with 4294967296 in H. unfold CMSG_LEN, CMSG_SPACE. unfold CMSG_ALIGN at 2. rewrite align_ok by (rewrite M63; lia). change (CMSG_ALIGN 16) with 16. change (2 ^ 32) with 4294967296.
  pose proof (Z.div_mod (n + 7) 8 ltac:(lia)). pose proof (Z.mod_pos_bound (n + 7) 8 ltac:(lia)). rewrite !Z.mod_small by lia. lia.
Qed.

(* any contents *)
Lemma macro_inside m a n p q : 0 < a -> 0 <= n -> a + n < 2 ^ 63 -> header_in a n p -> (exists k, ld_le 8 m p = Ok k /\ 0 <= k < 2 ^ 63) -> MACRO_NXTHDR m a n p = Ok q ->
  q = 0 \/ p + 16 <= q /\ header_in a n q.
Proof.
  intros A N T (P1 & P2 & P3) (k & K & R) E. unfold MACRO_NXTHDR in E. rewrite K in E. cbn [bind] in E. destruct (k <? 16) eqn:K16; [left; congruence|]. apply Z.ltb_ge in K16.
  unfold MACRO_LEN in E. rewrite align_ok in E by exact R. pose proof (Z.div_mod (k + 7) 8 ltac:(lia)). pose proof (Z.mod_pos_bound (k + 7) 8 ltac:(lia)). rewrite M63 in *.
  rewrite (Z.mod_small (a + n - p)) in E by (rewrite M64; lia). rewrite (Z.mod_small ((k + 7) / 8 * 8 + 16)) in E by (rewrite M64; lia).
  rewrite (Z.mod_small (p + (k + 7) / 8 * 8)) in E by (rewrite M64; lia). destruct (_ <=? _) eqn:L; [left; congruence|]. apply Z.leb_gt in L. right.
  assert (q = p + (k + 7) / 8 * 8) by congruence. subst q. split; [lia|]. repeat split; try lia.
Qed.
Lemma macro_walk_inside m a n : 0 < a -> 0 <= n -> a + n < 2 ^ 63 -> (forall p, header_in a n p -> exists k, ld_le 8 m p = Ok k /\ 0 <= k < 2 ^ 63) ->
  forall f p, p = 0 \/ header_in a n p -> (p = 0 \/ a + n - p < 16 * Z.of_nat f) -> (0 < f)%nat -> exists l, walk MACRO_NXTHDR f m a n p = Ok l /\ Forall (header_in a n) l /\ (Z.of_nat (List.length l) * 16 <= if p =? 0 then 0 else a + n - p).
Proof.
  intros A N T R. induction f as [|f IH]; intros p P F Z0; [lia|]. cbn [walk]. destruct (p =? 0) eqn:P0; [exists []; split; [reflexivity|]; split; [constructor|cbn; lia]|].
  apply Z.eqb_neq in P0. destruct P as [P|P]; [contradiction|]. destruct F as [F|F]; [contradiction|]. destruct (R p P) as (k & K & KR).
  assert (X : exists q, MACRO_NXTHDR m a n p = Ok q) by (unfold MACRO_NXTHDR; rewrite K; cbn [bind]; destruct (k <? 16); [eauto|]; destruct (_ <=? _); eauto).
  destruct X as (q & Q). rewrite Q. cbn [bind]. destruct (macro_inside m a n p q A N T P (ex_intro _ k (conj K KR)) Q) as [->|[G H]].
  - destruct f as [|f].
    + destruct P as (P1 & P2 & _). lia.
    + cbn [walk]. exists [p]. split; [reflexivity|]. split; [repeat constructor; apply P|]. destruct P as (P1 & P2 & _). cbn [List.length]. lia.
  - destruct f as [|f]; [destruct H as (H1 & H2 & _); destruct P as (P1 & P2 & _); lia|].
    destruct (IH q) as (l & W & FL & LL); [right; exact H|right; lia|lia|]. rewrite W. exists (p :: l). split; [reflexivity|]. split; [constructor; assumption|].
    replace (q =? 0) with false in LL by (symmetry; apply Z.eqb_neq; destruct P as (P1 & _); lia). cbn [List.length]. lia.
Qed.
