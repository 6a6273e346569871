(* Proofs for C121: wide-character output. *)
From Coq Require Import ZArith List Bool Lia.
From Verif Require Import Base Utf8_model Utf8_spec Utf8_proofs Utf8_proofs2 Ostream_model Ostream_spec Ostream_proofs Wstdio_model Wstdio_spec.
From Verif Require Istream_model Istream_spec Wstdio_proofs.
Import ListNotations.
Open Scope Z_scope.

Lemma fine_later orc w w' : fine orc w -> (ncalls w <= ncalls w')%nat -> fine orc w'.
Proof. intros H L j J. apply H. lia. Qed.

Lemma wputc_ok k cap orc w c : sinv k (ost w) -> exists w' v, wputc k cap orc w c = Some (w', v) /\ sinv k (ost w') /\ (ncalls w <= ncalls w')%nat /\
  (oori w <= 0 -> oori w' < 0 /\ (fine orc w -> v = c /\ accepted w' = accepted w ++ [c mod 256])) /\ (0 < oori w -> w' = w).
Proof.
  intros I. unfold wputc. destruct (byte_ok (oori w)) eqn:B.
  - destruct (o_exec_spec k cap orc (ost w) (OpPutc c) I Logic.I) as (s & v & acc & E & A & U & I1 & C & _ & G & _). rewrite E.
    eexists _, _. split; [reflexivity|]. cbn [ost oori]. split; [exact I1|]. split; [exact C|]. split.
    + intros O. split; [apply Wstdio_proofs.ori_byte, O|]. intros F. destruct G as [-> ->].
      { intros (j & J & X). apply (F j); [unfold ncalls; lia|exact X]. }
      split; [reflexivity|]. exact U.
    + intros O. unfold byte_ok, set_orientation in B. destruct (Z.eqb_spec (oori w) 0); [lia|]. apply Z.ltb_lt in B. lia.
  - eexists _, _. split; [reflexivity|]. cbn [ost oori]. split; [exact I|]. split; [unfold ncalls; cbn; lia|]. split.
    + intros O. destruct (Wstdio_proofs.ori_byte _ O). congruence.
    + intros O. unfold set_orientation. destruct (Z.eqb_spec (oori w) 0); [lia|]. destruct w; reflexivity.
Qed.

Lemma put_all_ok k cap orc : forall l w, sinv k (ost w) -> exists w', put_all k cap orc w l = Some w' /\ sinv k (ost w') /\ (ncalls w <= ncalls w')%nat /\
  (oori w <= 0 -> oori w' <= 0 /\ (fine orc w -> accepted w' = accepted w ++ map (fun b => b mod 256) l)) /\ (0 < oori w -> w' = w).
Proof.
  induction l as [|b l IH]; intros w I; cbn [put_all].
  - exists w. split; [reflexivity|]. split; [exact I|]. split; [lia|]. split; [|auto]. intros O. split; [exact O|]. intros _. rewrite app_nil_r. reflexivity.
  - destruct (wputc_ok k cap orc w b I) as (w1 & v & E & I1 & C1 & A1 & W1). rewrite E.
    destruct (IH w1 I1) as (w2 & E2 & I2 & C2 & A2 & W2). exists w2. split; [exact E2|]. split; [exact I2|]. split; [lia|]. split.
    + intros O. destruct (A1 O) as (O1 & F1). destruct (A2 ltac:(lia)) as (O2 & F2). split; [exact O2|]. intros F. rewrite F2 by (eapply fine_later; eauto).
      destruct (F1 F) as (_ & ->). rewrite <- app_assoc. reflexivity.
    + intros O. rewrite W2 by (rewrite (W1 O); exact O). apply W1, O.
Qed.

Lemma fputwc_ok k cap orc w c : sinv k (ost w) -> scalar c -> exists w', fputwc k cap orc w c = Ok (w', c, None) /\ sinv k (ost w') /\ (ncalls w <= ncalls w')%nat /\
  (oori w <= 0 -> oori w' <= 0 /\ (fine orc w -> accepted w' = accepted w ++ utf8 c)) /\ (0 < oori w -> w' = w).
Proof.
  intros I S. unfold fputwc. destruct (Wstdio_proofs.wcrtomb_local c S) as (m & E & L). rewrite E. cbn [bind].
  pose proof (utf8_len_bounds c) as B. rewrite Z.min_l by lia. replace (Z.to_nat (len (utf8 c))) with (length (utf8 c)) by (unfold len; lia). rewrite L. cbn [bind].
  destruct (put_all_ok k cap orc (map to_i8 (utf8 c)) w I) as (w' & E2 & I2 & C2 & A2 & W2). rewrite E2, Wstdio_proofs.to_wint_scalar by exact S.
  rewrite Wstdio_proofs.map_i8 in A2 by (apply Wstdio_proofs.utf8_bytes, S). eauto 10.
Qed.

(* Any other wchar_t: four NULs, and it is returned. *)
Lemma fputwc_bad k cap orc w c : sinv k (ost w) -> i32 c -> ~ scalar c -> exists w', fputwc k cap orc w c = Ok (w', c mod 4294967296, Some EILSEQ) /\ sinv k (ost w') /\
  (ncalls w <= ncalls w')%nat /\ (oori w <= 0 -> oori w' <= 0 /\ (fine orc w -> accepted w' = accepted w ++ [0; 0; 0; 0])) /\ (0 < oori w -> w' = w).
Proof.
  intros I R S. unfold fputwc. rewrite (wcrtomb_bad (local []) 1 c) by (auto; discriminate). cbn [bind].
  change (Z.to_nat (Z.min SZ_M1 4)) with 4%nat. change (loads (local []) 1 4) with (Ok [0; 0; 0; 0]). cbn [bind].
  destruct (put_all_ok k cap orc [0; 0; 0; 0] w I) as (w' & E2 & I2 & C2 & A2 & W2). rewrite E2. exists w'. split; [reflexivity|]. split; [exact I2|]. split; [exact C2|]. split; [exact A2|exact W2].
Qed.

Lemma fputws_ok k cap orc m : forall cs fuel w ws, sinv k (ost w) -> wide cs -> bytes_at m ws (cs ++ [0]) -> (length cs < fuel)%nat -> oori w <= 0 -> fine orc w ->
  exists w', fputws fuel k cap orc w m ws = Ok (w', 0) /\ sinv k (ost w') /\ oori w' <= 0 /\ (ncalls w <= ncalls w')%nat /\ accepted w' = accepted w ++ utf8_str cs.
Proof.
  induction cs as [|c cs IH]; intros fuel w ws I W M F O FI; (destruct fuel as [|f]; [cbn in F; lia|]); cbn [fputws]; cbn [app bytes_at] in M; destruct M as [M0 M].
  - rewrite (ld_ok _ _ _ M0). cbn [bind]. cbn [Z.eqb]. exists w. split; [reflexivity|]. split; [exact I|]. split; [exact O|]. split; [lia|]. cbn. rewrite app_nil_r. reflexivity.
  - inversion W as [|? ? [S NZ] W']; subst. rewrite (ld_ok _ _ _ M0). cbn [bind]. destruct (Z.eqb_spec c 0); [contradiction|].
    destruct (fputwc_ok k cap orc w c I S) as (w1 & E1 & I1 & C1 & A1 & _). rewrite E1. cbn [bind].
    destruct (Z.eqb_spec c WEOF) as [->|_]; [destruct (Wstdio_proofs.weof_not_scalar S)|]. destruct (A1 O) as [O1 A2].
    destruct (IH f w1 (ws + 1) I1 W' M) as (w2 & E2 & I2 & O2 & C2 & A3); [cbn in F; lia|exact O1|eapply fine_later; eauto|].
    exists w2. split; [exact E2|]. split; [exact I2|]. split; [exact O2|]. split; [lia|]. rewrite A3, (A2 FI), utf8_str_cons, app_assoc. reflexivity.
Qed.

Lemma wo_exec_ok k cap orc w o : sinv k (ost w) -> (match o with WoPutwc c => i32 c | _ => True end) -> exists w' v, wo_exec k cap orc w o = Ok (w', v) /\ sinv k (ost w').
Proof.
  intros I H. destruct o as [c|mode|c|]; cbn [wo_exec].
  - destruct (Wstdio_proofs.scalar_dec c) as [S|S].
    + destruct (fputwc_ok k cap orc w c I S) as (w' & E & I' & _). rewrite E. cbn [bind]. eauto.
    + destruct (fputwc_bad k cap orc w c I H S) as (w' & E & I' & _). rewrite E. cbn [bind]. eauto.
  - eauto.
  - destruct (wputc_ok k cap orc w c I) as (w' & v & E & I' & _). rewrite E. eauto.
  - destruct (o_exec_spec k cap orc (ost w) OpFlush I Logic.I) as (s & v & acc & E & _ & _ & I1 & _). rewrite E. eauto.
Qed.
Lemma wo_run_ok k cap orc : forall l w, sinv k (ost w) -> wchar_args l -> exists w' vs, wo_run k cap orc w l = Ok (w', vs) /\ sinv k (ost w').
Proof.
  induction l as [|o l IH]; intros w I H; cbn [wo_run]; [eauto|]. destruct (wo_exec_ok k cap orc w o I) as (w1 & v & E & I1).
  { destruct o; auto. apply H. left. reflexivity. }
  rewrite E. cbn [bind]. destruct (IH w1 I1) as (w2 & vs & E2 & I2); [intros c C; apply H; right; exact C|]. rewrite E2. cbn [bind]. eauto.
Qed.
Lemma wo_reach k cap orc l w vs : wchar_args l -> wo_run k cap orc wo_open l = Ok (w, vs) -> sinv k (ost w).
Proof. intros H R. destruct (wo_run_ok k cap orc l wo_open (sinv_open k) H) as (w' & vs' & E & I). congruence. Qed.

(* Reading a file of characters. *)
Lemma read_chars orc : forall cs w, Wstdio_proofs.good_st w -> ori w <= 0 -> healthy orc w -> ~ Istream_spec.err (Istream_model.flags (ist w)) ->
  Istream_spec.unread (ist w) = utf8_str cs -> Forall scalar cs ->
  exists w', w_run orc w (repeat WGetwc (length cs) ++ [WGetwc]) = Ok (w', map (fun c => (c, [])) cs ++ [(WEOF, [])]).
Proof.
  induction cs as [|c cs IH]; intros w G O H N U S.
  - destruct (Wstdio_proofs.fgetwc_end orc w G O H U N) as (w' & E & _). cbn [repeat app w_run w_exec length]. rewrite E. cbn [bind map app]. eauto.
  - inversion S as [|? ? Sc Ss]; subst. rewrite utf8_str_cons in U.
    destruct (Wstdio_proofs.fgetwc_char orc w c G O H) as (w1 & E & U1 & F1 & G1 & O1 & R1). { rewrite U. split; [exact Sc|eauto]. }
    cbn [length repeat app w_run w_exec]. rewrite E. cbn [bind].
    destruct (IH w1 G1) as (w2 & E2); [lia|eapply Wstdio_proofs.healthy_later; eauto|rewrite F1; exact N|rewrite U in U1; apply app_inv_head in U1; auto|exact Ss|].
    rewrite E2. cbn [bind map app]. eauto.
Qed.

(** ** The theorems *)
Lemma out_fputwc k cap orc l w vs c : wchar_args l -> wo_run k cap orc wo_open l = Ok (w, vs) -> oori w <= 0 -> fine orc w -> scalar c ->
  exists w', fputwc k cap orc w c = Ok (w', c, None) /\ accepted w' = accepted w ++ utf8 c.
Proof.
  intros H R O F S. destruct (fputwc_ok k cap orc w c (wo_reach _ _ _ _ _ _ H R) S) as (w' & E & _ & _ & A & _). exists w'. split; [exact E|]. apply A; assumption.
Qed.
Lemma out_fputws k cap orc l w vs m ws cs fuel : wchar_args l -> wo_run k cap orc wo_open l = Ok (w, vs) -> oori w <= 0 -> fine orc w ->
  wide cs -> bytes_at m ws (cs ++ [0]) -> (length cs < fuel)%nat ->
  exists w', fputws fuel k cap orc w m ws = Ok (w', 0) /\ accepted w' = accepted w ++ utf8_str cs.
Proof.
  intros H R O F W M L. destruct (fputws_ok k cap orc m cs fuel w ws (wo_reach _ _ _ _ _ _ H R) W M L O F) as (w' & E & _ & _ & _ & A). eauto.
Qed.
Lemma out_in k cap orc m ws cs fuel rorc f b : fine orc wo_open -> wide cs -> bytes_at m ws (cs ++ [0]) -> (length cs < fuel)%nat ->
  (forall j, rorc j <> Istream_model.RErr /\ rorc j <> Istream_model.RN 0) -> b <> Some [] -> ~ Istream_spec.err f ->
  exists w w' F r, fputws fuel k cap orc wo_open m ws = Ok (w, 0) /\ wo_exec k cap orc w WoFlush = Ok (w', 0) /\ out (sdev (ost w')) = F /\
    w_run rorc (w_open F f b) (repeat WGetwc (length cs) ++ [WGetwc]) = Ok (r, map (fun c => (c, [])) cs ++ [(WEOF, [])]).
Proof.
  intros FI W M L H NB NE. destruct (fputws_ok k cap orc m cs fuel wo_open ws (sinv_open k) W M L ltac:(cbn; lia) FI) as (w & E & I & O & C & A).
  destruct (o_exec_spec k cap orc (ost w) OpFlush I Logic.I) as (s & v & acc & E2 & ACC & U & I2 & C2 & FL & G & _).
  destruct G as [-> ->]. { intros (j & J & X). apply (FI j); [unfold ncalls in *; lia|exact X]. }
  cbn [given success] in *. specialize (FL eq_refl eq_refl). rewrite FL, !app_nil_r in U.
  assert (EF : out (sdev s) = utf8_str cs) by (rewrite U; exact A).
  destruct (read_chars rorc cs (w_open (utf8_str cs) f b)) as (r & E3).
  - apply Wstdio_proofs.w_open_good; [exact NB|]. clear - W. induction W as [|c cs [S _] _ IH]; [constructor|]. rewrite utf8_str_cons. apply Forall_app. split; [apply Wstdio_proofs.utf8_bytes, S|exact IH].
  - cbn. lia.
  - intros j _. apply H.
  - exact NE.
  - reflexivity.
  - eapply Forall_impl; [|exact W]. intros c [S _]. exact S.
  - exists w, (WOS (oori w) s), (utf8_str cs), r. split; [exact E|]. split; [cbn [wo_exec]; rewrite E2; reflexivity|]. split; [exact EF|exact E3].
Qed.

Lemma fwide_ok orc w mode : exists o,
  w_exec orc w (WFwide mode) = Ok (WIS o (ist w), (o, [])) /\
  (ori w <> 0 -> o = ori w) /\
  (ori w = 0 -> (0 < mode -> 0 < o) /\ (mode < 0 -> o < 0) /\ (mode = 0 -> o = 0)).
Proof.
  exists (set_orientation (ori w) mode). split; [reflexivity|]. unfold set_orientation.
  destruct (Z.eqb_spec (ori w) 0) as [E|E]; split; intros H; try contradiction; try reflexivity.
  destruct (Z.ltb_spec 0 mode); [lia|]. destruct (Z.ltb_spec mode 0); lia.
Qed.
