(* Proofs for C120: wide-character input. *)
From Coq Require Import ZArith List Bool Lia.
From Verif Require Import Base Utf8_model Utf8_spec Utf8_proofs Utf8_proofs2 Istream_model Istream_spec Istream_proofs Istream_flags Wstdio_model Wstdio_spec.
Import ListNotations.
Open Scope Z_scope.

Lemma ori_byte o : o <= 0 -> byte_ok o = true /\ set_orientation o (-1) < 0.
Proof.
  intros H. unfold byte_ok, set_orientation. destruct (Z.eqb_spec o 0); cbn; [split; [reflexivity|lia]|].
  split; [apply Z.ltb_lt|]; lia.
Qed.

Lemma wgetc_ok orc w : inv (ist w) -> ori w <= 0 -> exists w' v, wgetc orc w = Ok (w', v) /\ inv (ist w') /\ ori w' < 0 /\
  (reads (ist w) <= reads (ist w'))%nat /\
  (v = -1 /\ unread (ist w') = unread (ist w) /\ (hit_error orc (ist w) (ist w') \/ hit_end orc (ist w) (ist w')) /\
     (exists k, q orc (ist w) (ist w') k) \/
   unread (ist w) = v :: unread (ist w') /\ q orc (ist w) (ist w') Fine).
Proof.
  intros I O. destruct (ori_byte _ O) as [B N]. unfold wgetc. rewrite B. cbn [i_exec].
  destruct (f_read_spec orc (ist w) 1 I) as (s & r & E & I1 & R & H); [lia|]. rewrite E. cbn [bind].
  pose proof (f_read_q orc (ist w) 1 s r (Nat.lt_0_succ 0) (proj2 (proj2 I)) E) as Q.
  destruct r as [[|x d]|].
  - destruct H as (U & _ & HE). eexists _, _. split; [reflexivity|]. cbn [ist ori]. repeat split; auto; try apply I1.
    left. repeat split; auto. eauto.
  - destruct H as (U & L & _). destruct d; [|cbn in L; lia]. eexists _, _. split; [reflexivity|]. cbn [ist ori]. repeat split; auto; try apply I1.
  - destruct H as (U & HE). eexists _, _. split; [reflexivity|]. cbn [ist ori]. repeat split; auto; try apply I1.
    left. repeat split; auto. eauto.
Qed.

Lemma starts_more a b c : starts_with_char a c -> starts_with_char (a ++ b) c.
Proof. intros (S & post & E). split; [exact S|]. exists (post ++ b). rewrite E, app_assoc. reflexivity. Qed.

Lemma len_app' (a b : list Z) : len (a ++ b) = len a + len b. Proof. apply len_app. Qed.

Lemma hd_utf8_app c p : utf8 c ++ p <> [] /\ hd 0 (utf8 c ++ p) = hd 0 (utf8 c).
Proof.
  pose proof (utf8_len_bounds c). destruct (utf8 c); [rewrite len_nil in H; lia|]. cbn. split; [discriminate|reflexivity].
Qed.

(* A list long enough for its first byte that starts with a character is this character. *)
Lemma exact_char buf c : starts_with_char buf c -> get_char_encoded_length (hd 0 buf) = Some (len buf) -> buf = utf8 c.
Proof.
  intros (S & post & E) G. subst buf. rewrite (proj2 (hd_utf8_app c post)), enc_len_utf8 in G by exact S.
  injection G as G. rewrite len_app in G. destruct post; [rewrite app_nil_r; reflexivity|]. rewrite len_cons in G. pose proof (len_nonneg post). lia.
Qed.

Lemma scalar_dec c : {scalar c} + {~ scalar c}.
Proof.
  destruct (Z_le_dec 0 c), (Z_le_dec c 55295), (Z_le_dec 57344 c), (Z_le_dec c 1114111); (left; unfold scalar; lia) || (right; unfold scalar; lia).
Qed.

Lemma local_bytes buf : bytes_at (local buf) 1 buf.
Proof. unfold local. pose proof (mem_of_bytes 1 (buf ++ repeat 0 (4 - length buf))) as H. apply bytes_at_app in H. apply H. Qed.

Lemma to_wint_scalar c : scalar c -> to_wint c = c.
Proof. intros H. unfold to_wint. apply Z.mod_small. unfold scalar in H. lia. Qed.

(* The decoding of the whole array. *)
Lemma mb_local buf : buf <> [] -> Forall is_byte buf -> get_char_encoded_length (hd 0 buf) = Some (len buf) ->
  exists r wc e, mbrtowc (local buf) 1 (len buf) = Ok (r, wc, e) /\
    ((exists c, scalar c /\ buf = utf8 c /\ wc = Some c /\ e = None) \/ (no_char buf /\ wc = None /\ e = Some EILSEQ)).
Proof.
  intros N B G. destruct (mbrtowc_cases (local buf) 1 buf ltac:(discriminate) N B (local_bytes buf)) as [r [wc [e [E [[c [Hc [Hr [Hw He]]]]|[Hn [Hw [He Hr]]]]]]]];
    exists r, wc, e; (split; [exact E|]).
  - left. exists c. split; [apply Hc|]. split; [|auto]. apply exact_char; assumption.
  - right. auto.
Qed.

Lemma prefix_char buf rest c : buf <> [] -> get_char_encoded_length (hd 0 buf) = Some (len buf) -> starts_with_char (buf ++ rest) c -> buf = utf8 c.
Proof.
  intros N G (S & post & E).
  assert (H : hd 0 buf = hd 0 (utf8 c)).
  { rewrite <- (proj2 (hd_utf8_app c post)), <- E. destruct buf; [congruence|reflexivity]. }
  rewrite H, enc_len_utf8 in G by exact S. injection G as G. unfold len in G.
  apply (f_equal (firstn (length buf))) in E. rewrite firstn_app, firstn_all, Nat.sub_diag, firstn_O, app_nil_r in E.
  replace (length buf) with (length (utf8 c)) in E by lia. rewrite firstn_app, firstn_all, Nat.sub_diag, firstn_O, app_nil_r in E. exact E.
Qed.

Definition starved (l : list Z) : Prop := l = [] \/ exists el, get_char_encoded_length (hd 0 l) = Some el /\ len l < el.
Definition got (orc : nat -> rres) (w w' : wis) (buf d : list Z) (v : Z) (e : option Z) : Prop :=
  (scalar v /\ buf ++ d = utf8 v /\ e = None /\ q orc (ist w) (ist w') Fine) \/
  (v = WEOF /\ e = None /\ (hit_error orc (ist w) (ist w') \/ hit_end orc (ist w) (ist w')) /\ (exists k, q orc (ist w) (ist w') k) /\ starved (buf ++ d)) \/
  (v = WEOF /\ e = Some EILSEQ /\ err (flags (ist w')) /\ buf ++ d <> [] /\ get_char_encoded_length (hd 0 (buf ++ d)) = None) \/
  (v = 0 /\ e = Some EILSEQ /\ no_char (buf ++ d) /\ buf ++ d <> [] /\ get_char_encoded_length (hd 0 (buf ++ d)) = Some (len (buf ++ d)) /\ q orc (ist w) (ist w') Fine).

Lemma enc_le b el : get_char_encoded_length b = Some el -> 1 <= el <= 4.
Proof. unfold get_char_encoded_length. repeat (destruct (_ =? _); [intros [= <-]; lia|]). discriminate. Qed.

Lemma set_flags_inv s f : inv s -> inv (set_flags s f). Proof. intros H. exact H. Qed.

Lemma got_trans orc w w1 w' buf x d v e : q orc (ist w) (ist w1) Fine -> (reads (ist w) <= reads (ist w1))%nat -> got orc w1 w' (buf ++ [x]) d v e -> got orc w w' buf (x :: d) v e.
Proof.
  intros Q R G. unfold got in *. rewrite <- app_assoc in G. cbn [app] in G. destruct G as [G|[G|[G|G]]].
  - left. destruct G as (A & B & C & D). split; [exact A|]. split; [exact B|]. split; [exact C|]. eapply q_trans; eauto.
  - right; left. destruct G as (A & B & [C|C] & [k D] & F); (split; [exact A|]; split; [exact B|]; split; [|split; [exists k; eapply q_trans; eauto|exact F]]).
    + left. eapply hit_error_l; eauto.
    + right. eapply hit_end_l; eauto.
  - right; right; left. exact G.
  - right; right; right. destruct G as (A & B & C & D & E & F). split; [exact A|]. split; [exact B|]. split; [exact C|]. split; [exact D|]. split; [exact E|]. eapply q_trans; eauto.
Qed.

Lemma fgetwc_loop_ok orc : forall fuel w buf el, inv (ist w) -> ori w <= 0 -> Forall is_byte (unread (ist w)) -> Forall is_byte buf ->
  (buf = [] \/ get_char_encoded_length (hd 0 buf) = Some el /\ len buf < el) -> 4 - len buf < Z.of_nat fuel ->
  exists w' v e d, fgetwc_loop fuel orc w buf el = Ok (w', v, e) /\ inv (ist w') /\ ori w' < 0 /\ (reads (ist w) <= reads (ist w'))%nat /\
    unread (ist w) = d ++ unread (ist w') /\ got orc w w' buf d v e.
Proof.
  induction fuel as [|f IH]; intros w buf el I O B BB HB F.
  { exfalso. destruct HB as [->|[G L]]; [rewrite len_nil in F; lia|]. apply enc_le in G. lia. }
  cbn [fgetwc_loop]. destruct (wgetc_ok orc w I O) as (w1 & x & E & I1 & O1 & R1 & H). rewrite E. cbn [bind].
  destruct H as [(-> & U & HE & HK)|(U & Q)].
  - cbn [Z.eqb I_EOF Pos.eqb]. eexists w1, _, _, []. split; [reflexivity|]. split; [exact I1|]. split; [exact O1|]. split; [exact R1|].
    split; [cbn; congruence|]. unfold got. right; left. rewrite app_nil_r. repeat split; auto.
    destruct HB as [->|[G L]]; [left; reflexivity|right; eauto].
  - rewrite U in B. inversion B as [|? ? BX BR]; subst. unfold I_EOF. destruct (Z.eqb_spec x (-1)) as [->|NX]; [unfold is_byte in BX; lia|].
    rewrite (Z.mod_small x) by exact BX.
    assert (LB : len (buf ++ [x]) = len buf + 1) by (rewrite len_app, len_cons, len_nil; lia). pose proof (len_nonneg buf) as LN.
    set (t := if len (buf ++ [x]) =? 1 then get_char_encoded_length (hd 0 (buf ++ [x])) else Some el).
    assert (T : t = get_char_encoded_length (hd 0 (buf ++ [x]))).
    { unfold t. rewrite LB. destruct HB as [->|[G L]]; [reflexivity|]. destruct buf as [|y b]; [rewrite len_nil; reflexivity|].
      rewrite len_cons in *. pose proof (len_nonneg b). destruct (Z.eqb_spec (len b + 1 + 1) 1); [lia|]. cbn [hd app] in *. auto. }
    rewrite T. clear T t.
    assert (NE : buf ++ [x] <> []) by (destruct buf; discriminate).
    assert (BB1 : Forall is_byte (buf ++ [x])) by (apply Forall_app; split; [exact BB|constructor; [exact BX|constructor]]).
    assert (KL : forall e, get_char_encoded_length (hd 0 (buf ++ [x])) = Some e -> len buf < e).
    { intros e0 G0. destruct HB as [->|[G L]]; [rewrite len_nil; apply enc_le in G0; lia|]. destruct buf; [rewrite len_nil; apply enc_le in G0; lia|]. cbn [hd app] in *. congruence. }
    destruct (get_char_encoded_length (hd 0 (buf ++ [x]))) as [e0|] eqn:G.
    + specialize (KL e0 eq_refl). destruct (Z.leb_spec e0 (len (buf ++ [x]))) as [L|L].
      * assert (e0 = len (buf ++ [x])) by lia. subst e0.
        destruct (mb_local (buf ++ [x]) NE BB1 G) as (r & wc & e & M & HM). rewrite M. cbn [bind].
        destruct HM as [(c & S & EB & -> & ->)|(NC & -> & ->)].
        -- rewrite to_wint_scalar by exact S. eexists w1, _, _, [x]. split; [reflexivity|]. repeat split; auto; try apply I1. left. auto.
        -- eexists w1, _, _, [x]. split; [reflexivity|]. repeat split; auto; try apply I1. right; right; right. repeat split; auto; apply Q.
      * destruct (IH w1 (buf ++ [x]) e0 I1) as (w' & v & e & d & E2 & I2 & O2 & R2 & U2 & G2); auto; [lia|lia|].
        rewrite E2. eexists w', v, e, (x :: d). split; [reflexivity|]. split; [exact I2|]. split; [exact O2|]. split; [lia|].
        split; [rewrite U, U2; reflexivity|]. eapply got_trans; eauto.
    + eexists _, _, _, [x]. split; [reflexivity|]. cbn [ist ori]. split; [exact I1|]. split; [exact O1|]. split; [exact R1|]. split; [exact U|].
      right; right; left. repeat split; auto. unfold err. apply lor_err.
Qed.

Lemma fgetwc_ok orc w : inv (ist w) -> ori w <= 0 -> Forall is_byte (unread (ist w)) ->
  exists w' v e d, fgetwc orc w = Ok (w', v, e) /\ inv (ist w') /\ ori w' < 0 /\ (reads (ist w) <= reads (ist w'))%nat /\
    unread (ist w) = d ++ unread (ist w') /\ got orc w w' [] d v e.
Proof. intros I O B. apply fgetwc_loop_ok; auto. rewrite len_nil. cbn. lia. Qed.

(* On a wide stream nothing is read. *)
Lemma fgetwc_wide orc w : 0 < ori w -> fgetwc orc w = Ok (w, WEOF, None).
Proof.
  intros O. unfold fgetwc. cbn [fgetwc_loop]. unfold wgetc, byte_ok, set_orientation. destruct (Z.eqb_spec (ori w) 0); [lia|].
  destruct (Z.ltb_spec (ori w) 0); [lia|]. cbn. destruct w; reflexivity.
Qed.

(** ** Calls *)
Lemma healthy_later orc w w' : healthy orc w -> (reads (ist w) <= reads (ist w'))%nat -> healthy orc w'.
Proof. intros H R j J. apply H. lia. Qed.
Definition good_st (w : wis) : Prop := inv (ist w) /\ Forall is_byte (unread (ist w)).

Lemma good_step w w' d : good_st w -> inv (ist w') -> unread (ist w) = d ++ unread (ist w') -> good_st w'.
Proof. intros (_ & B) I U. split; [exact I|]. rewrite U in B. apply Forall_app in B. apply B. Qed.

Lemma char_start cs c r : starts_with_char (utf8 c ++ r) cs -> scalar c -> cs = c.
Proof.
  intros S Hc. assert (E : utf8 c = utf8 cs).
  { apply (prefix_char _ r); [|rewrite enc_len_utf8 by exact Hc; reflexivity|exact S].
    pose proof (proj1 (hd_utf8_app c [])) as X. rewrite app_nil_r in X. exact X. }
  destruct S as [Hs _].
  pose proof (utf8_mbrtowc_char (mem_of 1 (utf8 c)) 1 4 c Hc (mem_of_bytes 1 (utf8 c)) ltac:(pose proof (utf8_len_bounds c); lia)) as A.
  pose proof (utf8_mbrtowc_char (mem_of 1 (utf8 c)) 1 4 cs Hs) as D. rewrite <- E in D.
  specialize (D (mem_of_bytes 1 (utf8 c)) ltac:(pose proof (utf8_len_bounds c); lia)). congruence.
Qed.

Lemma fgetwc_char orc w c : good_st w -> ori w <= 0 -> healthy orc w -> starts_with_char (unread (ist w)) c ->
  exists w', fgetwc orc w = Ok (w', c, None) /\ unread (ist w) = utf8 c ++ unread (ist w') /\ flags (ist w') = flags (ist w) /\
    good_st w' /\ ori w' < 0 /\ (reads (ist w) <= reads (ist w'))%nat.
Proof.
  intros G O H S. destruct (fgetwc_ok orc w (proj1 G) O (proj2 G)) as (w' & v & e & d & E & I & O' & R & U & K).
  unfold got in K. cbn [app] in K. destruct K as [(Sv & -> & -> & Q)|[(-> & -> & HE & _ & ST)|[(-> & -> & _ & NE & EN)|(-> & -> & NC & NE & EN & _)]]].
  - rewrite U in S. apply char_start in S; [|exact Sv]. subst v. exists w'. split; [exact E|]. split; [exact U|]. split; [apply Q|]. split; [eapply good_step; eauto|auto].
  - exfalso. destruct HE as [(_ & j & J & X)|(_ & UI & [X|(j & J & X)])]; [apply (H j) in X; [exact X|lia]| |apply (H j) in X; [exact X|lia]].
    rewrite UI, X, app_nil_r in U. rewrite U in S. destruct S as (Sc & post & ->). pose proof (utf8_len_bounds c) as LB.
    destruct ST as [Z|(el & EN & L)]; [apply (proj1 (hd_utf8_app c post)) in Z; exact Z|]. rewrite (proj2 (hd_utf8_app c post)), enc_len_utf8 in EN by exact Sc.
    injection EN as <-. rewrite len_app in L. pose proof (len_nonneg post). lia.
  - exfalso. rewrite U in S. destruct S as (Sc & post & X). assert (Y : hd 0 d = hd 0 (utf8 c)).
    { rewrite <- (proj2 (hd_utf8_app c post)), <- X. destruct d; [congruence|reflexivity]. }
    rewrite Y, enc_len_utf8 in EN by exact Sc. discriminate.
  - exfalso. rewrite U in S. pose proof S as (Sc & _). apply prefix_char in S; [|exact NE|exact EN]. apply (NC c). split; [exact Sc|]. exists []. rewrite app_nil_r. exact S.
Qed.

Lemma no_err_q orc w w' k : healthy orc w -> q orc (ist w) (ist w') k -> ~ err (flags (ist w)) -> ~ err (flags (ist w')).
Proof.
  intros H Q N E. apply q_tells in Q. destruct Q as (A & _). apply A in E. destruct E as [E|(j & J & E)]; [auto|]. apply (H j) in E; [exact E|lia].
Qed.

Lemma fgetwc_end orc w : good_st w -> ori w <= 0 -> healthy orc w -> unread (ist w) = [] -> ~ err (flags (ist w)) ->
  exists w', fgetwc orc w = Ok (w', WEOF, None) /\ unread (ist w') = [] /\ ~ err (flags (ist w')) /\ good_st w' /\ ori w' < 0 /\ (reads (ist w) <= reads (ist w'))%nat.
Proof.
  intros G O H N F. destruct (fgetwc_ok orc w (proj1 G) O (proj2 G)) as (w' & v & e & d & E & I & O' & R & U & K).
  pose proof U as U0. rewrite N in U0. symmetry in U0. apply app_eq_nil in U0. destruct U0 as [-> U0]. unfold got in K. cbn [app] in K.
  destruct K as [(Sv & X & _)|[(-> & -> & HE & [k Q] & ST)|[(-> & -> & _ & NE & EN)|(-> & -> & NC & NE & _)]]]; try congruence.
  - pose proof (utf8_len_bounds v) as L. rewrite <- X, len_nil in L. lia.
  - exists w'. split; [exact E|]. split; [exact U0|]. split; [eapply no_err_q; eauto|]. split; [eapply good_step; eauto|auto].
Qed.

Lemma weof_not_scalar : ~ scalar WEOF. Proof. unfold scalar, WEOF. lia. Qed.

Lemma cut_cons x l : x <> 10 -> cut_at 10 l -> cut_at 10 (x :: l).
Proof. intros N H. apply (cut_app 10 [x] l); [|exact H]. intros [E|[]]. auto. Qed.
Lemma ends_cons x l : ends_with 10 l -> ends_with 10 (x :: l).
Proof. intros [d ->]. exists (x :: d). reflexivity. Qed.

Lemma fgetws_loop_ok orc n : forall fuel w have cs, good_st w -> ori w <= 0 -> healthy orc w -> ~ err (flags (ist w)) ->
  unread (ist w) = utf8_str cs -> Forall scalar cs -> len have + 1 <= n -> n - len have <= Z.of_nat fuel ->
  exists cs1 cs2 w', cs = cs1 ++ cs2 /\ fgetws_loop fuel orc w n have = Ok (w', have ++ cs1) /\ unread (ist w') = utf8_str cs2 /\ ~ err (flags (ist w')) /\
    len have + len cs1 <= n - 1 /\ cut_at 10 cs1 /\ (len have + len cs1 = n - 1 \/ ends_with 10 cs1 \/ cs2 = []).
Proof.
  induction fuel as [|f IH]; intros w have cs G O H N U S L F; [lia|]. cbn [fgetws_loop].
  assert (C0 : cut_at 10 []) by (unfold cut_at; cbn; auto).
  destruct (Z.ltb_spec (len have + 1) n) as [LT|LT].
  2:{ exists [], cs, w. rewrite (app_nil_r have), len_nil. split; [reflexivity|]. split; [reflexivity|]. split; [exact U|]. split; [exact N|]. split; [lia|]. split; [exact C0|]. left. lia. }
  destruct cs as [|c cs].
  { destruct (fgetwc_end orc w G O H U N) as (w' & E & U' & N' & _). rewrite E. cbn [bind]. rewrite Z.eqb_refl.
    exists [], [], w'. rewrite (app_nil_r have), len_nil. split; [reflexivity|]. split; [reflexivity|]. split; [exact U'|]. split; [exact N'|]. split; [lia|]. split; [exact C0|]. auto. }
  inversion S as [|? ? Sc Ss]; subst. rewrite utf8_str_cons in U.
  destruct (fgetwc_char orc w c G O H) as (w' & E & U' & FL & G' & O' & R'). { rewrite U. split; [exact Sc|eauto]. }
  rewrite E. cbn [bind]. destruct (Z.eqb_spec c WEOF) as [->|_]; [destruct (weof_not_scalar Sc)|].
  rewrite U in U'. apply app_inv_head in U'. symmetry in U'.
  assert (N' : ~ err (flags (ist w'))) by (rewrite FL; exact N).
  destruct (Z.eqb_spec c 10) as [->|NC].
  - exists [10], cs, w'. rewrite len_cons, len_nil. split; [reflexivity|]. split; [reflexivity|]. split; [exact U'|]. split; [exact N'|]. split; [lia|]. split; [unfold cut_at; cbn; auto|]. right; left. exists []. reflexivity.
  - assert (LH : len (have ++ [c]) = len have + 1) by (rewrite len_app, len_cons, len_nil; lia).
    destruct (IH w' (have ++ [c]) cs G') as (cs1 & cs2 & w2 & -> & E2 & U2 & N2 & L2 & C2 & D2); auto; try lia.
    { eapply healthy_later; eauto. }
    rewrite <- app_assoc in E2. cbn [app] in E2. exists (c :: cs1), cs2, w2. rewrite len_cons. split; [reflexivity|]. split; [exact E2|].
    split; [exact U2|]. split; [exact N2|]. split; [lia|]. split; [apply cut_cons; auto|].
    destruct D2 as [D|[D|D]]; [left; lia|right; left; apply ends_cons; exact D|right; right; exact D].
Qed.

Lemma fgetws_ok orc n w cs : good_st w -> ori w <= 0 -> healthy orc w -> ~ err (flags (ist w)) ->
  unread (ist w) = utf8_str cs -> Forall scalar cs -> 0 < n ->
  exists cs1 cs2 w' ok, cs = cs1 ++ cs2 /\ fgetws orc w n = Ok (w', cs1 ++ [0], ok) /\ (ok = true <-> cs1 <> []) /\ unread (ist w') = utf8_str cs2 /\
    ~ err (flags (ist w')) /\ len cs1 <= n - 1 /\ cut_at 10 cs1 /\ (len cs1 = n - 1 \/ ends_with 10 cs1 \/ cs2 = []).
Proof.
  intros G O H N U SC L. destruct (fgetws_loop_ok orc n (S (Z.to_nat n)) w [] cs G O H N U SC) as (cs1 & cs2 & w' & E0 & E & U' & N' & L' & C & D).
  { rewrite len_nil. lia. } { rewrite len_nil. lia. }
  unfold fgetws. rewrite E. cbn [bind app]. rewrite len_nil in *. exists cs1, cs2, w'. eexists. split; [exact E0|]. split; [reflexivity|].
  split; [|auto]. assert (Z : Z.land (flags (ist w')) F_ERR = 0) by (destruct (Z.eq_dec (Z.land (flags (ist w')) F_ERR) 0) as [X|X]; [exact X|destruct (N' X)]). rewrite Z. cbn [Z.eqb negb]. rewrite orb_false_r.
  destruct cs1; [rewrite len_nil; cbn; split; congruence|]. rewrite len_cons. pose proof (len_nonneg cs1). destruct (Z.eqb_spec (len cs1 + 1) 0); [lia|]. cbn. split; [congruence|auto].
Qed.

(** ** ungetwc, reachability *)
Lemma utf8_bytes c : scalar c -> Forall is_byte (utf8 c).
Proof.
  intros H. unfold scalar in H. unfold utf8, is_byte. repeat (match goal with |- context [?a <? ?b] => destruct (Z.ltb_spec a b) end); repeat constructor; lia.
Qed.
Lemma to_i8_mod b : is_byte b -> to_i8 b mod 256 = b.
Proof. unfold is_byte, to_i8. intros H. destruct (Z.ltb_spec b 128); [apply Z.mod_small; lia|]. replace (b - 256) with (b + (-1) * 256) by lia. rewrite Z.mod_add by lia. apply Z.mod_small. lia. Qed.
Lemma loads_ok m : forall l a, bytes_at m a l -> loads m a (length l) = Ok (map to_i8 l).
Proof.
  induction l as [|b l IH]; intros a H; [reflexivity|]. cbn [bytes_at] in H. destruct H as [H1 H2]. cbn [loads length map]. rewrite (ld_ok _ _ _ H1). cbn [bind].
  rewrite (IH _ H2). reflexivity.
Qed.
Lemma local_mapped : mapped (local []) 1 4.
Proof. exact (bytes_at_mapped _ _ _ (mem_of_bytes 1 [0; 0; 0; 0])). Qed.
Lemma mapped_le m a n k : mapped m a n -> k <= n -> mapped m a k.
Proof. intros H L x X. apply H. lia. Qed.

Lemma wcrtomb_local c : scalar c -> exists m, wcrtomb (local []) 1 c = Ok (m, len (utf8 c), None) /\ loads m 1 (length (utf8 c)) = Ok (map to_i8 (utf8 c)).
Proof.
  intros H. destruct (wcrtomb_ok (local []) 1 c) as (m & E & S & _); [discriminate|exact H|eapply mapped_le; [exact local_mapped|apply utf8_len_bounds]|].
  exists m. split; [exact E|]. apply loads_ok. exact S.
Qed.

Lemma unget_all_ok orc : forall l w, ori w <= 0 -> exists o, unget_all orc w l = Ok (WIS o (set_unget (ist w) (rev (map (fun b => b mod 256) l) ++ unget (ist w)))) /\ o <= 0 /\ (l <> [] -> o < 0).
Proof.
  induction l as [|b l IH]; intros w O; cbn [unget_all].
  - exists (ori w). split; [|split; [exact O|congruence]]. destruct w as [o s]; destruct s; reflexivity.
  - destruct (ori_byte _ O) as [B N]. unfold wungetc. rewrite B. cbn [i_exec bind fst].
    destruct (IH (WIS (set_orientation (ori w) (-1)) (set_unget (ist w) (b mod 256 :: unget (ist w))))) as (o & E & O1 & O2); [cbn; lia|].
    cbn [ist] in E. rewrite E. cbn [map rev]. rewrite <- app_assoc. cbn [app]. exists o. split; [destruct (ist w); reflexivity|]. split; [exact O1|]. intros _.
    destruct l; [|apply O2; discriminate]. cbn [unget_all] in E. assert (X : set_orientation (ori w) (-1) = o) by congruence. rewrite <- X. exact N.
Qed.
Lemma unget_all_wide orc : forall l w, 0 < ori w -> unget_all orc w l = Ok w.
Proof.
  induction l as [|b l IH]; intros w O; [reflexivity|]. cbn [unget_all]. unfold wungetc, byte_ok, set_orientation. destruct (Z.eqb_spec (ori w) 0); [lia|].
  destruct (Z.ltb_spec (ori w) 0); [lia|]. cbn [bind fst]. destruct w; apply IH; exact O.
Qed.
Lemma map_i8 l : Forall is_byte l -> map (fun b => b mod 256) (map to_i8 l) = l.
Proof. induction 1 as [|b l B _ IH]; [reflexivity|]. cbn [map]. rewrite to_i8_mod, IH by exact B. reflexivity. Qed.

Lemma to_i32_range x : i32 (to_i32 x).
Proof. unfold i32, to_i32. pose proof (Z.mod_pos_bound (x + 2147483648) 4294967296). lia. Qed.

Lemma ungetwc_eval orc w c : c <> WEOF -> scalar (to_i32 c) -> exists w1, unget_all orc w (rev (map to_i8 (utf8 (to_i32 c)))) = Ok w1 /\ ungetwc orc w c = Ok (w1, c).
Proof.
  intros N S. unfold ungetwc. destruct (Z.eqb_spec c WEOF); [contradiction|]. destruct (wcrtomb_local _ S) as (m & E & L). rewrite E. cbn [bind].
  pose proof (utf8_len_bounds (to_i32 c)) as B. destruct (Z.eqb_spec (len (utf8 (to_i32 c))) USIZE_MAX); [unfold USIZE_MAX in *; lia|].
  replace (Z.to_nat (len (utf8 (to_i32 c)))) with (length (utf8 (to_i32 c))) by (unfold len; lia). rewrite L. cbn [bind].
  destruct (Z_le_dec (ori w) 0) as [O|O].
  - destruct (unget_all_ok orc (rev (map to_i8 (utf8 (to_i32 c)))) w O) as (o & E1 & _). rewrite E1. cbn [bind]. eauto.
  - rewrite unget_all_wide by lia. cbn [bind]. eauto.
Qed.
Lemma ungetwc_bad orc w c : c = WEOF \/ ~ scalar (to_i32 c) -> ungetwc orc w c = Ok (w, WEOF).
Proof.
  intros H. unfold ungetwc. destruct (Z.eqb_spec c WEOF) as [->|N]; [reflexivity|]. destruct H as [->|H]; [congruence|].
  rewrite (wcrtomb_bad (local []) 1 (to_i32 c)); [reflexivity|discriminate|apply to_i32_range|exact H].
Qed.

Lemma unread_unget s u : unread (set_unget s (u ++ unget s)) = u ++ unread s.
Proof. rewrite !unread_eq. unfold pend. cbn. rewrite <- app_assoc. reflexivity. Qed.

Lemma ungetwc_ok orc w c : good_st w -> ori w <= 0 -> scalar c ->
  exists w', ungetwc orc w c = Ok (w', c) /\ unread (ist w') = utf8 c ++ unread (ist w) /\ flags (ist w') = flags (ist w) /\ reads (ist w') = reads (ist w) /\ good_st w' /\ ori w' < 0 /\
    fst (ist w', unget (ist w')) = set_unget (ist w) (utf8 c ++ unget (ist w)).
Proof.
  intros (I & B) O S. assert (T : to_i32 c = c) by (apply to_i32_small; unfold scalar in S; lia).
  destruct (ungetwc_eval orc w c) as (w1 & E1 & E2); [intros ->; destruct (weof_not_scalar S)|rewrite T; exact S|]. rewrite T in E1.
  destruct (unget_all_ok orc (rev (map to_i8 (utf8 c))) w O) as (o & E3 & _ & O3). rewrite E1 in E3. injection E3 as ->.
  assert (NE : rev (map to_i8 (utf8 c)) <> []).
  { intros X. apply (f_equal (@length Z)) in X. rewrite rev_length, map_length in X. pose proof (utf8_len_bounds c) as L. unfold len in L. cbn in X. lia. }
  assert (M : rev (map (fun b => b mod 256) (rev (map to_i8 (utf8 c)))) = utf8 c) by (rewrite map_rev, rev_involutive; apply map_i8, utf8_bytes, S).
  rewrite M in *. eexists. split; [exact E2|]. cbn [ist ori fst]. split; [apply unread_unget|]. split; [reflexivity|]. split; [reflexivity|]. split; [|split; [apply O3, NE|reflexivity]].
  split; [exact I|]. cbn [ist]. rewrite unread_unget. apply Forall_app. split; [apply utf8_bytes, S|exact B].
Qed.

Lemma fgetwc_total orc w : good_st w -> exists w' v e, fgetwc orc w = Ok (w', v, e) /\ good_st w'.
Proof.
  intros G. destruct (Z_le_dec (ori w) 0) as [O|O].
  - destruct (fgetwc_ok orc w (proj1 G) O (proj2 G)) as (w' & v & e & d & E & I & _ & _ & U & _). exists w', v, e. split; [exact E|]. eapply good_step; eauto.
  - rewrite fgetwc_wide by lia. eauto 6.
Qed.
Lemma fgetws_loop_total orc n : forall fuel w have, good_st w -> n - len have <= Z.of_nat fuel -> (0 < fuel)%nat -> exists w' l, fgetws_loop fuel orc w n have = Ok (w', l) /\ good_st w'.
Proof.
  induction fuel as [|f IH]; intros w have G F P; [lia|]. cbn [fgetws_loop]. destruct (Z.ltb_spec (len have + 1) n); [|eauto].
  destruct (fgetwc_total orc w G) as (w' & v & e & E & G'). rewrite E. cbn [bind]. destruct (v =? WEOF); [eauto|]. destruct (v =? 10); [eauto|].
  apply IH; [exact G'| |lia]. rewrite len_app, len_cons, len_nil. lia.
Qed.

Lemma w_exec_good orc w o : good_st w -> exists w' v, w_exec orc w o = Ok (w', v) /\ good_st w'.
Proof.
  intros G. destruct o as [|n|c|mode| |c|]; cbn [w_exec].
  - destruct (fgetwc_total orc w G) as (w' & v & e & E & G'). rewrite E. cbn [bind]. eauto.
  - unfold fgetws. destruct (fgetws_loop_total orc n (S (Z.to_nat n)) w [] G) as (w' & l & E & G'); [rewrite len_nil; lia|lia|]. rewrite E. cbn [bind]. eauto.
  - destruct (Z.eq_dec c WEOF) as [N|N]; [rewrite ungetwc_bad by auto; cbn [bind]; eauto|].
    destruct (scalar_dec (to_i32 c)) as [S|S]; [|rewrite ungetwc_bad by auto; cbn [bind]; eauto].
    destruct (ungetwc_eval orc w c N S) as (w1 & E1 & E2). rewrite E2. cbn [bind]. eexists _, _. split; [reflexivity|].
    destruct (Z_le_dec (ori w) 0) as [O|O].
    + destruct (unget_all_ok orc (rev (map to_i8 (utf8 (to_i32 c)))) w O) as (o & E3 & _). rewrite E1 in E3. injection E3 as ->.
      split; [apply G|]. cbn [ist]. rewrite unread_unget. apply Forall_app. split; [|apply G]. rewrite map_rev, rev_involutive, map_i8 by (apply utf8_bytes, S). apply utf8_bytes, S.
    + rewrite unget_all_wide in E1 by lia. injection E1 as <-. exact G.
  - eexists _, _. split; [reflexivity|]. exact G.
  - destruct (Z_le_dec (ori w) 0) as [O|O].
    + destruct (wgetc_ok orc w (proj1 G) O) as (w' & v & E & I & _ & _ & H). rewrite E. cbn [bind]. eexists _, _. split; [reflexivity|].
      destruct H as [(_ & U & _)|(U & _)]; [eapply (good_step w w' []); [exact G|exact I|cbn; congruence]|eapply (good_step w w' [v]); [exact G|exact I|exact U]].
    + unfold wgetc, byte_ok, set_orientation. destruct (Z.eqb_spec (ori w) 0); [lia|]. destruct (Z.ltb_spec (ori w) 0); [lia|]. cbn [bind]. eexists _, _. split; [reflexivity|exact G].
  - destruct (Z_le_dec (ori w) 0) as [O|O].
    + destruct (ori_byte _ O) as [B _]. unfold wungetc. rewrite B. cbn [i_exec bind]. eexists _, _. split; [reflexivity|]. split; [apply G|]. cbn [ist].
      change (set_unget (ist w) (c mod 256 :: unget (ist w))) with (set_unget (ist w) ([c mod 256] ++ unget (ist w))). rewrite unread_unget. constructor; [|apply G].
      unfold is_byte. pose proof (Z.mod_pos_bound c 256). lia.
    + unfold wungetc, byte_ok, set_orientation. destruct (Z.eqb_spec (ori w) 0); [lia|]. destruct (Z.ltb_spec (ori w) 0); [lia|]. cbn [bind]. eexists _, _. split; [reflexivity|exact G].
  - cbn [i_exec bind fst]. eexists _, _. split; [reflexivity|exact G].
Qed.

Lemma w_run_good orc : forall l w, good_st w -> exists w' vs, w_run orc w l = Ok (w', vs) /\ good_st w'.
Proof.
  induction l as [|o l IH]; intros w G; cbn [w_run]; [eauto|]. destruct (w_exec_good orc w o G) as (w1 & v & E & G1). rewrite E. cbn [bind].
  destruct (IH w1 G1) as (w2 & vs & E2 & G2). rewrite E2. cbn [bind]. eauto.
Qed.
Lemma w_open_good F f b : b <> Some [] -> Forall is_byte F -> good_st (w_open F f b).
Proof.
  intros N H. split; [unfold inv; cbn; destruct b; repeat split; auto; lia|]. rewrite unread_eq. unfold pend. cbn. exact H.
Qed.
Lemma reach_good orc F f b l w vs : b <> Some [] -> Forall is_byte F -> w_run orc (w_open F f b) l = Ok (w, vs) -> good_st w.
Proof. intros N B R. destruct (w_run_good orc l _ (w_open_good F f b N B)) as (w' & vs' & E & G). congruence. Qed.

(** ** The theorems *)
Lemma in_fgetwc orc F f b l w vs c : b <> Some [] -> Forall is_byte F -> w_run orc (w_open F f b) l = Ok (w, vs) -> ori w <= 0 -> healthy orc w ->
  starts_with_char (unread (ist w)) c ->
  exists w', fgetwc orc w = Ok (w', c, None) /\ unread (ist w) = utf8 c ++ unread (ist w') /\ flags (ist w') = flags (ist w).
Proof.
  intros N B R O H S. destruct (fgetwc_char orc w c (reach_good _ _ _ _ _ _ _ N B R) O H S) as (w' & E & U & FL & _). eauto.
Qed.
Lemma in_weof orc F f b l w vs w' e : b <> Some [] -> Forall is_byte F -> w_run orc (w_open F f b) l = Ok (w, vs) -> ori w <= 0 -> fgetwc orc w = Ok (w', WEOF, e) ->
  hit_error orc (ist w) (ist w') \/ hit_end orc (ist w) (ist w') \/ (e = Some EILSEQ /\ err (flags (ist w')) /\ no_char (unread (ist w))).
Proof.
  intros N B R O E. pose proof (reach_good _ _ _ _ _ _ _ N B R) as G.
  destruct (fgetwc_ok orc w (proj1 G) O (proj2 G)) as (w1 & v & e1 & d & E1 & _ & _ & _ & U & K). rewrite E in E1. injection E1 as <- <- <-.
  unfold got in K. cbn [app] in K. destruct K as [(S & _)|[(_ & _ & [H|H] & _)|[(_ & -> & X & NE & EN)|(X & _)]]]; auto; try (destruct (weof_not_scalar S)); try (discriminate X).
  right; right. split; [reflexivity|]. split; [exact X|]. intros c (Sc & post & Y). rewrite U in Y.
  assert (Q : hd 0 d = hd 0 (utf8 c)) by (rewrite <- (proj2 (hd_utf8_app c post)), <- Y; destruct d; [congruence|reflexivity]).
  rewrite Q, enc_len_utf8 in EN by exact Sc. discriminate.
Qed.
Lemma in_fgetws orc F f b l w vs cs n : b <> Some [] -> Forall is_byte F -> w_run orc (w_open F f b) l = Ok (w, vs) -> ori w <= 0 -> healthy orc w ->
  ~ err (flags (ist w)) -> unread (ist w) = utf8_str cs -> Forall scalar cs -> 0 < n < 2 ^ 31 ->
  exists cs1 cs2 w' ok, cs = cs1 ++ cs2 /\ fgetws orc w n = Ok (w', cs1 ++ [0], ok) /\ (ok = true <-> cs1 <> []) /\ unread (ist w') = utf8_str cs2 /\
    len cs1 <= n - 1 /\ cut_at 10 cs1 /\ (len cs1 = n - 1 \/ ends_with 10 cs1 \/ cs2 = []).
Proof.
  intros N B R O H NE U S L. destruct (fgetws_ok orc n w cs (reach_good _ _ _ _ _ _ _ N B R) O H NE U S) as (a & c & w' & ok & A1 & A2 & A3 & A4 & A5 & A6); [lia|].
  exists a, c, w', ok. auto.
Qed.
Lemma in_ungetwc orc F f b l w vs c : b <> Some [] -> Forall is_byte F -> w_run orc (w_open F f b) l = Ok (w, vs) -> ori w <= 0 -> scalar c ->
  exists w1 w2, ungetwc orc w c = Ok (w1, c) /\ unread (ist w1) = utf8 c ++ unread (ist w) /\
    fgetwc orc w1 = Ok (w2, c, None) /\ unread (ist w2) = unread (ist w) /\ reads (ist w2) = reads (ist w) /\ flags (ist w2) = flags (ist w).
Proof.
  intros N B R O S. pose proof (reach_good _ _ _ _ _ _ _ N B R) as G. destruct (ungetwc_ok orc w c G O S) as (w1 & E & U & FL & RD & G1 & O1 & X). cbn [fst] in X.
  assert (P : forall (fuel : nat) w0 u rest buf el, ori w0 <= 0 -> unget (ist w0) = u ++ rest -> (length u < fuel)%nat -> Forall is_byte (u ++ buf) -> buf ++ u = utf8 c -> u <> [] ->
     (buf = [] \/ get_char_encoded_length (hd 0 buf) = Some el) ->
     exists w2, fgetwc_loop fuel orc w0 buf el = Ok (w2, c, None) /\ ist w2 = set_unget (ist w0) rest).
  { clear - S. induction fuel as [|fu IH]; intros w0 u rest buf el O UG F BY E NE HB; [lia|]. destruct u as [|x u]; [congruence|].
    cbn [fgetwc_loop]. unfold wgetc. destruct (ori_byte _ O) as [BO NO]. rewrite BO. cbn [i_exec]. unfold f_read. rewrite UG. cbn [app length Nat.min Nat.eqb bind firstn skipn].
    assert (BX : is_byte x) by (apply Forall_app in BY; destruct BY as [BY _]; inversion BY; auto).
    assert (NX : x <> -1) by (unfold is_byte in BX; lia). unfold I_EOF. destruct (Z.eqb_spec x (-1)); [contradiction|].
    rewrite (Z.mod_small x) by exact BX.
    assert (E' : (buf ++ [x]) ++ u = utf8 c) by (rewrite <- app_assoc; exact E).
    assert (HD : hd 0 (buf ++ [x]) = hd 0 (utf8 c)) by (rewrite <- E'; destruct buf; reflexivity).
    assert (GE : get_char_encoded_length (hd 0 (buf ++ [x])) = Some (len (utf8 c))) by (rewrite HD; apply enc_len_utf8, S).
    assert (TT : (if len (buf ++ [x]) =? 1 then get_char_encoded_length (hd 0 (buf ++ [x])) else Some el) = Some (len (utf8 c))).
    { destruct HB as [->|HB]; [exact GE|]. destruct buf as [|y bb]; [exact GE|]. rewrite len_app, !len_cons, len_nil. pose proof (len_nonneg bb).
      destruct (Z.eqb_spec (len bb + 1 + (0 + 1)) 1); [lia|]. cbn [app hd] in GE, HB. congruence. }
    rewrite TT. assert (LL : len (utf8 c) = len (buf ++ [x]) + len u) by (rewrite <- E', len_app; reflexivity). pose proof (len_nonneg u).
    destruct u as [|y u].
    - rewrite len_nil in LL. rewrite app_nil_r in E'. rewrite LL, E'. destruct (Z.leb_spec (len (utf8 c) + 0) (len (utf8 c))); [|lia].
      rewrite Z.add_0_r. rewrite (mbrtowc_char (local (utf8 c)) 1 (len (utf8 c)) c); [|discriminate|exact S|apply local_bytes|lia]. cbn [bind]. rewrite to_wint_scalar by exact S. eexists. split; reflexivity.
    - rewrite LL, len_cons. pose proof (len_nonneg u). destruct (Z.leb_spec (len (buf ++ [x]) + (len u + 1)) (len (buf ++ [x]))); [lia|].
      destruct (IH (WIS (set_orientation (ori w0) (-1)) (set_unget (ist w0) ((y :: u) ++ rest))) (y :: u) rest (buf ++ [x]) (len (buf ++ [x]) + (len u + 1))) as (w2 & E2 & I2).
      + cbn. lia.
      + reflexivity.
      + cbn in F |- *. lia.
      + apply Forall_app. apply Forall_app in BY. destruct BY as [B1 B2]. inversion B1; subst. split; [auto|]. apply Forall_app. split; [exact B2|]. constructor; auto.
      + exact E'.
      + discriminate.
      + right. rewrite GE, LL, len_cons. reflexivity.
      + exists w2. split; [exact E2|]. rewrite I2. destruct (ist w0); reflexivity. }
  destruct (P 5%nat w1 (utf8 c) (unget (ist w)) [] 0) as (w2 & E2 & I2).
  - lia.
  - rewrite X. reflexivity.
  - pose proof (utf8_len_bounds c) as LB. unfold len in LB. lia.
  - rewrite app_nil_r. apply utf8_bytes, S.
  - reflexivity.
  - pose proof (utf8_len_bounds c) as LB. intros Z. rewrite Z, len_nil in LB. lia.
  - auto.
  - exists w1, w2. split; [exact E|]. split; [exact U|]. split; [exact E2|]. rewrite I2, X. destruct (ist w); repeat split; reflexivity.
Qed.
