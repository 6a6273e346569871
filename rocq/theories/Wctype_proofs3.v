(* The statements C122 to C125. *)
From Coq Require Import String.
From Verif Require Import Base String_spec Ctype_spec Ctype_model Ctype_proofs Inet_model Inet_proofs Wcs_model Wcs_spec
  Wctype_tables Wctype_model Wctype_spec Wctype_proofs Wctype_proofs2.
Open Scope Z_scope.

Local Opaque iswalpha iswpunct towlower towupper.
Lemma yes_ok r : yes (Ok r) <-> r <> 0.
Proof. split; [intros (x & E & N); congruence|intros N; exists r; auto]. Qed.
Lemma no_ok r : no (Ok r) <-> r = 0.
Proof. unfold no. split; congruence. Qed.
Lemma b2i_nz b : b2i b <> 0 <-> b = true.
Proof. destruct b; cbn; split; congruence || lia. Qed.
Lemma b2i_z b : b2i b = 0 <-> b = false.
Proof. destruct b; cbn; split; congruence || lia. Qed.
Lemma neq_b a b : negb (a =? b) = true <-> a <> b.
Proof. destruct (Z.eqb_spec a b); cbn; split; congruence. Qed.

Section At.
  Variables (w a p l u : Z) (H : facts w a p l u).
  Lemma at_alnum : iswalnum w = Ok (b2i (nz (iswdigit w) || nz a)).
  Proof. unfold iswalnum. rewrite (fa _ _ _ _ _ H). unfold nz. destruct (negb (iswdigit w =? 0)); reflexivity. Qed.
  Lemma at_upper : iswupper w = Ok (b2i (negb (l =? w))).
  Proof. unfold iswupper. rewrite (fl _ _ _ _ _ H). reflexivity. Qed.
  Lemma at_lower : iswlower w = Ok (b2i (negb (u =? w))).
  Proof. unfold iswlower. rewrite (fu _ _ _ _ _ H). reflexivity. Qed.
  Lemma yes_alnum : yes (iswalnum w) <-> iswdigit w <> 0 \/ a <> 0.
  Proof. rewrite at_alnum, yes_ok, b2i_nz, orb_true_iff, !nz_flag. tauto. Qed.
  Lemma no_alnum : no (iswalnum w) <-> iswdigit w = 0 /\ a = 0.
  Proof. rewrite at_alnum, no_ok, b2i_z, orb_false_iff, !nzn. tauto. Qed.
  Lemma yes_alpha : yes (iswalpha w) <-> a <> 0.
  Proof. rewrite (fa _ _ _ _ _ H). apply yes_ok. Qed.
  Lemma no_alpha : no (iswalpha w) <-> a = 0.
  Proof. rewrite (fa _ _ _ _ _ H). apply no_ok. Qed.
  Lemma yes_punct : yes (iswpunct w) <-> p <> 0.
  Proof. rewrite (fp _ _ _ _ _ H). apply yes_ok. Qed.
  Lemma no_punct : no (iswpunct w) <-> p = 0.
  Proof. rewrite (fp _ _ _ _ _ H). apply no_ok. Qed.
  Lemma yes_upper : yes (iswupper w) <-> l <> w.
  Proof. rewrite at_upper, yes_ok, b2i_nz. apply neq_b. Qed.
  Lemma yes_lower : yes (iswlower w) <-> u <> w.
  Proof. rewrite at_lower, yes_ok, b2i_nz. apply neq_b. Qed.
  Lemma no_upper : no (iswupper w) <-> l = w.
  Proof. rewrite at_upper, no_ok, b2i_z. destruct (Z.eqb_spec l w); cbn; split; congruence. Qed.
  Lemma no_lower : no (iswlower w) <-> u = w.
  Proof. rewrite at_lower, no_ok, b2i_z. destruct (Z.eqb_spec u w); cbn; split; congruence. Qed.
End At.
Lemma yes_sure f w : yes (sure f w) <-> f w <> 0.
Proof. apply yes_ok. Qed.
Lemma no_sure f w : no (sure f w) <-> f w = 0.
Proof. apply no_ok. Qed.
Lemma graph_iff w : iswgraph w <> 0 <-> iswspace w = 0 /\ iswprint w <> 0.
Proof. unfold iswgraph. rewrite b2i_nz, andb_true_iff, Z.eqb_eq, neq_b. tauto. Qed.

Lemma total_ok f w : In f classes -> wint w -> yes (f w) \/ no (f w).
Proof.
  intros I W. destruct (all_facts w W) as (a & p & l & u & H).
  assert (Q : forall r, yes (Ok r) \/ no (Ok r)).
  { intros r. destruct (Z.eq_dec r 0) as [->|N]; [right; reflexivity|left; apply yes_ok; exact N]. }
  cbn [In classes] in I.
  repeat (destruct I as [<-|I]); try (apply Q); try contradiction.
  - rewrite (at_alnum _ _ _ _ _ H). apply Q.
  - rewrite (fa _ _ _ _ _ H). apply Q.
  - rewrite (at_lower _ _ _ _ _ H). apply Q.
  - rewrite (fp _ _ _ _ _ H). apply Q.
  - rewrite (at_upper _ _ _ _ _ H). apply Q.
Qed.

Lemma inside_ok :
  inside iswupper iswalpha /\ inside iswlower iswalpha /\ inside iswalpha iswalnum /\ inside (sure iswdigit) iswalnum /\
  inside (sure iswdigit) (sure iswxdigit) /\ inside (sure iswxdigit) iswalnum /\ inside iswalnum (sure iswgraph) /\
  inside iswpunct (sure iswgraph) /\ inside (sure iswgraph) (sure iswprint) /\ inside (sure iswblank) (sure iswspace).
Proof.
  split; [intros w W; destruct (all_facts w W) as (a & p & l & u & H); intros Y; apply (proj2 (yes_alpha _ _ _ _ _ H)), (f_upper_alpha _ _ _ _ _ H), (proj1 (yes_upper _ _ _ _ _ H)), Y|].
  split; [intros w W; destruct (all_facts w W) as (a & p & l & u & H); intros Y; apply (proj2 (yes_alpha _ _ _ _ _ H)), (f_lower_alpha _ _ _ _ _ H), (proj1 (yes_lower _ _ _ _ _ H)), Y|].
  split; [intros w W; destruct (all_facts w W) as (a & p & l & u & H); intros Y; apply (proj2 (yes_alnum _ _ _ _ _ H)); right; apply (proj1 (yes_alpha _ _ _ _ _ H)), Y|].
  split; [intros w W; destruct (all_facts w W) as (a & p & l & u & H); intros Y; apply (proj2 (yes_alnum _ _ _ _ _ H)); left; apply (proj1 (yes_sure iswdigit w)), Y|].
  split; [intros w W; destruct (all_facts w W) as (a & p & l & u & H); intros Y; apply (proj2 (yes_sure iswxdigit w)), (f_digit_xdigit _ _ _ _ _ H), (proj1 (yes_sure iswdigit w)), Y|].
  split; [intros w W; destruct (all_facts w W) as (a & p & l & u & H); intros Y; apply (proj2 (yes_alnum _ _ _ _ _ H)), (f_xdigit_alnum _ _ _ _ _ H), (proj1 (yes_sure iswxdigit w)), Y|].
  split; [intros w W; destruct (all_facts w W) as (a & p & l & u & H); intros Y; apply (proj2 (yes_sure iswgraph w)), (f_alnum_graph _ _ _ _ _ H), (proj1 (yes_alnum _ _ _ _ _ H)), Y|].
  split; [intros w W; destruct (all_facts w W) as (a & p & l & u & H); intros Y; apply (proj2 (yes_sure iswgraph w)), (f_punct_graph _ _ _ _ _ H), (proj1 (yes_punct _ _ _ _ _ H)), Y|].
  split; [intros w _ Y; apply (yes_sure iswgraph w), graph_iff in Y; apply (proj2 (yes_sure iswprint w)), Y|].
  intros w W; destruct (all_facts w W) as (a & p & l & u & H); intros Y; apply (proj2 (yes_sure iswspace w)), (f_blank _ _ _ _ _ H), (proj1 (yes_sure iswblank w)), Y.
Qed.

Lemma apart_ok :
  apart (sure iswcntrl) (sure iswprint) /\ apart iswpunct iswalnum /\ apart iswpunct (sure iswspace) /\
  apart (sure iswspace) iswalnum /\ apart (sure iswspace) (sure iswgraph) /\ apart (sure iswdigit) iswalpha.
Proof.
  split; [intros w W; destruct (all_facts w W) as (a & p & l & u & H); intros Y; apply (proj2 (no_sure iswprint w)), (f_cntrl _ _ _ _ _ H (proj1 (yes_sure iswcntrl w) Y))|].
  split; [intros w W; destruct (all_facts w W) as (a & p & l & u & H); intros Y; pose proof (f_pun _ _ _ _ _ H (proj1 (yes_punct _ _ _ _ _ H) Y)) as G; apply (proj2 (no_alnum _ _ _ _ _ H)); split; apply G|].
  split; [intros w W; destruct (all_facts w W) as (a & p & l & u & H); intros Y; apply (proj2 (no_sure iswspace w)), (f_pun _ _ _ _ _ H (proj1 (yes_punct _ _ _ _ _ H) Y))|].
  split; [intros w W; destruct (all_facts w W) as (a & p & l & u & H); intros Y; apply (proj2 (no_alnum _ _ _ _ _ H)), (f_space _ _ _ _ _ H (proj1 (yes_sure iswspace w) Y))|].
  split; [intros w _ Y; apply (proj2 (no_sure iswgraph w)); apply (yes_sure iswspace w) in Y; unfold iswgraph; apply b2i_z;
    apply Z.eqb_neq in Y; rewrite Y; reflexivity|].
  intros w W; destruct (all_facts w W) as (a & p & l & u & H); intros Y; apply (proj2 (no_alpha _ _ _ _ _ H)), (f_digit _ _ _ _ _ H (proj1 (yes_sure iswdigit w) Y)).
Qed.

(* Surrogates and what is no code point, WEOF among them. *)
Lemma outside_ok f w : In f classes -> 55296 <= w < 57344 \/ 1114112 <= w < 2 ^ 32 -> no (f w).
Proof.
  intros I W. assert (V : wint w) by (unfold wint; lia).
  assert (exists a p l u, facts w a p l u /\ a = 0 /\ p = 0 /\ iswdigit w = 0 /\ iswxdigit w = 0 /\ iswblank w = 0 /\
            iswcntrl w = 0 /\ iswspace w = 0 /\ iswprint w = 0) as (a & p & l & u & H & A & P & D & X & B & C & S' & Pr).
  { destruct W as [W|W].
    - destruct (all_facts w V) as (a & p & l & u & H). exists a, p, l, u. split; [exact H|].
      destruct (f_surr _ _ _ _ _ H W) as (D & A & P & Pr & C & Sp).
      split; [exact A|]. split; [exact P|]. split; [exact D|].
      split. { destruct (Z.eq_dec (iswxdigit w) 0) as [|N]; [assumption|]. destruct (f_xdigit_alnum _ _ _ _ _ H N); contradiction. }
      split. { destruct (Z.eq_dec (iswblank w) 0) as [|N]; [assumption|]. pose proof (f_blank _ _ _ _ _ H N). contradiction. }
      auto.
    - destruct (big_facts w ltac:(lia)) as (H & D & X & B & C & Sp). exists 0, 0, w, w. split; [exact H|].
      repeat match goal with |- _ /\ _ => split end; try assumption; try reflexivity.
      unfold iswprint. change (2 ^ 32) with 4294967296 in W. rewrite !u32_small by lia.
      destruct (Z.ltb_spec w 255); [lia|].
      assert (E : (w <? 8232) || (w - 8234 <? 55296 - 8234) || (w - 57344 <? 65529 - 57344) = false) by lia. rewrite E.
      assert (E2 : (1114111 - 65532 <? w - 65532) = true) by lia. rewrite E2. reflexivity. }
  cbn [In classes] in I.
  repeat (destruct I as [<-|I]); try contradiction; try (apply no_sure; assumption).
  - apply (no_alnum _ _ _ _ _ H). auto.
  - apply (no_alpha _ _ _ _ _ H). exact A.
  - apply no_sure. unfold iswgraph. rewrite Pr. apply b2i_z. apply andb_false_r.
  - apply (no_lower _ _ _ _ _ H). destruct (Z.eq_dec u w); [assumption|].
    pose proof (f_lower_alpha _ _ _ _ _ H n). contradiction.
  - apply (no_punct _ _ _ _ _ H). exact P.
  - apply (no_upper _ _ _ _ _ H). destruct (Z.eq_dec l w); [assumption|].
    pose proof (f_upper_alpha _ _ _ _ _ H n). contradiction.
Qed.

(* ---- ASCII ---- *)
Definition c_classes : list (Z -> Z) :=
  [isalnum; isalpha; isblank; iscntrl; isdigit; isgraph; islower; isprint; ispunct; isspace; isupper; isxdigit].
Definition like (w : Z) (fg : (Z -> res Z) * (Z -> Z)) : bool :=
  match fst fg w with Ok r => Bool.eqb (nz r) (nz (snd fg w)) | _ => false end.
Lemma like_all : check 7 0 (fun w => forallb (like w) (combine classes c_classes)) = true.
Proof. vm_compute. reflexivity. Qed.
Lemma ascii_at i f g w : nth_error classes i = Some f -> nth_error c_classes i = Some g -> 0 <= w < 128 ->
  (yes (f w) <-> g w <> 0).
Proof.
  intros F G W. pose proof (check_ok 7 _ 0 like_all w W) as L. cbv beta in L. rewrite forallb_forall in L.
  assert (I : In (f, g) (combine classes c_classes)).
  { clear L. revert i F G. generalize classes, c_classes. intros l. induction l as [|x l IH]; intros k [|i] F G;
      destruct k as [|y k]; cbn in *; try discriminate.
    - left. congruence.
    - right. eapply IH; eassumption. }
  specialize (L _ I). unfold like in L. cbn [fst snd] in L. destruct (f w) as [r| | |]; try discriminate.
  apply Bool.eqb_prop in L. rewrite yes_ok. rewrite <- !nz_flag. rewrite L. tauto.
Qed.
Lemma ascii_from i f g P : nth_error classes i = Some f -> nth_error c_classes i = Some g -> accepts g P -> ascii_as f P.
Proof. intros F G A w W. rewrite (ascii_at i f g w F G W). apply A. Qed.

(* ---- names ---- *)
Lemma streq_true s t : streq s t = true <-> s = codes t.
Proof. unfold streq. destruct (list_eq_dec Z.eq_dec s (codes t)); split; congruence. Qed.
Lemma streq_false s t : s <> codes t -> streq s t = false.
Proof. unfold streq. destruct (list_eq_dec Z.eq_dec s (codes t)); congruence. Qed.
Lemma names_ok i name f fuel m a : nth_error class_names i = Some name -> nth_error classes i = Some f ->
  cstr m a (codes name) -> (length (codes name) < fuel)%nat ->
  exists d, wctype fuel m a = Ok d /\ d <> 0 /\ forall w, iswctype w d = f w.
Proof.
  intros N F C L. unfold wctype. rewrite (read_str_ok _ _ _ _ C L). cbn [bind].
  do 12 (destruct i as [|i]; [cbn in N, F; injection N as <-; injection F as <-; eexists; split; [reflexivity|];
    split; [cbn; discriminate|intros w; reflexivity]|]).
  destruct i; discriminate N.
Qed.
Lemma unknown_ok s fuel m a : cstr m a s -> (length s < fuel)%nat -> ~ In s (map codes class_names) ->
  wctype fuel m a = Ok 0 /\ forall w, no (iswctype w 0).
Proof.
  intros C L N. unfold wctype. rewrite (read_str_ok _ _ _ _ C L). cbn [bind].
  assert (Q : forall t, In t class_names -> streq s t = false).
  { intros t I. apply streq_false. intros ->. apply N. apply in_map. exact I. }
  rewrite !Q by (unfold class_names; cbn [In]; tauto). split; [reflexivity|]. intros w. reflexivity.
Qed.

(* ---- C123 ---- *)
Lemma unicode_ok w : wint w -> towlower w = Ok (uni_lower w) /\ towupper w = Ok (uni_upper w).
Proof.
  intros W. destruct (all_facts w W) as (a & p & l & u & H).
  rewrite <- (f_uni_lower _ _ _ _ _ H), <- (f_uni_upper _ _ _ _ _ H). split; [apply (fl _ _ _ _ _ H)|apply (fu _ _ _ _ _ H)].
Qed.
Lemma idem_ok w l u : wint w -> towlower w = Ok l -> towupper w = Ok u ->
  towlower l = Ok l /\ towupper u = Ok u /\ wint l /\ wint u.
Proof.
  intros W L U. destruct (all_facts w W) as (a & p & l' & u' & H).
  rewrite (fl _ _ _ _ _ H) in L. rewrite (fu _ _ _ _ _ H) in U. injection L as ->. injection U as ->.
  assert (wint l /\ towlower l = Ok l).
  { destruct (Z.eq_dec l w) as [->|N]; [split; [exact W|apply (fl _ _ _ _ _ H)]|].
    destruct (f_l _ _ _ _ _ H N) as (B & E & _). split; [unfold wint; lia|exact E]. }
  assert (wint u /\ towupper u = Ok u).
  { destruct (Z.eq_dec u w) as [->|N]; [split; [exact W|apply (fu _ _ _ _ _ H)]|].
    destruct (f_u _ _ _ _ _ H N) as (B & E & _). split; [unfold wint; lia|exact E]. }
  tauto.
Qed.
Lemma cased_ok w : wint w ->
  (yes (iswupper w) -> exists l, towlower w = Ok l /\ l <> w /\ yes (iswlower l) /\ no (iswupper l) /\ yes (iswalpha l)) /\
  (no (iswupper w) -> towlower w = Ok w) /\
  (yes (iswlower w) -> exists u, towupper w = Ok u /\ u <> w /\ yes (iswupper u) /\ no (iswlower u) /\ yes (iswalpha u)) /\
  (no (iswlower w) -> towupper w = Ok w).
Proof.
  intros W. destruct (all_facts w W) as (a & p & l & u & H).
  rewrite (yes_upper _ _ _ _ _ H), (no_upper _ _ _ _ _ H), (yes_lower _ _ _ _ _ H), (no_lower _ _ _ _ _ H).
  rewrite (fl _ _ _ _ _ H), (fu _ _ _ _ _ H).
  split; [|split; [intros ->; reflexivity|split; [|intros ->; reflexivity]]].
  - intros N. destruct (f_l _ _ _ _ _ H N) as (B & E & (x & X & Nx) & b & Bb & Nb). exists l.
    split; [reflexivity|]. split; [exact N|]. unfold iswlower, iswupper. rewrite X, E, Bb. cbn [bind].
    split; [apply yes_ok, b2i_nz, neq_b; exact Nx|]. rewrite Z.eqb_refl. split; [reflexivity|apply yes_ok; exact Nb].
  - intros N. destruct (f_u _ _ _ _ _ H N) as (B & E & (x & X & Nx) & b & Bb & Nb). exists u.
    split; [reflexivity|]. split; [exact N|]. unfold iswlower, iswupper. rewrite X, E, Bb. cbn [bind].
    split; [apply yes_ok, b2i_nz, neq_b; exact Nx|]. rewrite Z.eqb_refl. split; [reflexivity|apply yes_ok; exact Nb].
Qed.
Lemma trans_ok fuel m a s : cstr m a s -> (length s < fuel)%nat -> exists t, wctrans fuel m a = Ok t /\
  (s = codes "toupper" -> t <> 0 /\ forall w, towctrans w t = towupper w) /\
  (s = codes "tolower" -> t <> 0 /\ forall w, towctrans w t = towlower w) /\
  (s <> codes "toupper" -> s <> codes "tolower" -> t = 0 /\ forall w, towctrans w t = Ok w).
Proof.
  intros C L. unfold wctrans. rewrite (read_str_ok _ _ _ _ C L). cbn [bind]. eexists. split; [reflexivity|].
  split; [|split].
  - intros ->. split; [discriminate|intros w; reflexivity].
  - intros ->. split; [discriminate|intros w; reflexivity].
  - intros N1 N2. rewrite !streq_false by assumption. split; [reflexivity|]. intros w. reflexivity.
Qed.

(* ---- C124 ---- *)
Lemma lower_range c : 0 <= c < 2 ^ 31 -> 0 <= uni_lower c < 2 ^ 31.
Proof.
  intros C. assert (W : wint c) by (unfold wint; lia). destruct (all_facts c W) as (a & p & l & u & H).
  rewrite <- (f_uni_lower _ _ _ _ _ H). destruct (Z.eq_dec l c) as [->|N]; [exact C|].
  destruct (f_l _ _ _ _ _ H N) as (B & _). lia.
Qed.
Lemma lower_nz c : 0 <= c < 2 ^ 31 -> c <> 0 -> uni_lower c <> 0.
Proof.
  intros C N0. assert (W : wint c) by (unfold wint; lia). destruct (all_facts c W) as (a & p & l & u & H).
  rewrite <- (f_uni_lower _ _ _ _ _ H). destruct (Z.eq_dec l c) as [->|N]; [exact N0|].
  destruct (f_l _ _ _ _ _ H N) as (_ & _ & _ & b & Bb & Nb). intros E. rewrite E in Bb.
  assert (Z0 : iswalpha 0 = Ok 0) by (vm_compute; reflexivity). congruence.
Qed.
Lemma lower_0 : uni_lower 0 = 0. Proof. vm_compute. reflexivity. Qed.
Lemma lower_at c : 0 <= c < 2 ^ 31 -> towlower (u32 c) = Ok (uni_lower c).
Proof. intros C. rewrite u32_small by lia. exact (proj1 (unicode_ok c ltac:(unfold wint; lia))). Qed.
Lemma i32_diff a b : 0 <= a < 2 ^ 31 -> 0 <= b < 2 ^ 31 -> to_i32 (a - b) = a - b.
Proof. intros A B. unfold to_i32. rewrite Z.mod_small; lia. Qed.

Local Opaque uni_lower.
Lemma folded_nil : folded 0 [] []. Proof. split; [split; reflexivity|reflexivity]. Qed.
Lemma folded_same r c d s k : uni_lower c = uni_lower d -> folded r s k -> folded r (c :: s) (d :: k).
Proof.
  intros E [H1 H2]. unfold folded. cbn [map lex]. rewrite E, Z.compare_refl. split; [|exact H2].
  rewrite H1. split; [intros ->; reflexivity|intros X; injection X as X; exact X].
Qed.
Lemma folded_diff c d s k : uni_lower c <> uni_lower d -> folded (uni_lower c - uni_lower d) (c :: s) (d :: k).
Proof.
  intros N. unfold folded. cbn [map lex]. split.
  - split; [lia|]. intros X. injection X as X _. contradiction.
  - destruct (Z.compare_spec (uni_lower c) (uni_lower d)); cbn [sign_is]; lia.
Qed.
Lemma folded_left c s : 0 <= c < 2 ^ 31 -> c <> 0 -> folded (uni_lower c - 0) (c :: s) [].
Proof.
  intros C N. pose proof (lower_range c C). pose proof (lower_nz c C N). unfold folded. cbn [map lex sign_is].
  split; [split; [lia|discriminate]|lia].
Qed.
Lemma folded_right c s : 0 <= c < 2 ^ 31 -> c <> 0 -> folded (0 - uni_lower c) [] (c :: s).
Proof.
  intros C N. pose proof (lower_range c C). pose proof (lower_nz c C N). unfold folded. cbn [map lex sign_is].
  split; [split; [lia|discriminate]|lia].
Qed.
Lemma zero_range : 0 <= 0 < 2 ^ 31. Proof. lia. Qed.

Lemma wcscasecmp_ok s : forall k fuel m a b, wstr m a s -> wstr m b k -> wchars s -> wchars k -> (length s < fuel)%nat ->
  exists r, wcscasecmp fuel m a b = Ok r /\ folded r s k.
Proof.
  induction s as [|c s IH]; intros k fuel m a b [Fs Bs] [Fk Bk] Cs Ck L; (destruct fuel as [|f]; [cbn in L; lia|]);
    cbn [wcscasecmp app] in *.
  - destruct Bs as [B0 _]. rewrite (ld_ok _ _ _ B0). cbn [bind]. destruct k as [|d k]; cbn [app] in Bk; destruct Bk as [D0 Bk];
      rewrite (ld_ok _ _ _ D0); cbn [bind]; rewrite (lower_at 0 zero_range); cbn [bind].
    + cbn [bind Z.eqb negb andb]. rewrite lower_0. exists 0. split; [reflexivity|exact folded_nil].
    + apply Forall_cons_iff in Ck. destruct Ck as [Cd _]. apply Forall_cons_iff in Fk. destruct Fk as [Nd _].
      rewrite (lower_at d Cd). cbn [bind Z.eqb negb andb]. rewrite lower_0. rewrite i32_diff by (try lia; apply lower_range, Cd).
      exists (0 - uni_lower d). split; [reflexivity|apply folded_right; assumption].
  - destruct Bs as [B0 Bs]. rewrite (ld_ok _ _ _ B0). cbn [bind].
    apply Forall_cons_iff in Cs. destruct Cs as [Cc Cs]. apply Forall_cons_iff in Fs. destruct Fs as [Nc Fs].
    assert (Ec : (c =? 0) = false) by (apply Z.eqb_neq; exact Nc). pose proof (lower_range c Cc) as Rc.
    destruct k as [|d k]; cbn [app] in Bk; destruct Bk as [D0 Bk]; rewrite (ld_ok _ _ _ D0); cbn [bind];
      rewrite (lower_at c Cc); cbn [bind]; rewrite Ec.
    + rewrite (lower_at 0 zero_range). cbn [bind Z.eqb negb andb]. rewrite lower_0. rewrite i32_diff by lia.
      exists (uni_lower c - 0). split; [reflexivity|apply folded_left; assumption].
    + apply Forall_cons_iff in Ck. destruct Ck as [Cd Ck]. apply Forall_cons_iff in Fk. destruct Fk as [Nd Fk].
      assert (Ed : (d =? 0) = false) by (apply Z.eqb_neq; exact Nd). pose proof (lower_range d Cd) as Rd.
      rewrite (lower_at d Cd). cbn [bind]. rewrite Ed. cbn [negb andb].
      destruct (Z.eqb_spec (uni_lower c) (uni_lower d)) as [E|N].
      * destruct (IH k f m (a + 1) (b + 1)) as (r & Er & Fr); [split; assumption|split; assumption|exact Cs|exact Ck|cbn in L; lia|].
        exists r. split; [exact Er|]. apply folded_same; assumption.
      * rewrite i32_diff by lia. eexists. split; [reflexivity|]. apply folded_diff. exact N.
Qed.

Lemma wb_nil m a n : wbstr m a n [] -> n = 0 \/ n <> 0 /\ m a = Some 0.
Proof. intros (_ & _ & [H|[H H2]]); rewrite len_nil in *; [left; lia|right; split; [lia|]]. rewrite Z.add_0_r in H2. exact H2. Qed.
Lemma wb_cons m a n c l : wbstr m a n (c :: l) -> c <> 0 /\ m a = Some c /\ n <> 0 /\ wbstr m (a + 1) (n - 1) l.
Proof.
  intros (F & [B0 B] & H). apply Forall_cons_iff in F. destruct F as [F0 F]. rewrite len_cons in H. pose proof (len_nonneg l).
  split; [exact F0|]. split; [exact B0|]. split; [lia|]. split; [exact F|]. split; [exact B|].
  destruct H as [H|[H1 H2]]; [left; lia|right; split; [lia|]]. replace (a + 1 + len l) with (a + (len l + 1)) by lia. exact H2.
Qed.
Lemma wcsncasecmp_ok s : forall k fuel m a b n, wbstr m a n s -> wbstr m b n k -> wchars s -> wchars k -> (length s < fuel)%nat ->
  exists r, wcsncasecmp_loop fuel m a b n = Ok r /\ folded r s k.
Proof.
  induction s as [|c s IH]; intros k fuel m a b n Bs Bk Cs Ck L; (destruct fuel as [|f]; [cbn in L; lia|]);
    cbn [wcsncasecmp_loop].
  - destruct (wb_nil _ _ _ Bs) as [->|[N B0]].
    + cbn [Z.eqb]. destruct k as [|d k]; [exists 0; split; [reflexivity|exact folded_nil]|].
      apply wb_cons in Bk. tauto.
    + apply Z.eqb_neq in N. rewrite N. apply Z.eqb_neq in N. rewrite (ld_ok _ _ _ B0). cbn [bind].
      destruct k as [|d k].
      * destruct (wb_nil _ _ _ Bk) as [|[_ D0]]; [contradiction|]. rewrite (ld_ok _ _ _ D0). cbn [bind].
        rewrite (lower_at 0 zero_range). cbn [bind Z.eqb orb]. rewrite lower_0. exists 0. split; [reflexivity|exact folded_nil].
      * apply wb_cons in Bk. destruct Bk as (Nd & D0 & _ & _). rewrite (ld_ok _ _ _ D0). cbn [bind].
        apply Forall_cons_iff in Ck. destruct Ck as [Cd _].
        rewrite (lower_at 0 zero_range). cbn [bind]. rewrite (lower_at d Cd). cbn [bind Z.eqb orb]. rewrite lower_0.
        rewrite i32_diff by (try lia; apply lower_range, Cd).
        exists (0 - uni_lower d). split; [reflexivity|apply folded_right; assumption].
  - apply wb_cons in Bs. destruct Bs as (Nc & B0 & N & Bs). apply Z.eqb_neq in N. rewrite N. apply Z.eqb_neq in N.
    rewrite (ld_ok _ _ _ B0). cbn [bind].
    apply Forall_cons_iff in Cs. destruct Cs as [Cc Cs].
    assert (Ec : (c =? 0) = false) by (apply Z.eqb_neq; exact Nc). pose proof (lower_range c Cc) as Rc.
    destruct k as [|d k].
    + destruct (wb_nil _ _ _ Bk) as [|[_ D0]]; [contradiction|]. rewrite (ld_ok _ _ _ D0). cbn [bind].
      rewrite (lower_at c Cc). cbn [bind]. rewrite (lower_at 0 zero_range). cbn [bind Z.eqb]. rewrite Ec. cbn [orb]. rewrite lower_0.
      rewrite i32_diff by lia. exists (uni_lower c - 0). split; [reflexivity|apply folded_left; assumption].
    + apply wb_cons in Bk. destruct Bk as (Nd & D0 & _ & Bk). rewrite (ld_ok _ _ _ D0). cbn [bind].
      apply Forall_cons_iff in Ck. destruct Ck as [Cd Ck].
      assert (Ed : (d =? 0) = false) by (apply Z.eqb_neq; exact Nd). pose proof (lower_range d Cd) as Rd.
      rewrite (lower_at c Cc). cbn [bind]. rewrite (lower_at d Cd). cbn [bind]. rewrite Ec, Ed. cbn [negb orb].
      destruct (Z.eqb_spec (uni_lower c) (uni_lower d)) as [E|M]; cbn [negb].
      * destruct (IH k f m (a + 1) (b + 1) (n - 1)) as (r & Er & Fr); [assumption|assumption|exact Cs|exact Ck|cbn in L; lia|].
        exists r. split; [exact Er|]. apply folded_same; assumption.
      * rewrite i32_diff by lia. eexists. split; [reflexivity|]. apply folded_diff. exact M.
Qed.
Lemma wcsncasecmp_all s k fuel m a b n : wbstr m a n s -> wbstr m b n k -> wchars s -> wchars k -> (length s < fuel)%nat ->
  exists r, wcsncasecmp fuel m a b n = Ok r /\ folded r s k.
Proof.
  intros Bs Bk Cs Ck L. destruct (wcsncasecmp_ok s k fuel m a b n Bs Bk Cs Ck L) as (r & E & F).
  unfold wcsncasecmp. destruct (Z.eqb_spec n 0) as [->|N]; [|eauto].
  destruct fuel; [lia|]. cbn in E. injection E as <-. eauto.
Qed.

(* ---- C125 ---- *)
Section Width.
  Variable width : Z -> option Z.
  Hypothesis width_pos : forall c v, width c = Some v -> 0 <= v.
  Lemma wcwidth_ok c : a_char c -> wcwidth width c = match width c with Some v => v | None => -1 end.
  Proof.
    intros C. unfold wcwidth. rewrite u32_small by (unfold a_char in C; lia).
    assert (E : (c <? 55296) || (57344 <=? c) && (c <? 1114112) = true) by (unfold a_char in C; lia). rewrite E. reflexivity.
  Qed.
  Lemma columns_ge s : -1 <= columns width s.
  Proof.
    induction s as [|c s IH]; cbn [columns]; [lia|]. destruct (width c) as [v|] eqn:E; [|lia].
    pose proof (width_pos _ _ E). destruct (Z.ltb_spec (columns width s) 0); lia.
  Qed.
  Lemma wcswidth_loop_ok s : forall fuel m p i n total,
    bytes_at m (p + i) s -> len s = n - i -> (length s < fuel)%nat -> Forall a_char s ->
    (0 <= columns width s -> 0 <= total /\ total + columns width s < 2 ^ 31) ->
    wcswidth_loop width fuel m p i n total = Ok (if columns width s <? 0 then -1 else total + columns width s).
  Proof.
    induction s as [|c s IH]; intros fuel m p i n total B Ln Hf Fc T; (destruct fuel as [|f]; [cbn in Hf; lia|]);
      cbn [wcswidth_loop].
    - rewrite len_nil in Ln. destruct (Z.leb_spec n i); [|lia]. cbn [columns Z.ltb Z.compare]. rewrite Z.add_0_r. reflexivity.
    - rewrite len_cons in Ln. pose proof (len_nonneg s). destruct (Z.leb_spec n i); [lia|].
      destruct B as [B0 B]. rewrite (ld_ok _ _ _ B0). cbn [bind]. apply Forall_cons_iff in Fc. destruct Fc as [C Fc].
      rewrite (wcwidth_ok c C). cbn [columns] in *. destruct (width c) as [v|] eqn:E; [|reflexivity].
      pose proof (width_pos _ _ E) as Pv. pose proof (columns_ge s) as G. destruct (Z.ltb_spec v 0); [lia|].
      rewrite (IH f m p (i + 1) n); [|rewrite Z.add_assoc; exact B|lia|cbn in Hf; lia|exact Fc|].
      + destruct (Z.ltb_spec (columns width s) 0); [reflexivity|].
        destruct (Z.ltb_spec (v + columns width s) 0); [lia|]. specialize (T ltac:(lia)).
        f_equal. unfold to_i32. rewrite Z.mod_small; lia.
      + intros P. destruct (Z.ltb_spec (columns width s) 0); [lia|]. specialize (T ltac:(lia)).
        unfold to_i32. rewrite Z.mod_small; lia.
  Qed.
  Lemma wcswidth_ok s fuel m p n : bytes_at m p s -> len s = n -> (length s < fuel)%nat -> Forall a_char s ->
    columns width s < 2 ^ 31 -> wcswidth width fuel m p n = Ok (columns width s).
  Proof.
    intros B Ln Hf Fc T. unfold wcswidth. rewrite (wcswidth_loop_ok s); [|rewrite Z.add_0_r; exact B|lia|exact Hf|exact Fc|lia].
    pose proof (columns_ge s). destruct (Z.ltb_spec (columns width s) 0); f_equal; lia.
  Qed.
End Width.
