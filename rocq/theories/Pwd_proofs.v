From Verif Require Import Base Numeral String_model String_spec String_proofs Sort_model Sort_proofs Pwd_model Pwd_spec.

(* ---- numbers ---- *)
Lemma parse_digits_ok l : forall acc, Forall (fun d => 0 <= d < 10) l -> 0 <= acc ->
  acc * 10 ^ len l + dvalue 10 l < 2147483648 ->
  parse_digits false acc (map (fun d => 48 + d) l) = Some (acc * 10 ^ len l + dvalue 10 l).
Proof.
  induction l as [|d l IH]; intros acc F Ha B; cbn [map parse_digits].
  - change (len (@nil Z)) with 0. cbn. f_equal. lia.
  - rewrite dvalue_cons, len_cons, Z.pow_add_r in * by (pose proof (len_nonneg l); lia). change (10 ^ 1) with 10 in *.
    pose proof (Forall_inv F) as Hd. cbv beta in Hd. apply Forall_inv_tail in F. pose proof (dvalue_range 10 l ltac:(lia) F) as R.
    assert (P : 0 < 10 ^ len l) by (apply Z.pow_pos_nonneg; pose proof (len_nonneg l); lia).
    destruct (Z.leb_spec 48 (48 + d)); [|lia]. destruct (Z.leb_spec (48 + d) 57); [|lia]. cbn [andb]. cbv zeta.
    replace (48 + d - 48) with d by lia.
    assert (acc * 10 + d < 2147483648) by nia.
    destruct (Z.leb_spec (-2147483648) (acc * 10 + d)); [|lia]. destruct (Z.leb_spec (acc * 10 + d) 2147483647); [|lia]. cbn [andb].
    rewrite IH; [f_equal; ring|assumption|lia|]. replace ((acc * 10 + d) * 10 ^ len l + dvalue 10 l) with (acc * (10 ^ len l * 10) + (d * 10 ^ len l + dvalue 10 l)) by ring. exact B.
Qed.
Lemma parse_decimal n : 0 <= n < 2 ^ 31 -> parse_i32 (decimal n) = Some n.
Proof.
  intros Hn. destruct (to_digits_numeral 10 n ltac:(lia) ltac:(lia)) as (F & V & NE & _). unfold decimal.
  change (2 ^ 31) with 2147483648 in Hn.
  assert (E := parse_digits_ok (to_digits 10 n) 0 F ltac:(lia)). rewrite V, Z.mul_0_l, Z.add_0_l in E. specialize (E ltac:(lia)).
  destruct (to_digits 10 n) as [|d l]; [congruence|]. pose proof (Forall_inv F) as Hd. cbv beta in Hd. unfold parse_i32. cbn [map] in *.
  destruct (Z.eqb_spec (48 + d) 45); [lia|]. destruct (Z.eqb_spec (48 + d) 43); [lia|]. exact E.
Qed.
Lemma decimal_clean o n : 0 <= n -> clean (separator o) (decimal n).
Proof.
  intros Hn. destruct (to_digits_numeral 10 n ltac:(lia) Hn) as (F & _). unfold decimal, clean. apply Forall_map.
  eapply Forall_impl; [|exact F]. cbv beta. intros d Hd. unfold is_byte. destruct o; cbn [separator]; lia.
Qed.

(* ---- lines ---- *)
Lemma read_line_ok l : forall r, ~ In 10 l -> read_line (l ++ 10 :: r) = (l ++ [10], r).
Proof.
  induction l as [|b l IH]; intros r N; cbn [app read_line]; [reflexivity|]. destruct (Z.eqb_spec b 10) as [->|]; [exfalso; apply N; left; reflexivity|].
  rewrite IH; [reflexivity|]. intros I. apply N. right. exact I.
Qed.
Lemma read_line_end l : ~ In 10 l -> read_line l = (l, []).
Proof.
  induction l as [|b l IH]; intros N; cbn [read_line]; [reflexivity|]. destruct (Z.eqb_spec b 10) as [->|]; [exfalso; apply N; left; reflexivity|].
  rewrite IH; [reflexivity|]. intros I. apply N. right. exact I.
Qed.
Lemma clean_no sep f b : clean sep f -> (b = 0 \/ b = 10 \/ b = sep) -> ~ In b f.
Proof. intros C H I. unfold clean in C. rewrite Forall_forall in C. specialize (C b I). tauto. Qed.
Lemma join_no sep fs b : Forall (clean sep) fs -> (b = 0 \/ b = 10) -> b <> sep -> ~ In b (join sep fs).
Proof.
  intros C Hb N. induction C as [|f fs C CS IH]; [intros []|]. cbn [join]. destruct fs as [|g fs]; [eapply clean_no; [exact C|tauto]|].
  intros I. apply in_app_or in I. destruct I as [I|[I|I]]; [eapply clean_no; [exact C| |exact I]; tauto|congruence|exact (IH I)].
Qed.
(* the bytes in the buffer: every field with a NUL *)
Definition packed (fs : list (list Z)) : list Z := concat (map (fun f => f ++ [0]) fs).
Lemma map_clean sep f : clean sep f -> map (fun b => if b =? sep then 0 else b) f = f.
Proof.
  intros C. rewrite <- (map_id f) at 2. apply map_ext_in. intros b I. unfold clean in C. rewrite Forall_forall in C. specialize (C b I).
  destruct (Z.eqb_spec b sep); [tauto|reflexivity].
Qed.
Lemma map_join sep fs : Forall (clean sep) fs -> fs <> [] -> map (fun b => if b =? sep then 0 else b) (join sep fs) ++ [0] = packed fs.
Proof.
  intros C. induction C as [|f fs C CS IH]; intros NE; [congruence|]. unfold packed. cbn [join map concat]. destruct fs as [|g fs].
  - cbn [map concat]. rewrite app_nil_r, (map_clean sep f C). reflexivity.
  - rewrite map_app, (map_clean sep f C). cbn [map]. rewrite Z.eqb_refl, <- app_assoc. cbn [app]. cbn [map] in IH. rewrite IH by discriminate. unfold packed. rewrite <- app_assoc. reflexivity.
Qed.
Lemma terminate_newline sep fs : sep <> 10 -> Forall (clean sep) fs -> fs <> [] -> terminate sep (line sep fs) = packed fs.
Proof.
  intros Ns C NE. unfold terminate, line. rewrite map_app. cbn [map]. destruct (Z.eqb_spec 10 sep) as [E|_]; [congruence|].
  rewrite last_last, Z.eqb_refl, removelast_last. apply map_join; assumption.
Qed.
Lemma terminate_end sep fs : sep <> 10 -> Forall (clean sep) fs -> fs <> [] -> terminate sep (join sep fs) = packed fs.
Proof.
  intros Ns C NE. unfold terminate. rewrite map_join by assumption.
  destruct (Z.eqb_spec (last (map (fun b => if b =? sep then 0 else b) (join sep fs)) 0) 10) as [E|]; [|reflexivity].
  exfalso. assert (N : ~ In 10 (map (fun b => if b =? sep then 0 else b) (join sep fs))).
  { intros I. apply in_map_iff in I. destruct I as (b & Eb & I). destruct (b =? sep); [discriminate|]. subst b. revert I. apply join_no; auto. }
  destruct (map (fun b => if b =? sep then 0 else b) (join sep fs)) as [|b l] eqn:M; [discriminate|]. apply N. rewrite <- E.
  assert (X : In (last (b :: l) 0) (b :: l)); [|exact X]. rewrite (@app_removelast_last Z (b :: l) 0) at 2 by discriminate. apply in_or_app. right. left. reflexivity.
Qed.
Lemma packed_len sep fs : fs <> [] -> len (packed fs) = len (line sep fs).
Proof.
  intros NE. unfold line. rewrite len_app. change (len [10]) with 1. unfold packed. induction fs as [|f fs IH]; [congruence|]. cbn [map concat join].
  rewrite !len_app. change (len [0]) with 1. destruct fs as [|g fs]; [cbn [map concat]; rewrite len_nil; lia|]. rewrite IH by discriminate. rewrite len_app, len_cons. lia.
Qed.
Lemma parts_field f : forall start cur r, ~ In 0 f -> parts start cur (f ++ 0 :: r) = (start, rev cur ++ f) :: parts (start + len cur + len f + 1) [] r.
Proof.
  induction f as [|b f IH]; intros start cur r N; cbn [app parts].
  - change (0 =? 0) with true. cbv iota. rewrite app_nil_r, len_nil. do 2 f_equal. lia.
  - destruct (Z.eqb_spec b 0) as [->|]; [exfalso; apply N; left; reflexivity|]. rewrite IH by (intros I; apply N; right; exact I).
    cbn [rev]. rewrite <- app_assoc. cbn [app]. rewrite !len_cons. do 2 f_equal. lia.
Qed.
Fixpoint offsets (start : Z) (fs : list (list Z)) : list (Z * list Z) :=
  match fs with [] => [] | f :: fs => (start, f) :: offsets (start + len f + 1) fs end.
Lemma parts_packed fs : forall start r, Forall (fun f => ~ In 0 f) fs -> exists t, parts start [] (packed fs ++ r) = offsets start fs ++ t.
Proof.
  induction fs as [|f fs IH]; intros start r F; cbn [offsets app].
  - eexists. reflexivity.
  - unfold packed. cbn [map concat]. rewrite <- !app_assoc. cbn [app]. rewrite parts_field by (exact (Forall_inv F)). cbn [rev app]. rewrite len_nil, Z.add_0_r.
    destruct (IH (start + len f + 1) r (Forall_inv_tail F)) as [t E]. exists t. unfold packed in E. rewrite E. reflexivity.
Qed.
Lemma cstr_packed m a fs : forall start, Forall (fun f => Forall is_char f) fs -> bytes_at m (a + start) (packed fs) ->
  Forall (fun p => cstr m (a + fst p) (snd p)) (offsets start fs).
Proof.
  induction fs as [|f fs IH]; intros start F B; cbn [offsets]; [constructor|]. unfold packed in B. cbn [map concat] in B. apply bytes_at_app in B. destruct B as [B1 B2].
  constructor.
  - cbn [fst snd]. split; [exact (Forall_inv F)|exact B1].
  - apply IH; [exact (Forall_inv_tail F)|]. rewrite len_app in B2. change (len [0]) with 1 in B2. replace (a + (start + len f + 1)) with (a + start + (len f + 1)) by lia. exact B2.
Qed.

Lemma clean_char sep f : clean sep f -> Forall is_char f.
Proof. intros C. eapply Forall_impl; [|exact C]. cbv beta. unfold is_byte, is_char. intros b Hb. lia. Qed.
Lemma fields_clean o u : valid o u -> Forall (clean (separator o)) (fields o u).
Proof.
  intros (F & U & G). pose proof (decimal_clean o (u_uid u) ltac:(lia)). pose proof (decimal_clean o (u_gid u) ltac:(lia)).
  inversion F as [|? ? F1 F']; subst. inversion F' as [|? ? F2 F'']; subst. inversion F'' as [|? ? F3 F3']; subst. inversion F3' as [|? ? F4 F4']; subst.
  inversion F4' as [|? ? F5 F5']; subst. destruct o; cbn [fields]; repeat constructor; assumption.
Qed.
Lemma fields_ne o u : fields o u <> [].
Proof. destruct o; discriminate. Qed.
Lemma sep_10 o : separator o <> 10. Proof. destruct o; discriminate. Qed.
Lemma sep_0 o : separator o <> 0. Proof. destruct o; discriminate. Qed.

(* ---- one entry ---- *)
Lemma mapped_list n : forall m a, mapped m a (Z.of_nat n) -> exists l, length l = n /\ bytes_at m a l.
Proof.
  induction n as [|n IH]; intros m a H; [exists []; split; [reflexivity|exact I]|].
  destruct (H a ltac:(lia)) as [b Hb]. destruct (IH m (a + 1)) as (l & L & B); [eapply mapped_sub; [exact H|lia|lia]|].
  exists (b :: l). split; [cbn; congruence|]. split; assumption.
Qed.
Lemma bytes_at_prefix m a l : forall k, bytes_at m a l -> bytes_at m a k -> (length l <= length k)%nat -> exists t, k = l ++ t.
Proof.
  revert a. induction l as [|b l IH]; intros a k B1 B2 L; [exists k; reflexivity|]. destruct k as [|c k]; [cbn in L; lia|].
  destruct B1 as [B1 B1']. destruct B2 as [B2 B2']. destruct (IH (a + 1) k B1' B2' ltac:(cbn in L; lia)) as [t ->]. exists t. cbn. congruence.
Qed.
Lemma split_ok o x p m u t : valid o u -> small_ids u -> bytes_at m p (packed (fields o u)) -> (o = Redox -> cstr m x [120]) ->
  exists pw, split o x p (packed (fields o u) ++ t) = Some pw /\ describes o m pw u.
Proof.
  intros V [SU SG] B X. pose proof (fields_clean o u V) as C.
  destruct (parts_packed (fields o u) 0 t) as [tl E].
  { eapply Forall_impl; [|exact C]. intros f Hf. eapply clean_no; [exact Hf|]. tauto. }
  pose proof (cstr_packed m p (fields o u) 0) as CS. rewrite Z.add_0_r in CS. specialize (CS (Forall_impl _ (clean_char _) C) B).
  destruct V as (_ & U & G). unfold split. rewrite E. destruct o; cbn [fields offsets app] in *.
  - rewrite !parse_decimal by lia. eexists. split; [reflexivity|]. unfold describes. cbn [pw_name pw_passwd pw_uid pw_gid pw_gecos pw_dir pw_shell].
    inversion CS as [|? ? C1 CS1]; subst. inversion CS1 as [|? ? C2 CS2]; subst. inversion CS2 as [|? ? C3 CS3]; subst. inversion CS3 as [|? ? C4 CS4]; subst.
    inversion CS4 as [|? ? C5 CS5]; subst. inversion CS5 as [|? ? C6 CS6]; subst. inversion CS6 as [|? ? C7 CS7]; subst. cbn [fst snd] in *. auto 10.
  - rewrite !parse_decimal by lia. eexists. split; [reflexivity|]. unfold describes. cbn [pw_name pw_passwd pw_uid pw_gid pw_gecos pw_dir pw_shell].
    inversion CS as [|? ? C1 CS1]; subst. inversion CS1 as [|? ? C2 CS2]; subst. inversion CS2 as [|? ? C3 CS3]; subst. inversion CS3 as [|? ? C4 CS4]; subst.
    inversion CS4 as [|? ? C5 CS5]; subst. inversion CS5 as [|? ? C6 CS6]; subst. cbn [fst snd] in *. auto 10.
Qed.
Definition at_dest (d : dest) (p cap : Z) : Prop := d = Owned p \/ d = Borrowed p cap.
Lemma entry_ok o x m file d p cap u us :
  database o (u :: us) file -> valid o u -> small_ids u -> fits o cap u -> mapped m p cap -> at_dest d p cap ->
  (o = Redox -> cstr m x [120] /\ disjoint x 2 p cap) ->
  exists m' rest pw, getpwent_r o x m file d = Ok (m', rest, inl pw) /\ describes o m' pw u /\
    same_outside m m' p cap /\ mapped m' p cap /\ database o us rest.
Proof.
  intros DB V S F M D X. pose proof (fields_clean o u V) as C. pose proof (fields_ne o u) as NE. pose proof (packed_len (separator o) (fields o u) NE) as PL.
  assert (RL : exists ln rest, read_line file = (ln, rest) /\ ln <> [] /\ terminate (separator o) ln = packed (fields o u) /\ database o us rest).
  { assert (NJ : ~ In 10 (join (separator o) (fields o u))) by (apply join_no; auto; destruct o; discriminate).
    assert (JNE : join (separator o) (fields o u) <> []).
    { destruct o; cbn [fields join]; intros E; apply app_eq_nil in E; destruct E; discriminate. }
    assert (FULL : forall r, read_line (line (separator o) (fields o u) ++ r) = (line (separator o) (fields o u), r)).
    { intros r. unfold line. rewrite <- app_assoc. apply read_line_ok. exact NJ. }
    assert (LNE : line (separator o) (fields o u) <> []) by (unfold line; intros E; apply app_eq_nil in E; destruct E; discriminate).
    unfold database, text in DB. cbn [map concat] in DB. destruct DB as [->|DB].
    - exists (line (separator o) (fields o u)), (text o us). split; [apply FULL|]. split; [exact LNE|]. split; [apply terminate_newline; auto using sep_10|left; reflexivity].
    - destruct us as [|v us].
      + cbn [map concat] in DB. rewrite app_nil_r in DB. unfold line in DB. apply app_inj_tail in DB. destruct DB as [-> _].
        exists (join (separator o) (fields o u)), []. split; [apply read_line_end, NJ|]. split; [exact JNE|]. split; [apply terminate_end; auto using sep_10|left; reflexivity].
      + assert (E : exists r, file = line (separator o) (fields o u) ++ r /\ r ++ [10] = text o (v :: us)).
        { destruct (exists_last (l := text o (v :: us))) as (r & z & E0).
          { unfold text. cbn [map concat]. intros E0. apply app_eq_nil in E0. destruct E0 as [E0 _]. unfold line in E0. apply app_eq_nil in E0. destruct E0; discriminate. }
          exists r. unfold text in E0. rewrite E0 in DB. rewrite app_assoc in DB. apply app_inj_tail in DB. destruct DB as [-> <-]. split; [reflexivity|]. symmetry. exact E0. }
        destruct E as (r & -> & E). exists (line (separator o) (fields o u)), r. split; [apply FULL|]. split; [exact LNE|].
        split; [apply terminate_newline; auto using sep_10|right; exact E]. }
  destruct RL as (ln & rest & RL & LNE & T & DB').
  unfold fits in F. rewrite <- PL in F. unfold getpwent_r. rewrite RL. destruct ln as [|c ln]; [congruence|]. rewrite T.
  assert (GO : forall size, len (packed (fields o u)) <= size <= cap ->
    exists m' sl t, st_bytes m p (packed (fields o u)) = Ok m' /\ ld_bytes (Z.to_nat size) m' p = Ok sl /\ sl = packed (fields o u) ++ t /\ stored m m' p (packed (fields o u))).
  { intros size Hs. destruct (st_bytes_ok (packed (fields o u)) m p) as (m' & E & ST); [eapply mapped_sub; [exact M|lia|lia]|].
    pose proof (len_nonneg (packed (fields o u))) as LN.
    destruct (mapped_list (Z.to_nat size) m' p) as (sl & SL & BS).
    { rewrite Z2Nat.id by lia. eapply stored_mapped; [exact ST|]. eapply mapped_sub; [exact M|lia|lia]. }
    destruct (bytes_at_prefix m' p (packed (fields o u)) sl (proj1 ST) BS) as [t Et]; [unfold len in Hs; lia|].
    exists m', sl, t. split; [exact E|]. split; [rewrite <- SL; apply ld_bytes_ok; exact BS|]. auto. }
  assert (exists size, match d with Owned p0 => (p0, len (packed (fields o u))) | Borrowed p0 size0 => (p0, size0) end = (p, size) /\ len (packed (fields o u)) <= size <= cap) as (size & Ed & Hs).
  { destruct D as [-> | ->]; eexists; (split; [reflexivity|]); lia. }
  rewrite Ed. destruct (Z.ltb_spec size (len (packed (fields o u)))); [lia|].
  destruct (GO size Hs) as (m' & sl & t & E1 & E2 & -> & ST). rewrite E1. cbn [bind]. rewrite E2. cbn [bind].
  assert (OUT : same_outside m m' p cap).
  { intros y Hy. apply (proj2 ST). lia. }
  destruct (split_ok o x p m' u t V S (proj1 ST)) as (pw & SP & DE).
  { intros R. destruct (X R) as [X1 X2]. eapply cstr_ext; [|exact X1]. intros y Hy. apply OUT. change (len [120]) with 1 in Hy. unfold disjoint in X2. lia. }
  rewrite SP. exists m', rest, pw. split; [reflexivity|]. split; [exact DE|]. split; [exact OUT|]. split; [eapply stored_mapped; eassumption|exact DB'].
Qed.
Lemma eof_ok o x m d file : database o [] file -> getpwent_r o x m file d = Ok (m, [], inr Eof).
Proof.
  intros [->|E]; [reflexivity|]. cbn in E. apply app_eq_nil in E. destruct E; discriminate.
Qed.

(* ---- searching ---- *)
Lemma same_outside_trans m1 m2 m3 a n : same_outside m1 m2 a n -> same_outside m2 m3 a n -> same_outside m1 m3 a n.
Proof. intros H1 H2 y Hy. rewrite (H2 y Hy). apply H1, Hy. Qed.
Lemma lookup_ok o x p cap d m0 (P : user -> Prop) matches us :
  at_dest d p cap -> (o = Redox -> cstr m0 x [120] /\ disjoint x 2 p cap) ->
  Forall (valid o) us -> Forall small_ids us -> Forall (fits o cap) us ->
  (forall m pw u, same_outside m0 m p cap -> In u us -> describes o m pw u -> exists b, matches m pw = Ok b /\ (b = true <-> P u)) ->
  forall fuel m file, database o us file -> mapped m p cap -> same_outside m0 m p cap -> (length us < fuel)%nat ->
  exists m' r ru, pwd_loop o x fuel matches m file d = Ok (m', r) /\ same_outside m0 m' p cap /\ first_user P us ru /\
    match ru with Some u => exists pw, r = inl pw /\ describes o m' pw u | None => r = inr Eof end.
Proof.
  intros D X. induction us as [|u us IH]; intros V S F MA fuel m file DB M OUT L; (destruct fuel as [|fuel]; [cbn in L; lia|]); cbn [pwd_loop].
  - rewrite (eof_ok o x m d file DB). cbn [bind]. exists m, (inr Eof), None. repeat split; auto. constructor.
  - destruct (entry_ok o x m file d p cap u us DB (Forall_inv V) (Forall_inv S) (Forall_inv F) M D) as (m1 & rest & pw & E & DE & O1 & M1 & DB1).
    { intros R. destruct (X R) as [X1 X2]. split; [|exact X2]. eapply cstr_ext; [|exact X1]. intros y Hy. apply OUT. change (len [120]) with 1 in Hy. unfold disjoint in X2. lia. }
    rewrite E. cbn [bind]. pose proof (same_outside_trans _ _ _ _ _ OUT O1) as O2.
    destruct (MA m1 pw u O2 (or_introl eq_refl) DE) as (b & EB & HB). rewrite EB. cbn [bind]. destruct b.
    + exists m1, (inl pw), (Some u). split; [reflexivity|]. split; [exact O2|]. split; [|exists pw; auto].
      exists [], us. split; [reflexivity|]. split; [apply HB; reflexivity|constructor].
    + assert (NP : ~ P u) by (intros H; apply HB in H; discriminate).
      destruct (IH (Forall_inv_tail V) (Forall_inv_tail S) (Forall_inv_tail F)) with (fuel := fuel) (m := m1) (file := rest) as (m' & r & ru & E' & O' & FU & R); auto.
      * intros m2 pw2 u2 H2 I2. apply MA; [exact H2|right; exact I2].
      * cbn in L. lia.
      * exists m', r, ru. split; [exact E'|]. split; [exact O'|]. split; [|exact R]. destruct ru as [v|].
        -- destruct FU as (pre & post & -> & Pv & FP). exists (u :: pre), post. split; [reflexivity|]. split; [exact Pv|]. constructor; assumption.
        -- constructor; assumption.
Qed.
Lemma by_name_ok o m0 p cap name n fuel us :
  cstr m0 name n -> disjoint name (len n + 1) p cap -> len n < USIZE_MAX -> Forall (fun u => len (u_name u) < USIZE_MAX /\ (length (u_name u) < fuel)%nat) us ->
  forall m pw u, same_outside m0 m p cap -> In u us -> describes o m pw u -> exists b, by_name fuel name m pw = Ok b /\ (b = true <-> u_name u = n).
Proof.
  intros CN DJ LN FU m pw u OUT I (DN & _). rewrite Forall_forall in FU. destruct (FU u I) as [LU FF].
  assert (CN' : cstr m name n).
  { eapply cstr_ext; [|exact CN]. intros y Hy. apply OUT. unfold disjoint in DJ. lia. }
  destruct (strcmp_ok (u_name u) n fuel m (pw_name pw) name DN CN' LU LN FF) as (r & E & SG). unfold by_name. rewrite E. cbn [bind].
  exists (r =? 0). split; [reflexivity|]. rewrite Z.eqb_eq, <- lex_eq_iff. unfold sign_is in SG. destruct (lex (u_name u) n); split; intros; try reflexivity; try discriminate; try lia.
Qed.
Lemma line_long o u : (length (u_name u) + 2 <= length (line (separator o) (fields o u)))%nat.
Proof. unfold line. rewrite app_length. destruct o; cbn [fields join]; rewrite app_length; cbn [length]; rewrite ?app_length; cbn [length]; lia. Qed.
Lemma text_long o us : forall u, In u us -> (length (u_name u) + 2 <= length (text o us))%nat.
Proof.
  induction us as [|v us IH]; intros u I; [contradiction|]. unfold text. cbn [map concat]. rewrite app_length. destruct I as [->|I].
  - pose proof (line_long o u). lia.
  - specialize (IH u I). unfold text in IH. lia.
Qed.
Lemma text_count o us : (2 * length us <= length (text o us))%nat.
Proof.
  induction us as [|v us IH]; [cbn; lia|]. unfold text in *. cbn [map concat length]. rewrite app_length. pose proof (line_long o v). lia.
Qed.
Lemma database_len o us file : database o us file -> (length (text o us) <= length file + 1)%nat.
Proof. intros [->|E]; [lia|]. rewrite <- E, app_length. cbn. lia. Qed.
Lemma fuel_users o us file fuel : database o us file -> (length file < fuel)%nat -> (length us < fuel)%nat.
Proof. intros DB L. pose proof (database_len o us file DB). pose proof (text_count o us). destruct us; cbn in *; lia. Qed.
Lemma fuel_names o us file fuel cap : database o us file -> (length file < fuel)%nat -> Forall (fits o cap) us -> cap <= USIZE_MAX ->
  Forall (fun u => len (u_name u) < USIZE_MAX /\ (length (u_name u) < fuel)%nat) us.
Proof.
  intros DB L F HC. rewrite Forall_forall in *. intros u I. specialize (F u I). unfold fits in F. pose proof (line_long o u). pose proof (text_long o us u I).
  pose proof (database_len o us file DB). unfold len in *. lia.
Qed.
Lemma find_ok o x m us file p cap d fuel (P : user -> Prop) matches :
  premises o x m us file p cap -> at_dest d p cap -> (length file < fuel)%nat ->
  (forall m1 pw u, same_outside m m1 p cap -> In u us -> describes o m1 pw u -> exists b, matches m1 pw = Ok b /\ (b = true <-> P u)) ->
  exists m' r ru, pwd_lookup o x fuel matches m (Some file) d = Ok (m', r) /\ same_outside m m' p cap /\ first_user P us ru /\
    match ru with Some u => exists pw, r = inl pw /\ describes o m' pw u | None => r = inr Eof end.
Proof.
  intros (DB & V & S & F & M & HC & X) D L MA. unfold pwd_lookup. eapply (lookup_ok o x p cap d m P matches us); eauto.
  - intros y _. reflexivity.
  - eapply fuel_users; eassumption.
Qed.
Lemma getpwnam_ok o x m us file p cap fuel name n :
  premises o x m us file p cap -> (length file < fuel)%nat ->
  cstr m name n -> disjoint name (len n + 1) p cap -> len n < USIZE_MAX ->
  exists m' r ru, getpwnam o x fuel m (Some file) p name = Ok (m', r) /\ same_outside m m' p cap /\
    first_user (fun u => u_name u = n) us ru /\
    match ru, r with Some u, Some pw => describes o m' pw u | None, None => True | _, _ => False end.
Proof.
  intros PR L CN DJ LN. pose proof PR as (DB & V & S & F & M & HC & X).
  destruct (find_ok o x m us file p cap (Owned p) fuel (fun u => u_name u = n) (by_name fuel name) PR (or_introl eq_refl) L) as (m' & r & ru & E & O & FU & R).
  { apply (by_name_ok o m p cap name n fuel us); auto. eapply fuel_names; eassumption. }
  unfold getpwnam. rewrite E. cbn [bind]. exists m', (ok r), ru. split; [reflexivity|]. split; [exact O|]. split; [exact FU|].
  destruct ru; [destruct R as (pw & -> & R); exact R|rewrite R; exact I].
Qed.
Lemma getpwnam_r_ok o x m us file p cap fuel name n :
  premises o x m us file p cap -> (length file < fuel)%nat ->
  cstr m name n -> disjoint name (len n + 1) p cap -> len n < USIZE_MAX ->
  exists m' r ru, getpwnam_r o x fuel m (Some file) name p cap = Ok (m', (r, 0)) /\ same_outside m m' p cap /\
    first_user (fun u => u_name u = n) us ru /\
    match ru, r with Some u, Some pw => describes o m' pw u | None, None => True | _, _ => False end.
Proof.
  intros PR L CN DJ LN. pose proof PR as (DB & V & S & F & M & HC & X).
  destruct (find_ok o x m us file p cap (Borrowed p cap) fuel (fun u => u_name u = n) (by_name fuel name) PR (or_intror eq_refl) L) as (m' & r & ru & E & O & FU & R).
  { apply (by_name_ok o m p cap name n fuel us); auto. eapply fuel_names; eassumption. }
  unfold getpwnam_r. rewrite E. cbn [bind]. exists m', (fst (mux r)), ru. destruct ru.
  - destruct R as (pw & -> & R). cbn [mux fst]. auto.
  - rewrite R. cbn [mux fst]. auto.
Qed.
Lemma by_uid_ok o uid : forall m pw u, describes o m pw u -> exists b, by_uid uid m pw = Ok b /\ (b = true <-> u_uid u = uid).
Proof. intros m pw u (_ & _ & E & _). unfold by_uid. exists (pw_uid pw =? uid). split; [reflexivity|]. rewrite Z.eqb_eq, E. reflexivity. Qed.
Lemma getpwuid_ok o x m us file p cap fuel uid :
  premises o x m us file p cap -> (length file < fuel)%nat ->
  exists m' r ru, getpwuid o x fuel m (Some file) p uid = Ok (m', r) /\ same_outside m m' p cap /\
    first_user (fun u => u_uid u = uid) us ru /\
    match ru, r with Some u, Some pw => describes o m' pw u | None, None => True | _, _ => False end.
Proof.
  intros PR L.
  destruct (find_ok o x m us file p cap (Owned p) fuel (fun u => u_uid u = uid) (by_uid uid) PR (or_introl eq_refl) L) as (m' & r & ru & E & O & FU & R).
  { intros m1 pw u _ _. apply by_uid_ok. }
  unfold getpwuid. rewrite E. cbn [bind]. exists m', (ok r), ru. split; [reflexivity|]. split; [exact O|]. split; [exact FU|].
  destruct ru; [destruct R as (pw & -> & R); exact R|rewrite R; exact I].
Qed.
Lemma getpwuid_r_ok o x m us file p cap fuel uid :
  premises o x m us file p cap -> (length file < fuel)%nat ->
  exists m' r ru, getpwuid_r o x fuel m (Some file) uid p cap = Ok (m', (r, 0)) /\ same_outside m m' p cap /\
    first_user (fun u => u_uid u = uid) us ru /\
    match ru, r with Some u, Some pw => describes o m' pw u | None, None => True | _, _ => False end.
Proof.
  intros PR L.
  destruct (find_ok o x m us file p cap (Borrowed p cap) fuel (fun u => u_uid u = uid) (by_uid uid) PR (or_intror eq_refl) L) as (m' & r & ru & E & O & FU & R).
  { intros m1 pw u _ _. apply by_uid_ok. }
  unfold getpwuid_r. rewrite E. cbn [bind]. exists m', (fst (mux r)), ru. destruct ru.
  - destruct R as (pw & -> & R). cbn [mux fst]. auto.
  - rewrite R. cbn [mux fst]. auto.
Qed.
Lemma getpwent_ok o x file p cap us : forall m reader rest n,
  premises o x m us rest p cap -> (match reader with Some r => r = rest | None => file = rest end) ->
  exists l reader', walk o x file p (length us + n) m reader = Ok (l, reader') /\
    Forall2 (fun mr u => exists pw, snd mr = Some pw /\ describes o (fst mr) pw u) (firstn (length us) l) us /\
    Forall (fun mr => snd mr = None) (skipn (length us) l) /\ length l = (length us + n)%nat /\
    Forall (fun mr => same_outside m (fst mr) p cap) l.
Proof.
  induction us as [|u us IH]; intros m reader rest n (DB & V & S & F & M & HC & X) R.
  - cbn [length plus firstn skipn]. revert reader R. induction n as [|n IH]; intros reader R; cbn [walk].
    + exists [], reader. repeat split; constructor.
    + assert (E : getpwent o x m (Some file) reader p = Ok (m, Some [], None)).
      { unfold getpwent. destruct reader as [r|]; [subst r|subst file]; rewrite (eof_ok o x m (Owned p) _ DB); reflexivity. }
      rewrite E. cbn [bind].
      assert (rest = []) as Hrest by (destruct DB as [->|DB]; [reflexivity|cbn in DB; apply app_eq_nil in DB; destruct DB; discriminate]).
      destruct (IH (Some [])) as (l & reader' & E' & _ & Fn & Ll & Fo); [symmetry; exact Hrest|]. rewrite E'. cbn [bind].
      exists ((m, None) :: l), reader'. split; [reflexivity|]. split; [constructor|]. split; [constructor; [reflexivity|exact Fn]|].
      split; [cbn; congruence|]. constructor; [intros y _; reflexivity|exact Fo].
  - cbn [length plus walk firstn skipn].
    destruct (entry_ok o x m rest (Owned p) p cap u us DB (Forall_inv V) (Forall_inv S) (Forall_inv F) M (or_introl eq_refl) X) as (m1 & rest1 & pw & E & DE & O1 & M1 & DB1).
    assert (E0 : getpwent o x m (Some file) reader p = Ok (m1, Some rest1, Some pw)).
    { unfold getpwent. destruct reader as [r|]; [subst r|subst file]; rewrite E; reflexivity. }
    rewrite E0. cbn [bind].
    destruct (IH m1 (Some rest1) rest1 n) as (l & reader' & E' & F2 & Fn & Ll & Fo); [|reflexivity|].
    { split; [exact DB1|]. split; [exact (Forall_inv_tail V)|]. split; [exact (Forall_inv_tail S)|]. split; [exact (Forall_inv_tail F)|]. split; [exact M1|].
      split; [exact HC|]. intros RX. destruct (X RX) as [X1 X2]. split; [|exact X2]. eapply cstr_ext; [|exact X1]. intros y Hy. apply O1. change (len [120]) with 1 in Hy. unfold disjoint in X2. lia. }
    rewrite E'. cbn [bind]. exists ((m1, Some pw) :: l), reader'. split; [reflexivity|]. split; [constructor; [exists pw; auto|exact F2]|].
    split; [exact Fn|]. split; [cbn; congruence|]. constructor; [exact O1|]. eapply Forall_impl; [|exact Fo]. intros [m2 r2] H2. eapply same_outside_trans; eassumption.
Qed.
