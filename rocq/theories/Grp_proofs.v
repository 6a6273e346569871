From Verif Require Import Base Numeral String_model String_spec String_proofs Sort_model Sort_proofs Word_mem Pwd_model Pwd_spec Pwd_proofs Grp_model Grp_spec.

(* ---- text ---- *)
Lemma split_at_field sep f : forall cur r, ~ In sep f -> split_at sep cur (f ++ sep :: r) = (rev cur ++ f) :: split_at sep [] r.
Proof.
  induction f as [|b f IH]; intros cur r N; cbn [app split_at].
  - rewrite Z.eqb_refl, app_nil_r. reflexivity.
  - destruct (Z.eqb_spec b sep) as [->|]; [exfalso; apply N; left; reflexivity|]. rewrite IH by (intros I; apply N; right; exact I).
    cbn [rev]. rewrite <- app_assoc. reflexivity.
Qed.
Lemma split_at_last sep f : forall cur, ~ In sep f -> split_at sep cur f = [rev cur ++ f].
Proof.
  induction f as [|b f IH]; intros cur N; cbn [split_at]; [rewrite app_nil_r; reflexivity|].
  destruct (Z.eqb_spec b sep) as [->|]; [exfalso; apply N; left; reflexivity|]. rewrite IH by (intros I; apply N; right; exact I).
  cbn [rev]. rewrite <- app_assoc. reflexivity.
Qed.
Lemma split_join sep fs : fs <> [] -> Forall (fun f => ~ In sep f) fs -> split_at sep [] (join sep fs) = fs.
Proof.
  intros NE F. induction F as [|f fs Hf F IH]; [congruence|]. cbn [join]. destruct fs as [|g fs].
  - apply split_at_last. exact Hf.
  - rewrite split_at_field by exact Hf. rewrite IH by discriminate. reflexivity.
Qed.
Lemma split_packed fs : Forall (fun f => ~ In 0 f) fs -> split_at 0 [] (packed fs) = fs ++ [[]].
Proof.
  intros F. induction F as [|f fs Hf F IH]; [reflexivity|]. unfold packed. cbn [map concat app]. rewrite <- app_assoc. cbn [app].
  rewrite split_at_field by exact Hf. unfold packed in IH. rewrite IH. reflexivity.
Qed.
Lemma members_ok o ms : Forall (member o) ms -> filter nonempty (split_at 44 [] (join 44 ms)) = ms.
Proof.
  intros F. destruct ms as [|f ms]; [reflexivity|]. rewrite split_join; [|discriminate|eapply Forall_impl; [|exact F]; intros g Hg; apply Hg].
  remember (f :: ms) as l eqn:E. clear E f ms. induction F as [|f l Hf F IH]; [reflexivity|]. cbn [filter]. destruct Hf as (_ & NE & _).
  destruct f as [|b f]; [congruence|]. cbn [nonempty]. rewrite IH. reflexivity.
Qed.
Lemma join_in sep fs b : In b (join sep fs) -> b = sep \/ exists f, In f fs /\ In b f.
Proof.
  induction fs as [|f fs IH]; intros I; [contradiction|]. cbn [join] in I. destruct fs as [|g fs].
  - right. exists f. split; [left; reflexivity|exact I].
  - apply in_app_or in I. destruct I as [I|[I|I]]; [right; exists f; split; [left; reflexivity|exact I]|left; congruence|].
    destruct (IH I) as [H|(h & H1 & H2)]; [left; exact H|right; exists h; split; [right; exact H1|exact H2]].
Qed.
Lemma clean_join o ms : Forall (member o) ms -> clean (separator o) (join 44 ms) /\ ~ In 13 (join 44 ms).
Proof.
  intros F. rewrite Forall_forall in F. split.
  - unfold clean. apply Forall_forall. intros b I. apply join_in in I. destruct I as [->|(f & I1 & I2)]; [unfold is_byte; destruct o; cbn; lia|].
    destruct (F f I1) as (C & _). unfold clean in C. rewrite Forall_forall in C. apply C, I2.
  - intros I. apply join_in in I. destruct I as [E|(f & I1 & I2)]; [discriminate|]. destruct (F f I1) as (_ & _ & _ & N). tauto.
Qed.
Definition gfields (g : grp) : list (list Z) := [g_name g; g_passwd g; decimal (g_gid g); join 44 (g_members g)].
Lemma gfields_clean o g : valid_group o g -> Forall (clean (separator o)) (gfields g).
Proof.
  intros (C1 & C2 & G & M). pose proof (decimal_clean o (g_gid g) ltac:(lia)). repeat (apply Forall_cons; [try assumption|]); [|apply Forall_nil]. apply (clean_join o _ M).
Qed.
Lemma last_app_ne {A} (l k : list A) d : k <> [] -> last (l ++ k) d = last k d.
Proof.
  intros NE. induction l as [|x l IH]; [reflexivity|]. cbn [app]. destruct (l ++ k) eqn:E; [apply app_eq_nil in E; tauto|]. rewrite <- IH. reflexivity.
Qed.
Lemma last_in {A} (l : list A) d : l <> [] -> In (last l d) l.
Proof.
  induction l as [|x l IH]; intros NE; [congruence|]. destruct l as [|y l]; [left; reflexivity|]. right. apply IH. discriminate.
Qed.
Lemma last_line o g : valid_group o g -> last (join (separator o) (gfields g)) 0 <> 13.
Proof.
  intros (_ & _ & _ & M). destruct (clean_join o _ M) as [_ N]. unfold gfields. cbn [join].
  rewrite !(last_app_ne _ (_ :: _)) by discriminate.
  change (separator o :: g_passwd g ++ separator o :: decimal (g_gid g) ++ separator o :: join 44 (g_members g)) with ([separator o] ++ g_passwd g ++ separator o :: decimal (g_gid g) ++ separator o :: join 44 (g_members g)).
  rewrite (last_app_ne [separator o]) by (intros E; apply app_eq_nil in E; destruct E; discriminate). rewrite (last_app_ne (g_passwd g)) by discriminate.
  change (separator o :: decimal (g_gid g) ++ separator o :: join 44 (g_members g)) with ([separator o] ++ decimal (g_gid g) ++ separator o :: join 44 (g_members g)).
  rewrite (last_app_ne [separator o]) by (intros E; apply app_eq_nil in E; destruct E; discriminate). rewrite (last_app_ne (decimal _)) by discriminate.
  destruct (join 44 (g_members g)) as [|b l]; [destruct o; discriminate|].
  change (separator o :: b :: l) with ([separator o] ++ b :: l). rewrite last_app_ne by discriminate. intros E. apply N. rewrite <- E. apply last_in. discriminate.
Qed.
Lemma chop_line o g : valid_group o g -> chop (gline o g) = join (separator o) (gfields g).
Proof.
  intros V. unfold chop, gline, line. fold (gfields g). rewrite last_last, Z.eqb_refl, removelast_last. cbv zeta.
  destruct (Z.eqb_spec (last (join (separator o) (gfields g)) 0) 13) as [E|]; [exfalso; exact (last_line o g V E)|reflexivity].
Qed.
Lemma chop_join o g : valid_group o g -> chop (join (separator o) (gfields g)) = join (separator o) (gfields g).
Proof.
  intros V. unfold chop. destruct (Z.eqb_spec (last (join (separator o) (gfields g)) 0) 10) as [E|]; [|reflexivity].
  exfalso. assert (N : ~ In 10 (join (separator o) (gfields g))) by (apply join_no; [apply gfields_clean, V|auto|destruct o; discriminate]).
  apply N. rewrite <- E. apply last_in. unfold gfields. cbn [join]. intros X. apply app_eq_nil in X. destruct X; discriminate.
Qed.
Lemma gtext_read o g gs file : gdatabase o (g :: gs) file -> valid_group o g ->
  exists l rest, next_line file = Some (l, rest) /\ chop l = join (separator o) (gfields g) /\ (l = gline o g \/ l ++ [10] = gline o g) /\ gdatabase o gs rest.
Proof.
  intros DB V. pose proof (gfields_clean o g V) as C.
  assert (NJ : ~ In 10 (join (separator o) (gfields g))) by (apply join_no; auto; destruct o; discriminate).
  assert (JNE : join (separator o) (gfields g) <> []) by (unfold gfields; cbn [join]; intros X; apply app_eq_nil in X; destruct X; discriminate).
  assert (FULL : forall r, next_line (gline o g ++ r) = Some (gline o g, r)).
  { intros r. unfold next_line, gline, line. fold (gfields g). rewrite <- app_assoc. cbn [app]. rewrite read_line_ok by exact NJ.
    destruct (join (separator o) (gfields g)); reflexivity. }
  unfold gdatabase, gtext in DB. cbn [map concat] in DB. destruct DB as [->|DB].
  - exists (gline o g), (gtext o gs). split; [apply FULL|]. split; [apply chop_line, V|]. split; [left; reflexivity|left; reflexivity].
  - destruct gs as [|v gs].
    + cbn [map concat] in DB. rewrite app_nil_r in DB. pose proof DB as DB0. unfold gline, line in DB0. fold (gfields g) in DB0. apply app_inj_tail in DB0. destruct DB0 as [-> _].
      exists (join (separator o) (gfields g)), []. split.
      { unfold next_line. rewrite read_line_end by exact NJ. destruct (join (separator o) (gfields g)); [congruence|reflexivity]. }
      split; [apply chop_join, V|]. split; [right; exact DB|left; reflexivity].
    + assert (E : exists r, file = gline o g ++ r /\ r ++ [10] = gtext o (v :: gs)).
      { destruct (exists_last (l := gtext o (v :: gs))) as (r & z & E0).
        { unfold gtext. cbn [map concat]. intros E0. apply app_eq_nil in E0. destruct E0 as [E0 _]. unfold gline, line in E0. apply app_eq_nil in E0. destruct E0; discriminate. }
        exists r. unfold gtext in E0. rewrite E0 in DB. rewrite app_assoc in DB. apply app_inj_tail in DB. destruct DB as [-> <-]. split; [reflexivity|]. symmetry. exact E0. }
      destruct E as (r & -> & E). exists (gline o g), r. split; [apply FULL|]. split; [apply chop_line, V|]. split; [left; reflexivity|right; exact E].
Qed.
Lemma gtext_end o file : gdatabase o [] file -> next_line file = None /\ file = [].
Proof. intros [->|E]; [split; reflexivity|]. cbn in E. apply app_eq_nil in E. destruct E; discriminate. Qed.

(* ---- the buffer ---- *)
Definition head (g : grp) : list Z := le_bytes 4 (g_gid g mod 2 ^ 32) ++ g_name g ++ [0] ++ g_passwd g ++ [0].
Definition offs (g : grp) : list Z := member_offsets (len (head g) + 8 * (len (g_members g) + 1)) (g_members g).
Definition image (g : grp) : list Z :=
  head g ++ concat (map (le_bytes 8) (offs g)) ++ le_bytes 8 0 ++ concat (map (fun f => f ++ [0]) (g_members g)).
Lemma encode_ok o g : valid_group o g -> modest g -> encode (separator o) (join (separator o) (gfields g)) = Some (image g).
Proof.
  intros V [G _]. pose proof (gfields_clean o g V) as C. unfold encode. rewrite map_join by (auto; discriminate).
  rewrite split_packed by (eapply Forall_impl; [|exact C]; intros f Hf; eapply clean_no; [exact Hf|tauto]).
  unfold gfields. cbn [app]. destruct V as (_ & _ & G' & M). rewrite parse_decimal by lia. cbv zeta. rewrite (members_ok o _ M). reflexivity.
Qed.
Lemma member_offsets_len ms : forall c, length (member_offsets c ms) = length ms.
Proof. induction ms as [|f ms IH]; intros c; cbn; [reflexivity|]. rewrite IH. reflexivity. Qed.
Lemma offsets_len c ms : len (member_offsets c ms) = len ms.
Proof. unfold len. rewrite member_offsets_len. reflexivity. Qed.
Lemma words_len l : len (concat (map (le_bytes 8) l)) = 8 * len l.
Proof. induction l as [|v l IH]; [reflexivity|]. cbn [map concat]. rewrite len_app, le_bytes_len, IH, len_cons. lia. Qed.
Lemma head_len g : len (head g) = 4 + len (g_name g) + 1 + len (g_passwd g) + 1.
Proof. unfold head. rewrite !len_app, le_bytes_len. change (len [0]) with 1. lia. Qed.
Lemma image_len g : len (image g) = room g.
Proof.
  unfold image, room. rewrite !len_app, words_len, head_len, le_bytes_len. unfold offs.
  assert (E : len (member_offsets (len (head g) + 8 * (len (g_members g) + 1)) (g_members g)) = len (g_members g)) by (apply offsets_len).
  rewrite E. lia.
Qed.
Lemma offs_bound ms : forall c hi, 0 < c -> c + len (concat (map (fun f => f ++ [0]) ms)) <= hi -> Forall (fun v => c <= v < hi) (member_offsets c ms).
Proof.
  induction ms as [|f ms IH]; intros c hi Hc H; cbn [member_offsets]; [constructor|]. cbn [map concat] in H. rewrite !len_app in H. change (len [0]) with 1 in H.
  pose proof (len_nonneg f). pose proof (len_nonneg (concat (map (fun f => f ++ [0]) ms))). constructor; [lia|].
  eapply Forall_impl; [|apply (IH (c + len f + 1) hi); lia]. cbv beta. intros v Hv. lia.
Qed.
Lemma adjust_ok base l : forall k m a,
  bytes_at m a (concat (map (le_bytes 8) l) ++ le_bytes 8 0) -> Forall (fun v => 0 < v /\ 0 < v + base < 2 ^ 64 /\ v < 2 ^ 64) l -> (length l <= k)%nat ->
  exists m', adjust k m a base = Ok m' /\ stored m m' a (concat (map (le_bytes 8) (map (fun v => v + base) l))).
Proof.
  induction l as [|v l IH]; intros k m a B F L; cbn [map concat app] in *.
  - destruct k as [|k]; [exists m; split; [reflexivity|apply stored_nil]|]. cbn [adjust]. unfold ld_word. rewrite (ld_le_bytes 8 m a 0 B) by (cbn; lia). cbn [bind].
    exists m. split; [reflexivity|apply stored_nil].
  - destruct k as [|k]; [cbn in L; lia|]. cbn [adjust]. pose proof (Forall_inv F) as Hv. cbv beta in Hv. rewrite <- app_assoc in B. apply bytes_at_app in B. destruct B as [B1 B2].
    unfold ld_word. rewrite (ld_le_bytes 8 m a v B1) by (change (256 ^ Z.of_nat 8) with (2 ^ 64); lia). cbn [bind]. destruct (Z.eqb_spec v 0); [lia|].
    rewrite Z.mod_small by lia. rewrite le_bytes_len in B2. change (Z.of_nat 8) with 8 in B2.
    destruct (st_bytes_ok (le_bytes 8 (v + base)) m a) as (m1 & E1 & S1).
    { rewrite le_bytes_len. rewrite <- (le_bytes_len 8 v). apply bytes_at_mapped, B1. }
    rewrite E1. cbn [bind]. destruct (IH k m1 (a + 8)) as (m' & E' & S').
    + eapply stored_frame; [exact S1| |exact B2]. rewrite le_bytes_len. unfold disjoint. lia.
    + exact (Forall_inv_tail F).
    + cbn in L. lia.
    + exists m'. split; [exact E'|]. eapply stored_app; [exact S1|]. rewrite le_bytes_len. exact S'.
Qed.
Lemma parts_head start buf : forall cur, exists f t, parts start cur buf = (start, f) :: t.
Proof.
  induction buf as [|b r IH]; intros cur; cbn [parts]; [eauto|]. destruct (b =? 0); eauto.
Qed.
Lemma member_cstr m p ms : forall c, Forall (fun f => Forall is_char f) ms -> bytes_at m (p + c) (concat (map (fun f => f ++ [0]) ms)) ->
  Forall2 (cstr m) (map (fun v => v + p) (member_offsets c ms)) ms.
Proof.
  induction ms as [|f ms IH]; intros c F B; cbn [member_offsets map]; constructor; cbn [map concat] in B; apply bytes_at_app in B; destruct B as [B1 B2].
  - rewrite Z.add_comm. split; [exact (Forall_inv F)|exact B1].
  - apply IH; [exact (Forall_inv_tail F)|]. rewrite len_app in B2. change (len [0]) with 1 in B2. replace (p + (c + len f + 1)) with (p + c + (len f + 1)) by lia. exact B2.
Qed.
Lemma split_group_ok o m p g t cap : valid_group o g -> modest g -> bytes_at m p (image g) -> 0 < p -> room g <= cap -> p + cap <= USIZE_MAX ->
  exists m' s, split_group m p (image g ++ t) = Ok (m', Some s) /\ shows m' s g /\ same_outside m m' p cap.
Proof.
  intros V [G K] B Hp RC HC. destruct V as (C1 & C2 & G' & M). pose proof (image_len g) as IL.
  unfold image in B. apply bytes_at_app in B. destruct B as [BH B]. apply bytes_at_app in B. destruct B as [BA B]. apply bytes_at_app in B. destruct B as [BZ BM].
  pose proof (len_nonneg (g_name g)). pose proof (len_nonneg (g_passwd g)). pose proof (len_nonneg (g_members g)). pose proof (len_nonneg (concat (map (fun f => f ++ [0]) (g_members g)))) as NM.
  unfold split_group. destruct (Z.ltb_spec (len (image g ++ t)) 4) as [L4|_].
  { rewrite len_app, IL in L4. unfold room in L4. pose proof (len_nonneg t). lia. }
  pose proof BH as BH0. unfold head in BH0. apply bytes_at_app in BH0. destruct BH0 as [BG BH0].
  rewrite (ld_le_bytes 4 m p (g_gid g mod 2 ^ 32) BG) by (change (256 ^ Z.of_nat 4) with (2 ^ 32); apply Z.mod_pos_bound; lia). cbn [bind].
  assert (SK : skipn 4 (image g ++ t) = g_name g ++ 0 :: g_passwd g ++ 0 :: (concat (map (le_bytes 8) (offs g)) ++ le_bytes 8 0 ++ concat (map (fun f => f ++ [0]) (g_members g))) ++ t).
  { unfold image, head. rewrite <- !app_assoc. cbn [app]. rewrite skipn_app, le_bytes_length. rewrite skipn_all2 by (rewrite le_bytes_length; lia). reflexivity. }
  rewrite SK. rewrite parts_field by (eapply clean_no; [exact C1|tauto]). rewrite parts_field by (eapply clean_no; [exact C2|tauto]).
  destruct (parts_head (4 + len (@nil Z) + len (g_name g) + 1 + len (@nil Z) + len (g_passwd g) + 1) ((concat (map (le_bytes 8) (offs g)) ++ le_bytes 8 0 ++ concat (map (fun f => f ++ [0]) (g_members g))) ++ t) []) as (f & tl & EP).
  rewrite EP. rewrite len_nil. rewrite !Z.add_0_r.
  assert (EA : 4 + len (g_name g) + 1 + len (g_passwd g) + 1 = len (head g)) by (rewrite head_len; reflexivity). rewrite EA.
  assert (LO : len (offs g) = len (g_members g)) by (apply offsets_len).
  assert (OB : Forall (fun v => len (head g) + 8 * (len (g_members g) + 1) <= v < cap + 1) (offs g)).
  { apply offs_bound; [rewrite head_len; lia|]. rewrite head_len. unfold room in RC. lia. }
  destruct (adjust_ok p (offs g) (Z.to_nat 4096) m (p + len (head g))) as (m' & E' & S').
  { apply bytes_at_app. split; [exact BA|exact BZ]. }
  { eapply Forall_impl; [|exact OB]. cbv beta. intros v Hv. rewrite head_len in Hv. unfold USIZE_MAX in HC. lia. }
  { unfold len in LO. lia. }
  rewrite E'. cbn [bind]. eexists m', _. split; [reflexivity|].
  pose proof (words_len (map (fun v => v + p) (offs g))) as WL. assert (ML : len (map (fun v => v + p) (offs g)) = len (g_members g)) by (unfold len in *; rewrite map_length; exact LO).
  rewrite ML in WL. split; [|intros y Hy; apply (proj2 S'); rewrite WL; rewrite head_len; unfold room in RC; lia].
  assert (BH' : bytes_at m' p (head g)).
  { eapply stored_frame; [exact S'| |exact BH]. unfold disjoint. lia. }
  rewrite words_len, LO in BZ, BM. rewrite le_bytes_len in BM. change (Z.of_nat 8) with 8 in BM.
  assert (BZ' : bytes_at m' (p + len (head g) + 8 * len (g_members g)) (le_bytes 8 0)).
  { eapply stored_frame; [exact S'| |exact BZ]. unfold disjoint. rewrite WL. lia. }
  assert (BM' : bytes_at m' (p + len (head g) + 8 * len (g_members g) + 8) (concat (map (fun f0 => f0 ++ [0]) (g_members g)))).
  { eapply stored_frame; [exact S'| |exact BM]. unfold disjoint. rewrite WL. lia. }
  unfold head in BH'. apply bytes_at_app in BH'. destruct BH' as [_ BH']. rewrite le_bytes_len in BH'. change (Z.of_nat 4) with 4 in BH'.
  replace (g_name g ++ [0] ++ g_passwd g ++ [0]) with ((g_name g ++ [0]) ++ g_passwd g ++ [0]) in BH' by (rewrite <- app_assoc; reflexivity).
  apply bytes_at_app in BH'. destruct BH' as [BN BP]. rewrite len_app in BP. change (len [0]) with 1 in BP.
  unfold shows. cbn [gr_name gr_passwd gr_gid gr_mem]. split; [|split; [|split]].
  - split; [apply (clean_char (separator o)), C1|exact BN].
  - split; [apply (clean_char (separator o)), C2|]. replace (p + (4 + len (g_name g) + 1)) with (p + 4 + (len (g_name g) + 1)) by lia. exact BP.
  - rewrite Z.mod_small by lia. unfold to_i32. rewrite Z.mod_small by lia. lia.
  - exists (map (fun v => v + p) (offs g)). split; [|split].
    + unfold offs. apply member_cstr.
      * eapply Forall_impl; [|exact M]. intros f0 Hf. eapply clean_char. apply Hf.
      * replace (p + (len (head g) + 8 * (len (g_members g) + 1))) with (p + len (head g) + 8 * len (g_members g) + 8) by lia. exact BM'.
    + apply Forall_map. eapply Forall_impl; [|exact OB]. cbv beta. intros v Hv. rewrite head_len in Hv. unfold USIZE_MAX in HC. lia.
    + apply bytes_at_app. split; [exact (proj1 S')|]. rewrite WL. exact BZ'.
Qed.

(* ---- one line ---- *)
Lemma parse_grp_ok o m g d p cap : valid_group o g -> modest g -> room g <= cap -> mapped m p cap -> 0 < p -> p + cap <= USIZE_MAX -> at_dest d p cap ->
  exists m' s, parse_grp o m (join (separator o) (gfields g)) d = Ok (m', inl s) /\ shows m' s g /\ same_outside m m' p cap /\ mapped m' p cap.
Proof.
  intros V MO RC M Hp HC D. unfold parse_grp. rewrite (encode_ok o g V MO). pose proof (image_len g) as IL.
  assert (exists size, match d with Owned p0 => (p0, len (image g)) | Borrowed p0 size0 => (p0, size0) end = (p, size) /\ len (image g) <= size <= cap) as (size & Ed & Hs).
  { destruct D as [-> | ->]; eexists; (split; [reflexivity|]); lia. }
  rewrite Ed. destruct (Z.ltb_spec size (len (image g))); [lia|].
  destruct (st_bytes_ok (image g) m p) as (m1 & E1 & S1); [eapply mapped_sub; [exact M|lia|lia]|]. rewrite E1. cbn [bind].
  pose proof (len_nonneg (image g)) as LN.
  destruct (mapped_list (Z.to_nat size) m1 p) as (sl & SL & BS).
  { rewrite Z2Nat.id by lia. eapply stored_mapped; [exact S1|]. eapply mapped_sub; [exact M|lia|lia]. }
  destruct (bytes_at_prefix m1 p (image g) sl (proj1 S1) BS) as [t Et]; [unfold len in Hs; lia|].
  rewrite <- SL, (ld_bytes_ok sl m1 p BS). cbn [bind]. subst sl.
  destruct (split_group_ok o m1 p g t cap V MO (proj1 S1) Hp RC HC) as (m2 & s & E2 & SH & O2). rewrite E2. cbn [bind].
  assert (O1 : same_outside m m1 p cap) by (intros y Hy; apply (proj2 S1); lia).
  pose proof (same_outside_trans _ _ _ _ _ O1 O2) as O12. exists m2, s. split; [reflexivity|]. split; [exact SH|]. split; [exact O12|].
  assert (M1 : mapped m1 p cap) by (eapply stored_mapped; eassumption).
  (* adjust changes no mapping *)
  assert (AM : forall k m0 a b m0', adjust k m0 a b = Ok m0' -> mapped m0 p cap -> mapped m0' p cap).
  { clear. induction k as [|k IH]; intros m0 a b m0' E Mm; cbn [adjust] in E; [injection E as <-; exact Mm|].
    destruct (ld_word m0 a) as [w| | |]; try discriminate. cbn [bind] in E. destruct (w =? 0); [injection E as <-; exact Mm|].
    destruct (st_bytes m0 a _) as [m1| | |] eqn:E1; try discriminate. cbn [bind] in E. eapply IH; [exact E|].
    clear - E1 Mm. revert m0 a m1 E1 Mm. generalize (le_bytes 8 ((w + b) mod 2 ^ 64)). induction l as [|c l IH]; intros m0 a m1 E1 Mm; cbn [st_bytes] in E1; [injection E1 as <-; exact Mm|].
    unfold st in E1. destruct (m0 a); [|discriminate]. cbn [bind] in E1. eapply IH; [exact E1|]. apply mapped_upd, Mm. }
  unfold split_group in E2. destruct (_ <? 4); [discriminate|]. destruct (ld_le 4 m1 p); try discriminate. cbn [bind] in E2.
  destruct (parts 4 [] (skipn 4 (image g ++ t))) as [|[x1 y1] [|[x2 y2] [|[x3 y3] l]]]; try discriminate.
  destruct (adjust (Z.to_nat 4096) m1 (p + x3) p) as [m3| | |] eqn:EA; try discriminate. cbn [bind] in E2. injection E2 as <- _. eapply AM; eassumption.
Qed.
Lemma line_utf8 o (utf8 : list Z -> bool) g l : (utf8 (gline o g) = true /\ (forall l, l ++ [10] = gline o g -> utf8 l = true)) -> (l = gline o g \/ l ++ [10] = gline o g) -> utf8 l = true.
Proof. intros [U1 U2] [->|E]; auto. Qed.

(* ---- searching ---- *)
Lemma grp_loop_ok o utf8 p cap d m0 (P : grp -> Prop) matches gs :
  at_dest d p cap -> 0 < p -> p + cap <= USIZE_MAX ->
  Forall (valid_group o) gs -> Forall modest gs -> Forall (fun g => room g <= cap) gs ->
  Forall (fun g => utf8 (gline o g) = true /\ (forall l, l ++ [10] = gline o g -> utf8 l = true)) gs ->
  (forall m s g, same_outside m0 m p cap -> In g gs -> shows m s g -> p <= gr_name s -> exists b, matches m s = Ok b /\ (b = true <-> P g)) ->
  forall fuel m file, gdatabase o gs file -> mapped m p cap -> same_outside m0 m p cap -> (length gs < fuel)%nat ->
  exists m' r rg, grp_loop o utf8 fuel matches m file d = Ok (m', r) /\ same_outside m0 m' p cap /\ first_group P gs rg /\
    match rg with Some g => exists s, r = Found s /\ shows m' s g | None => r = Missing end.
Proof.
  intros D Hp HC. induction gs as [|g gs IH]; intros V MO RO U MA fuel m file DB M OUT L; (destruct fuel as [|fuel]; [cbn in L; lia|]); cbn [grp_loop].
  - destruct (gtext_end o file DB) as [-> _]. exists m, Missing, None. repeat split; auto. constructor.
  - destruct (gtext_read o g gs file DB (Forall_inv V)) as (l & rest & E & CH & LN & DB1). rewrite E. rewrite (line_utf8 o utf8 g l (Forall_inv U) LN). rewrite CH.
    destruct (parse_grp_ok o m g d p cap (Forall_inv V) (Forall_inv MO) (Forall_inv RO) M Hp HC D) as (m1 & s & E1 & SH & O1 & M1). rewrite E1. cbn [bind].
    pose proof (same_outside_trans _ _ _ _ _ OUT O1) as O2.
    assert (PN : p <= gr_name s).
    { clear - E1 D Hp. unfold parse_grp in E1. destruct (encode _ _) as [buf|]; [|discriminate].
      assert (exists size, match d with Owned p0 => (p0, len buf) | Borrowed p0 size0 => (p0, size0) end = (p, size)) as [size Es] by (destruct D as [-> | ->]; eauto).
      rewrite Es in E1. destruct (_ <? _); [discriminate|]. destruct (st_bytes _ _ _) as [m2| | |]; try discriminate. cbn [bind] in E1.
      destruct (ld_bytes _ _ _) as [sl| | |]; try discriminate. cbn [bind] in E1. unfold split_group in E1. destruct (_ <? 4); [discriminate|].
      destruct (ld_le 4 m2 p); try discriminate. cbn [bind] in E1. destruct (parts_head 4 (skipn 4 sl) []) as (f & t & EP). rewrite EP in E1.
      destruct t as [|[x2 y2] [|[x3 y3] t]]; try discriminate. destruct (adjust _ _ _ _); try discriminate. cbn [bind] in E1. injection E1 as _ <-. cbn [gr_name]. lia. }
    destruct (MA m1 s g O2 (or_introl eq_refl) SH PN) as (b & EB & HB). rewrite EB. cbn [bind]. destruct b.
    + exists m1, (Found s), (Some g). split; [reflexivity|]. split; [exact O2|]. split; [|exists s; auto].
      exists [], gs. split; [reflexivity|]. split; [apply HB; reflexivity|constructor].
    + assert (NP : ~ P g) by (intros H; apply HB in H; discriminate).
      destruct (IH (Forall_inv_tail V) (Forall_inv_tail MO) (Forall_inv_tail RO) (Forall_inv_tail U)) with (fuel := fuel) (m := m1) (file := rest) as (m' & r & rg & E' & O' & FU & R); auto.
      * intros m2 s2 g2 H2 I2. apply MA; [exact H2|right; exact I2].
      * cbn in L. lia.
      * exists m', r, rg. split; [exact E'|]. split; [exact O'|]. split; [|exact R]. destruct rg as [v|].
        -- destruct FU as (pre & post & -> & Pv & FP). exists (g :: pre), post. split; [reflexivity|]. split; [exact Pv|]. constructor; assumption.
        -- constructor; assumption.
Qed.
Lemma gline_long o g : (length (g_name g) + 2 <= length (gline o g))%nat.
Proof. unfold gline, line. rewrite app_length. cbn [join]. rewrite app_length. cbn [length]. lia. Qed.
Lemma gtext_long o gs : forall g, In g gs -> (length (g_name g) + 2 <= length (gtext o gs))%nat.
Proof.
  induction gs as [|v gs IH]; intros g I; [contradiction|]. unfold gtext. cbn [map concat]. rewrite app_length. destruct I as [->|I].
  - pose proof (gline_long o g). lia.
  - specialize (IH g I). unfold gtext in IH. lia.
Qed.
Lemma gtext_count o gs : (2 * length gs <= length (gtext o gs))%nat.
Proof. induction gs as [|v gs IH]; [cbn; lia|]. unfold gtext in *. cbn [map concat length]. rewrite app_length. pose proof (gline_long o v). lia. Qed.
Lemma gdatabase_len o gs file : gdatabase o gs file -> (length (gtext o gs) <= length file + 1)%nat.
Proof. intros [->|E]; [lia|]. rewrite <- E, app_length. cbn. lia. Qed.
Lemma gfuel o gs file fuel : gdatabase o gs file -> (length file < fuel)%nat -> (length gs < fuel)%nat.
Proof. intros DB L. pose proof (gdatabase_len o gs file DB). pose proof (gtext_count o gs). destruct gs; cbn in *; lia. Qed.
Lemma gfind_ok o utf8 m gs file p cap d fuel (P : grp -> Prop) matches :
  gpremises o utf8 m gs file p cap -> at_dest d p cap -> (length file < fuel)%nat ->
  (forall m1 s g, same_outside m m1 p cap -> In g gs -> shows m1 s g -> p <= gr_name s -> exists b, matches m1 s = Ok b /\ (b = true <-> P g)) ->
  exists m' r rg, grp_loop o utf8 fuel matches m file d = Ok (m', r) /\ same_outside m m' p cap /\ first_group P gs rg /\
    match rg with Some g => exists s, r = Found s /\ shows m' s g | None => r = Missing end.
Proof.
  intros (DB & V & MO & RO & M & Hp & HC & U) D L MA. eapply (grp_loop_ok o utf8 p cap d m P matches gs); eauto.
  - intros y _. reflexivity.
  - eapply gfuel; eassumption.
Qed.
Lemma has_gid_ok gid m s g : shows m s g -> exists b, has_gid gid m s = Ok b /\ (b = true <-> g_gid g = gid).
Proof. intros (_ & _ & E & _). unfold has_gid. exists (gr_gid s =? gid). split; [reflexivity|]. rewrite Z.eqb_eq, E. reflexivity. Qed.
Lemma prefix_firstn (a b : list Z) : (prefix a b \/ prefix b a) <-> firstn (Nat.min (length a) (length b)) a = firstn (Nat.min (length a) (length b)) b.
Proof.
  split.
  - intros [[t ->]|[t ->]]; rewrite app_length.
    + rewrite Nat.min_l by lia. rewrite firstn_all, firstn_app, firstn_all, Nat.sub_diag, firstn_O, app_nil_r. reflexivity.
    + rewrite Nat.min_r by lia. rewrite firstn_all, firstn_app, firstn_all, Nat.sub_diag, firstn_O, app_nil_r. reflexivity.
  - intros E. destruct (Nat.le_ge_cases (length a) (length b)) as [H|H].
    + rewrite Nat.min_l in E by lia. rewrite firstn_all in E. left. exists (skipn (length a) b). rewrite E at 1. symmetry. apply firstn_skipn.
    + rewrite Nat.min_r in E by lia. rewrite firstn_all in E. right. exists (skipn (length b) a). rewrite <- E at 1. symmetry. apply firstn_skipn.
Qed.
Lemma has_name_ok m0 p cap name n fuel gs :
  cstr m0 name n -> name <> NULL -> disjoint name (len n + 1) p cap -> (length n < fuel)%nat -> 0 < p ->
  Forall (fun g => (length (g_name g) < fuel)%nat) gs ->
  forall m s g, same_outside m0 m p cap -> In g gs -> shows m s g -> p <= gr_name s ->
  exists b, has_name fuel name m s = Ok b /\ (b = true <-> prefix (g_name g) n \/ prefix n (g_name g)).
Proof.
  intros CN NN DJ FN Hp FG m s g OUT I (SN & _) PN. rewrite Forall_forall in FG. specialize (FG g I).
  assert (CN' : cstr m name n).
  { eapply cstr_ext; [|exact CN]. intros y Hy. apply OUT. unfold disjoint in DJ. lia. }
  unfold has_name. rewrite (strlen_ok (g_name g) fuel m _) by (auto; unfold NULL; lia). cbn [bind]. rewrite (strlen_ok n fuel m name) by auto. cbn [bind].
  assert (Z.min (len (g_name g)) (len n) = Z.of_nat (Nat.min (length (g_name g)) (length n))) as -> by (unfold len; lia).
  set (k := Nat.min (length (g_name g)) (length n)).
  destruct (strncmp_ok (firstn k (g_name g)) (firstn k n) fuel m (gr_name s) name (Z.of_nat k)) as (r & E & SG).
  - rewrite <- (Nat2Z.id k) at 2. apply bstr_of_cstr; [exact SN|lia].
  - rewrite <- (Nat2Z.id k) at 2. apply bstr_of_cstr; [exact CN'|lia].
  - rewrite firstn_length. lia.
  - rewrite E. cbn [bind]. exists (r =? 0). split; [reflexivity|]. rewrite Z.eqb_eq, prefix_firstn. fold k. rewrite <- lex_eq_iff.
    unfold sign_is in SG. destruct (lex (firstn k (g_name g)) (firstn k n)); split; intros; try reflexivity; try discriminate; try lia.
Qed.
Lemma gnames_fuel o gs file fuel : gdatabase o gs file -> (length file < fuel)%nat -> Forall (fun g => (length (g_name g) < fuel)%nat) gs.
Proof. intros DB L. apply Forall_forall. intros g I. pose proof (gtext_long o gs g I). pose proof (gdatabase_len o gs file DB). lia. Qed.
Lemma first_group_ext P Q gs r : Forall (fun g => P g <-> Q g) gs -> first_group P gs r -> first_group Q gs r.
Proof.
  intros E. rewrite Forall_forall in E. destruct r as [g|]; cbn [first_group].
  - intros (pre & post & -> & H & F). exists pre, post. split; [reflexivity|]. split; [apply E; [apply in_or_app; right; left; reflexivity|exact H]|].
    rewrite Forall_forall in *. intros h I X. apply (F h I). apply E; [apply in_or_app; left; exact I|exact X].
  - intros F. rewrite Forall_forall in *. intros h I X. apply (F h I), E; assumption.
Qed.
Lemma prefixes_ext n gs : no_prefixes n gs -> Forall (fun g => (prefix (g_name g) n \/ prefix n (g_name g)) <-> g_name g = n) gs.
Proof. intros N. eapply Forall_impl; [|exact N]. cbv beta. intros g H. split; [exact H|]. intros ->. left. exists []. rewrite app_nil_r. reflexivity. Qed.

Lemma getgrgid_ok o utf8 m gs file p cap fuel gid :
  gpremises o utf8 m gs file p cap -> (length file < fuel)%nat ->
  exists m' r rg, getgrgid o utf8 fuel m (Some file) p gid = Ok (m', r) /\ same_outside m m' p cap /\
    first_group (fun g => g_gid g = gid) gs rg /\
    match rg, r with Some g, Some s => shows m' s g | None, None => True | _, _ => False end.
Proof.
  intros PR L. destruct (gfind_ok o utf8 m gs file p cap (Owned p) fuel (fun g => g_gid g = gid) (has_gid gid) PR (or_introl eq_refl) L) as (m' & r & rg & E & O & FU & R).
  { intros m1 s g _ _ SH _. apply has_gid_ok, SH. }
  unfold getgrgid. rewrite E. cbn [bind]. exists m', (found r), rg. split; [reflexivity|]. split; [exact O|]. split; [exact FU|].
  destruct rg; [destruct R as (s & -> & R); exact R|rewrite R; exact I].
Qed.
Lemma getgrgid_r_ok o utf8 m gs file p cap fuel gid :
  gpremises o utf8 m gs file p cap -> (length file < fuel)%nat ->
  exists m' r rg, getgrgid_r o utf8 fuel m (Some file) gid p cap = Ok (m', (r, 0)) /\ same_outside m m' p cap /\
    first_group (fun g => g_gid g = gid) gs rg /\
    match rg, r with Some g, Some s => shows m' s g | None, None => True | _, _ => False end.
Proof.
  intros PR L. destruct (gfind_ok o utf8 m gs file p cap (Borrowed p cap) fuel (fun g => g_gid g = gid) (has_gid gid) PR (or_intror eq_refl) L) as (m' & r & rg & E & O & FU & R).
  { intros m1 s g _ _ SH _. apply has_gid_ok, SH. }
  unfold getgrgid_r. rewrite E. cbn [bind]. exists m', (found r), rg. destruct rg.
  - destruct R as (s & -> & R). cbn [found]. auto.
  - rewrite R. cbn [found]. auto.
Qed.
Lemma getgrnam_ok o utf8 m gs file p cap fuel name n :
  gpremises o utf8 m gs file p cap -> (length file < fuel)%nat ->
  cstr m name n -> name <> NULL -> disjoint name (len n + 1) p cap -> (length n < fuel)%nat -> no_prefixes n gs ->
  exists m' r rg, getgrnam o utf8 fuel m (Some file) p name = Ok (m', r) /\ same_outside m m' p cap /\
    first_group (fun g => g_name g = n) gs rg /\
    match rg, r with Some g, Some s => shows m' s g | None, None => True | _, _ => False end.
Proof.
  intros PR L CN NN DJ FN NP. pose proof PR as (DB & _ & _ & _ & _ & Hp & _).
  destruct (gfind_ok o utf8 m gs file p cap (Owned p) fuel _ (has_name fuel name) PR (or_introl eq_refl) L
    (has_name_ok m p cap name n fuel gs CN NN DJ FN Hp (gnames_fuel o gs file fuel DB L))) as (m' & r & rg & E & O & FU & R).
  unfold getgrnam. rewrite E. cbn [bind]. exists m', (found r), rg. split; [reflexivity|]. split; [exact O|].
  split; [eapply first_group_ext; [apply prefixes_ext, NP|exact FU]|]. destruct rg; [destruct R as (s & -> & R); exact R|rewrite R; exact I].
Qed.
Lemma getgrnam_r_ok o utf8 m gs file p cap fuel name n old :
  gpremises o utf8 m gs file p cap -> (length file < fuel)%nat ->
  cstr m name n -> name <> NULL -> disjoint name (len n + 1) p cap -> (length n < fuel)%nat -> no_prefixes n gs ->
  In n (map g_name gs) ->
  exists m' s g, getgrnam_r o utf8 fuel m (Some file) name p cap old = Ok (m', (Some s, 0)) /\ same_outside m m' p cap /\
    first_group (fun g => g_name g = n) gs (Some g) /\ shows m' s g.
Proof.
  intros PR L CN NN DJ FN NP IN. pose proof PR as (DB & _ & _ & _ & _ & Hp & _).
  destruct (gfind_ok o utf8 m gs file p cap (Borrowed p cap) fuel _ (has_name fuel name) PR (or_intror eq_refl) L
    (has_name_ok m p cap name n fuel gs CN NN DJ FN Hp (gnames_fuel o gs file fuel DB L))) as (m' & r & rg & E & O & FU & R).
  unfold getgrnam_r. rewrite E. cbn [bind]. apply (first_group_ext _ (fun g => g_name g = n)) in FU; [|apply prefixes_ext, NP]. destruct rg as [g|].
  - destruct R as (s & -> & R). exists m', s, g. auto.
  - exfalso. cbn [first_group] in FU. rewrite Forall_forall in FU. apply in_map_iff in IN. destruct IN as (g & En & IG). exact (FU g IG En).
Qed.
Lemma getgrent_ok o utf8 file p cap gs : forall m reader rest n,
  gpremises o utf8 m gs rest p cap -> (match reader with Some r => r = rest | None => file = rest end) ->
  exists l reader', gwalk o utf8 file p (length gs + n) m reader = Ok (l, reader') /\
    Forall2 (fun mr g => exists s, snd mr = Some s /\ shows (fst mr) s g) (firstn (length gs) l) gs /\
    Forall (fun mr => snd mr = None) (skipn (length gs) l) /\ length l = (length gs + n)%nat /\
    Forall (fun mr => same_outside m (fst mr) p cap) l.
Proof.
  induction gs as [|g gs IH]; intros m reader rest n (DB & V & MO & RO & M & Hp & HC & U) R.
  - cbn [length plus firstn skipn]. revert reader R. induction n as [|n IH]; intros reader R; cbn [gwalk].
    + exists [], reader. repeat split; constructor.
    + destruct (gtext_end o rest DB) as [NL ->].
      assert (E : getgrent o utf8 m (Some file) reader p = Ok (m, Some [], None)).
      { unfold getgrent. destruct reader as [r|]; [subst r|subst file]; reflexivity. }
      rewrite E. cbn [bind]. destruct (IH (Some [])) as (l & reader' & E' & _ & Fn & Ll & Fo); [reflexivity|]. rewrite E'. cbn [bind].
      exists ((m, None) :: l), reader'. split; [reflexivity|]. split; [constructor|]. split; [constructor; [reflexivity|exact Fn]|].
      split; [cbn; congruence|]. constructor; [intros y _; reflexivity|exact Fo].
  - cbn [length plus gwalk firstn skipn].
    destruct (gtext_read o g gs rest DB (Forall_inv V)) as (l0 & rest1 & EN & CH & LN & DB1).
    destruct (parse_grp_ok o m g (Owned p) p cap (Forall_inv V) (Forall_inv MO) (Forall_inv RO) M Hp HC (or_introl eq_refl)) as (m1 & s & E1 & SH & O1 & M1).
    assert (E0 : getgrent o utf8 m (Some file) reader p = Ok (m1, Some rest1, Some s)).
    { unfold getgrent. destruct reader as [r|]; [subst r|subst file]; rewrite EN, (line_utf8 o utf8 g l0 (Forall_inv U) LN), CH, E1; reflexivity. }
    rewrite E0. cbn [bind].
    destruct (IH m1 (Some rest1) rest1 n) as (l & reader' & E' & F2 & Fn & Ll & Fo); [|reflexivity|].
    { split; [exact DB1|]. split; [exact (Forall_inv_tail V)|]. split; [exact (Forall_inv_tail MO)|]. split; [exact (Forall_inv_tail RO)|]. split; [exact M1|]. split; [exact Hp|].
      split; [exact HC|exact (Forall_inv_tail U)]. }
    rewrite E'. cbn [bind]. exists ((m1, Some s) :: l), reader'. split; [reflexivity|]. split; [constructor; [exists s; auto|exact F2]|].
    split; [exact Fn|]. split; [cbn; congruence|]. constructor; [exact O1|]. eapply Forall_impl; [|exact Fo]. intros [m2 r2] H2. eapply same_outside_trans; eassumption.
Qed.

(* ---- getgrouplist ---- *)
Lemma trim_id f : Forall (fun b => space b = false) f -> trim f = f.
Proof.
  intros F. assert (D : forall l, Forall (fun b => space b = false) l -> drop_space l = l).
  { intros l Hl. destruct Hl as [|b l Hb Hl]; [reflexivity|]. cbn [drop_space]. rewrite Hb. reflexivity. }
  unfold trim. rewrite (D f F). rewrite D by (apply Forall_rev, F). apply rev_involutive.
Qed.
Lemma plain_space b : b <> 32 /\ ~ 9 <= b <= 13 -> space b = false.
Proof. intros [H K]. unfold space. destruct (Z.eqb_spec b 32); [lia|]. destruct (Z.leb_spec 9 b); [|reflexivity]. destruct (Z.leb_spec b 13); [lia|reflexivity]. Qed.
Lemma eqb_list_iff a : forall b, eqb_list a b = true <-> a = b.
Proof.
  induction a as [|x a IH]; intros [|y b]; cbn [eqb_list]; split; intros H; try discriminate; try reflexivity.
  - apply andb_true_iff in H. destruct H as [H K]. apply Z.eqb_eq in H. apply IH in K. congruence.
  - injection H as -> ->. rewrite Z.eqb_refl. apply IH. reflexivity.
Qed.
Lemma listed user (l : list (list Z)) : existsb (eqb_list user) l = if in_dec (list_eq_dec Z.eq_dec) user l then true else false.
Proof.
  destruct (in_dec _ user l) as [I|N].
  - apply existsb_exists. exists user. split; [exact I|apply eqb_list_iff; reflexivity].
  - apply not_true_is_false. intros E. apply existsb_exists in E. destruct E as (x & I & E). apply eqb_list_iff in E. congruence.
Qed.
Lemma list_loop_ok o utf8 user gs : user <> [] -> Forall (valid_group o) gs -> Forall modest gs -> Forall plain gs ->
  Forall (fun g => utf8 (gline o g) = true /\ (forall l, l ++ [10] = gline o g -> utf8 l = true)) gs ->
  forall fuel file, gdatabase o gs file -> (length gs < fuel)%nat ->
  list_loop o utf8 fuel user file = Ok (Some (map g_gid (filter (fun g => existsb (eqb_list user) (g_members g)) gs))).
Proof.
  intros NU. induction gs as [|g gs IH]; intros V MO PL U fuel file DB L; (destruct fuel as [|fuel]; [cbn in L; lia|]); cbn [list_loop].
  - destruct (gtext_end o file DB) as [-> _]. reflexivity.
  - destruct (gtext_read o g gs file DB (Forall_inv V)) as (l & rest & E & CH & LN & DB1). rewrite E. rewrite (line_utf8 o utf8 g l (Forall_inv U) LN). rewrite CH.
    pose proof (gfields_clean o g (Forall_inv V)) as C.
    rewrite split_join; [|discriminate|eapply Forall_impl; [|exact C]; intros f Hf; eapply clean_no; [exact Hf|tauto]].
    cbv zeta. unfold gfields. cbn [nth]. pose proof (Forall_inv V) as (_ & _ & G' & M). pose proof (Forall_inv MO) as [G _]. rewrite parse_decimal by lia.
    rewrite (IH (Forall_inv_tail V) (Forall_inv_tail MO) (Forall_inv_tail PL) (Forall_inv_tail U) fuel rest DB1) by (cbn in L; lia). cbn [bind].
    assert (EM : existsb (eqb_list user) (map trim (split_at 44 [] (join 44 (g_members g)))) = existsb (eqb_list user) (g_members g)).
    { destruct (g_members g) as [|f ms] eqn:Em.
      - cbn. destruct user; [congruence|reflexivity].
      - rewrite split_join; [|discriminate|eapply Forall_impl; [|exact M]; intros h Hh; apply Hh]. f_equal. rewrite <- (map_id (f :: ms)) at 2.
        apply map_ext_in. intros h I. apply trim_id. pose proof (Forall_inv PL) as PG. unfold plain in PG. rewrite Em, Forall_forall in PG. eapply Forall_impl; [|exact (PG h I)]. exact plain_space. }
    rewrite EM. cbn [filter]. destruct (existsb (eqb_list user) (g_members g)); reflexivity.
Qed.
Lemma getgrouplist_ok o utf8 user gs file fuel group n : user <> [] -> utf8 user = true ->
  gdatabase o gs file -> Forall (valid_group o) gs -> Forall modest gs -> Forall plain gs ->
  Forall (fun g => utf8 (gline o g) = true /\ (forall l, l ++ [10] = gline o g -> utf8 l = true)) gs ->
  (length file < fuel)%nat -> 0 <= n ->
  let others := tl (groups_of gs user group) in
  getgrouplist o utf8 fuel (Some file) user group n =
    Ok (if n <? len others then -1 else len others, len others, firstn (Z.to_nat n) others).
Proof.
  intros NU UU DB V MO PL U L Hn. cbv zeta. unfold getgrouplist. rewrite UU.
  rewrite (list_loop_ok o utf8 user gs NU V MO PL U fuel file DB) by (eapply gfuel; eassumption). cbn [bind]. unfold groups_of. cbn [tl].
  rewrite (filter_ext _ (fun g => if in_dec (list_eq_dec Z.eq_dec) user (g_members g) then true else false)) by (intros g; apply listed). reflexivity.
Qed.
