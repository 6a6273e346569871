From Verif Require Import Base String_model String_proofs Inet_model Inet_proofs Mktemp_model Mktemp_spec.

Lemma stored_again m m1 m2 p w1 w2 : length w1 = length w2 -> stored m m1 p w1 -> stored m1 m2 p w2 -> stored m m2 p w2.
Proof. intros L [_ A] [B C]. split; [exact B|]. intros x X. rewrite C by exact X. apply A. unfold len in *. lia. Qed.

Lemma alnum_char c : alnum c -> is_char c.
Proof. unfold alnum, is_char. lia. Qed.
Lemma six_chars w : six w -> Forall is_char w.
Proof. intros [_ F]. eapply Forall_impl; [|exact F]. exact alnum_char. Qed.

Lemma st_in m p n x v : mapped m p n -> p <= x < p + n -> st m x v = Ok (upd m x v).
Proof. intros M X. apply st_ok, M, X. Qed.

Lemma all_x_ok k m p l : length l = k -> bytes_at m p l -> all_x k m p = Ok (forallb (Z.eqb 88) l).
Proof.
  revert k p. induction l as [|c l IH]; intros k p L B; cbn [length] in L; subst k; [reflexivity|]. destruct B as [B0 B]. cbn [all_x forallb].
  rewrite (ld_ok _ _ _ B0). cbn [bind]. rewrite (Z.eqb_sym 88 c). destruct (c =? 88); [apply IH; [reflexivity|exact B]|reflexivity].
Qed.
Lemma i32_small x : -2147483648 <= x < 2147483648 -> i32 x = x.
Proof. intros H. unfold i32. rewrite Z.mod_small by lia. lia. Qed.

Section P.
Variable S : Type.
Variable draw : nat -> Z.
Hypothesis DR : forall i, alnum (draw i).

Lemma put_draws_ok j m p : mapped m p 6 -> exists m' w, put_draws draw 6 0 j m (p + 6) = Ok m' /\ six w /\ stored m m' p w.
Proof.
  intros M. cbn [put_draws].
  set (d := fun i => draw (6 * j + i)).
  change (draw (6 * j + 0)) with (d 0%nat). change (draw (6 * j + 1)) with (d 1%nat). change (draw (6 * j + 2)) with (d 2%nat).
  change (draw (6 * j + 3)) with (d 3%nat). change (draw (6 * j + 4)) with (d 4%nat). change (draw (6 * j + 5)) with (d 5%nat).
  change (Z.of_nat 0) with 0. change (Z.of_nat 1) with 1. change (Z.of_nat 2) with 2. change (Z.of_nat 3) with 3. change (Z.of_nat 4) with 4. change (Z.of_nat 5) with 5.
  replace (p + 6 - 0 - 1) with (p + 5) by lia. replace (p + 6 - 1 - 1) with (p + 4) by lia. replace (p + 6 - 2 - 1) with (p + 3) by lia.
  replace (p + 6 - 3 - 1) with (p + 2) by lia. replace (p + 6 - 4 - 1) with (p + 1) by lia. replace (p + 6 - 5 - 1) with p by lia.
  do 6 (rewrite (st_in _ p 6) by (first [lia|repeat apply mapped_upd; exact M]); cbn [bind]).
  eexists _, [d 5%nat; d 4%nat; d 3%nat; d 2%nat; d 1%nat; d 0%nat]. split; [reflexivity|]. split.
  - split; [reflexivity|]. repeat (apply Forall_cons; [apply DR|]). apply Forall_nil.
  - split.
    + cbn [bytes_at]. repeat split; repeat first [rewrite upd_other by lia | match goal with |- upd _ ?a ?v ?b = _ => replace b with a by lia; apply upd_same end].
    + intros x X. change (len _) with 6 in X. rewrite !upd_other by lia. reflexivity.
Qed.

Section T.
Variable T : Type.
Variable attempt : S -> list Z -> S * option T.
Variables (pre suf : list Z) (name : Z) (fuel : nat).
Hypothesis CP : Forall is_char pre.
Hypothesis CS : Forall is_char suf.
Hypothesis FU : (length pre + length suf + 6 < fuel)%nat.
Let nm (w : list Z) : list Z := pre ++ w ++ suf.

Lemma template_stored m m' w0 w : length w0 = 6%nat -> six w -> cstr m name (nm w0) -> stored m m' (name + len pre) w -> cstr m' name (nm w).
Proof.
  intros L0 W [C B] [S1 S2]. pose proof (six_chars _ W) as WC. destruct W as [L W].
  split; [unfold nm; rewrite !Forall_app; auto|]. unfold nm in *. rewrite <- !app_assoc in *.
  apply bytes_at_app in B. destruct B as [B1 B]. apply bytes_at_app in B. destruct B as [B2 B3].
  apply bytes_at_app. split; [eapply bytes_at_ext; [|exact B1]; intros x X; apply S2; lia|].
  apply bytes_at_app. split; [exact S1|].
  assert (E : len w = len w0) by (unfold len; lia). rewrite E. eapply bytes_at_ext; [|exact B3]. intros x X. apply S2. lia.
Qed.

Lemma try_names_ok : forall k j m s w0, length w0 = 6%nat -> cstr m name (nm w0) ->
  exists m' s' r, try_names S draw attempt fuel k j m name (name + len pre + 6) s = Ok (m', s', r) /\
    (forall x, ~ name + len pre <= x < name + len pre + 6 -> m' x = m x) /\
    exists ws s1, Forall six ws /\ failed attempt (eq None) s (map nm ws) s1 /\
    match r with
    | inl t => (length ws < k)%nat /\ exists w, six w /\ attempt s1 (nm w) = (s', Some t) /\ cstr m' name (nm w)
    | inr e => length ws = k /\ s' = s1 /\ e = EEXIST /\ exists w, length w = 6%nat /\ cstr m' name (nm w)
    end.
Proof.
  induction k as [|k IH]; intros j m s w0 L0 C.
  - exists m, s, (inr EEXIST). split; [reflexivity|]. split; [reflexivity|]. exists [], s. split; [constructor|]. split; [constructor|]. eauto 10.
  - cbn [try_names]. destruct (put_draws_ok j m (name + len pre)) as (m1 & w & E & W & ST).
    { destruct C as [_ B]. unfold nm in B. rewrite <- !app_assoc in B. apply bytes_at_app in B. destruct B as [_ B]. apply bytes_at_app in B. destruct B as [B _].
      apply bytes_at_mapped in B. unfold len in B. rewrite L0 in B. exact B. }
    rewrite E. cbn [bind]. pose proof (template_stored _ _ _ _ L0 W C ST) as C1.
    rewrite (read_str_ok _ fuel m1 name C1) by (unfold nm; rewrite !app_length; destruct W as [-> _]; lia). cbn [bind].
    assert (F : forall x, ~ name + len pre <= x < name + len pre + 6 -> m1 x = m x).
    { intros x X. apply ST. destruct W as [L _]. unfold len in *. lia. }
    destruct (attempt s (nm w)) as [s1 [t|]] eqn:A.
    + exists m1, s1, (inl t). split; [reflexivity|]. split; [exact F|]. exists [], s. split; [constructor|]. split; [constructor|]. split; [cbn; lia|]. eauto.
    + destruct (IH (Datatypes.S j) m1 s1 w (proj1 W) C1) as (m' & s' & r & E' & F' & ws & s2 & WS & FA & R).
      exists m', s', r. split; [exact E'|]. split; [intros x X; rewrite F', F by exact X; reflexivity|].
      exists (w :: ws), s2. split; [constructor; assumption|]. split; [cbn [map]; econstructor; [exact A|reflexivity|exact FA]|].
      destruct r as [t|e]; [destruct R as [R1 R2]; split; [cbn [length]; lia|exact R2]|destruct R as [R1 R2]; split; [cbn [length]; lia|exact R2]].
Qed.

Lemma inner_ok m s : name <> 0 -> len (nm XXXXXX) < 2147483648 -> cstr m name (nm XXXXXX) ->
  exists m' s' r, inner_mktemp S draw attempt fuel m name (len suf) s = Ok (m', s', r) /\
    (forall x, ~ name + len pre <= x < name + len pre + 6 -> m' x = m x) /\
    exists ws s1, Forall six ws /\ failed attempt (eq None) s (map nm ws) s1 /\
    match r with
    | inl t => (length ws < 100)%nat /\ exists w, six w /\ attempt s1 (nm w) = (s', Some t) /\ cstr m' name (nm w)
    | inr e => length ws = 100%nat /\ s' = s1 /\ e = EEXIST /\ exists w, length w = 6%nat /\ cstr m' name (nm w)
    end.
Proof.
  intros N L C. unfold inner_mktemp. pose proof (len_nonneg pre). pose proof (len_nonneg suf).
  assert (LN : len (nm XXXXXX) = len pre + 6 + len suf) by (unfold nm; rewrite !len_app; change (len XXXXXX) with 6; lia). rewrite LN in *.
  rewrite (strlen_ok (nm XXXXXX)) by (auto; unfold nm, len in *; rewrite !app_length; cbn; lia). cbn [bind]. rewrite LN.
  rewrite (i32_small (len pre + 6 + len suf)) by lia. rewrite (i32_small (len pre + 6 + len suf - 6)) by lia.
  destruct (Z.ltb_spec (len pre + 6 + len suf) 6); [lia|]. destruct (Z.ltb_spec (len pre + 6 + len suf - 6) (len suf)); [lia|]. cbn [orb].
  rewrite (i32_small (len pre + 6 + len suf - len suf)) by lia. replace (len pre + 6 + len suf - len suf) with (len pre + 6) by lia. rewrite i32_small by lia.
  replace (len pre + 6 - 6) with (len pre) by lia. replace (len pre + 6 - len pre) with 6 by lia.
  rewrite (all_x_ok (Z.to_nat 6) m (name + len pre) XXXXXX).
  - cbn [bind]. change (forallb (Z.eqb 88) XXXXXX) with true. cbv iota. replace (name + (len pre + 6 + len suf) - len suf) with (name + len pre + 6) by lia.
    apply try_names_ok with (w0 := XXXXXX); [reflexivity|exact C].
  - reflexivity.
  - destruct C as [_ B]. unfold nm in B. rewrite <- !app_assoc in B. apply bytes_at_app in B. destruct B as [_ B]. apply bytes_at_app in B. tauto.
Qed.
End T.

(* templates that are refused *)
Lemma inner_bad T (attempt : S -> list Z -> S * option T) fuel m name suffix s t : name <> 0 -> cstr m name t -> (length t < fuel)%nat -> len t < 2147483648 ->
  0 <= suffix -> (forall pre suf, len suf = suffix -> t <> pre ++ XXXXXX ++ suf) -> inner_mktemp S draw attempt fuel m name suffix s = Ok (m, s, inr EINVAL).
Proof.
  clear DR. intros N C F L SU NO. unfold inner_mktemp. rewrite (strlen_ok t) by assumption. cbn [bind]. pose proof (len_nonneg t). rewrite (i32_small (len t)) by lia.
  destruct (Z.ltb_spec (len t) 6); [reflexivity|]. rewrite (i32_small (len t - 6)) by lia. destruct (Z.ltb_spec (len t - 6) suffix); [reflexivity|]. cbn [orb].
  rewrite (i32_small (len t - suffix)) by lia. rewrite i32_small by lia.
  replace (len t - suffix - (len t - suffix - 6)) with 6 by lia.
  set (i := Z.to_nat (len t - suffix - 6)). assert (II : Z.of_nat i = len t - suffix - 6) by (unfold i; lia). clearbody i. set (pre := firstn i t). set (mid := firstn 6 (skipn i t)). set (suf := skipn 6 (skipn i t)).
  assert (E : t = pre ++ mid ++ suf) by (unfold pre, mid, suf; rewrite !firstn_skipn; reflexivity).
  assert (LP : len pre = len t - suffix - 6) by (unfold pre, len in *; rewrite firstn_length; lia).
  assert (LM : length mid = 6%nat) by (unfold mid, len in *; rewrite firstn_length, skipn_length; lia).
  assert (LS : len suf = suffix) by (pose proof (f_equal len E) as LT; rewrite !len_app in LT; unfold len in *; lia).
  rewrite (all_x_ok (Z.to_nat 6) m (name + (len t - suffix - 6)) mid).
  - cbn [bind]. destruct (forallb (Z.eqb 88) mid) eqn:A; [|reflexivity]. exfalso. apply (NO pre suf LS). rewrite E. f_equal. f_equal.
    destruct mid as [|a [|b [|c [|d [|e [|f [|]]]]]]]; try discriminate LM. cbn [forallb] in A. unfold XXXXXX.
    rewrite !andb_true_iff, !Z.eqb_eq in A. destruct A as (<- & <- & <- & <- & <- & <- & _). reflexivity.
  - exact LM.
  - destruct C as [_ B]. rewrite E in B. rewrite <- !app_assoc in B. apply bytes_at_app in B. destruct B as [_ B]. rewrite LP in B. apply bytes_at_app in B. tauto.
Qed.
End P.

Lemma failed_map S T U (f : S -> list Z -> S * T) (g : S -> list Z -> S * U) (bad : T -> Prop) (worse : U -> Prop) :
  (forall s n s1 x, f s n = (s1, x) -> bad x -> exists y, g s n = (s1, y) /\ worse y) ->
  forall s l s1, failed f bad s l s1 -> failed g worse s l s1.
Proof. intros H s l s1 F. induction F as [|s n s1 x l s2 C B F IH]; [constructor|]. destruct (H _ _ _ _ C B) as (y & G & W). econstructor; eauto. Qed.

(* ---- mktemp, tmpnam, tempnam ---- *)
Lemma st_list_ok l : forall m p, mapped m p (len l) -> exists m', st_list m p l = Ok m' /\ stored m m' p l.
Proof.
  induction l as [|c l IH]; intros m p M; [exists m; split; [reflexivity|apply stored_nil]|].
  rewrite len_cons in M. pose proof (len_nonneg l). cbn [st_list]. rewrite st_ok by (apply M; lia). cbn [bind].
  destruct (IH (upd m p c) (p + 1)) as (m' & E & ST); [apply mapped_upd; eapply mapped_sub; [exact M|lia|lia]|].
  exists m'. split; [exact E|apply stored_cons; exact ST].
Qed.

Section M.
Variable S : Type.
Variable draw : nat -> Z.
Hypothesis DR : forall i, alnum (draw i).
Variable access : S -> list Z -> Z -> S * option Z.

Lemma mktemp_ok fuel m name pre s : name <> 0 -> Forall is_char pre -> (length pre + 6 < fuel)%nat -> len pre + 6 < 2147483648 ->
  cstr m name (pre ++ XXXXXX) ->
  exists m' s', mktemp S draw access fuel m name s = Ok (m', s') /\
    (forall x, ~ name <= x < name + len pre + 6 -> m' x = m x) /\
    exists ws s1, Forall six ws /\ failed (fun s n => access s n 0) (fun x => x <> Some ENOENT) s (map (app pre) ws) s1 /\
    ((length ws < 100)%nat /\ (exists w, six w /\ access s1 (pre ++ w) 0 = (s', Some ENOENT) /\ cstr m' name (pre ++ w)) \/
     length ws = 100%nat /\ s' = s1 /\ m' name = Some 0).
Proof.
  intros N CP FU L C. unfold mktemp.
  set (att := fun (s : S) n => match access s n 0 with (s, Some e) => (s, if e =? ENOENT then Some tt else None) | (s, None) => (s, None) end).
  assert (NM : forall w, pre ++ w ++ [] = pre ++ w) by (intros w; rewrite app_nil_r; reflexivity).
  destruct (inner_ok S draw DR unit att pre [] name fuel CP (Forall_nil _) ltac:(cbn; lia) m s N) as (m' & s' & r & E & F & ws & s1 & WS & FA & R).
  { rewrite NM, len_app. change (len XXXXXX) with 6. lia. }
  { rewrite NM. exact C. }
  change (len []) with 0 in E. rewrite E. cbn [bind]. pose proof (len_nonneg pre).
  assert (FA' : failed (fun s n => access s n 0) (fun x => x <> Some ENOENT) s (map (app pre) ws) s1).
  { rewrite (map_ext _ (app pre) NM) in FA. revert FA. apply failed_map. intros s0 n s2 x A <-. unfold att in A. destruct (access s0 n 0) as [s3 [e|]] eqn:AC.
    - injection A as <- A. exists (Some e). split; [reflexivity|]. intros Q. injection Q as ->. discriminate A.
    - injection A as <-. exists None. split; [reflexivity|discriminate]. }
  destruct r as [[]|e].
  - exists m', s'. split; [reflexivity|]. split; [intros x X; apply F; lia|]. exists ws, s1. split; [exact WS|]. split; [exact FA'|]. left. destruct R as (R1 & w & W & A & CC).
    split; [exact R1|]. exists w. rewrite NM in *. split; [exact W|]. split; [|exact CC]. unfold att in A. destruct (access s1 (pre ++ w) 0) as [s3 [e|]]; [|discriminate].
    destruct (Z.eqb_spec e ENOENT); [|discriminate]. injection A as ->. congruence.
  - destruct R as (R1 & -> & -> & w & W & CC). rewrite st_ok.
    2:{ rewrite NM in CC. destruct CC as [_ B]. apply bytes_at_mapped in B. apply B. rewrite !len_app. pose proof (len_nonneg w). change (len [0]) with 1. lia. }
    cbn [bind]. eexists _, _. split; [reflexivity|]. split; [intros x X; rewrite upd_other by lia; apply F; lia|].
    exists ws, s1. split; [exact WS|]. split; [exact FA'|]. right. split; [exact R1|]. split; [reflexivity|apply upd_same].
Qed.

Lemma inner_tmpnam_ok fuel m buf pre s : buf <> 0 -> pre <> [] -> Forall is_char pre -> (length pre + 6 < fuel)%nat -> len pre + 6 < 2147483648 ->
  bytes_at m buf pre -> mapped m (buf + len pre) 7 ->
  exists m' s' r, tmpnam_inner S draw access fuel m buf (len pre) s = Ok (m', s', r) /\
    (forall x, ~ buf <= x < buf + len pre + 7 -> m' x = m x) /\
    exists ws s1, Forall six ws /\ failed (fun s n => access s n 0) (fun x => x <> Some ENOENT) s (map (app pre) ws) s1 /\
    (r = buf /\ (length ws < 100)%nat /\ (exists w, six w /\ access s1 (pre ++ w) 0 = (s', Some ENOENT) /\ cstr m' buf (pre ++ w)) \/
     r = 0 /\ length ws = 100%nat /\ s' = s1).
Proof.
  intros N NE CP FU L B M. unfold tmpnam_inner. destruct (st_list_ok [88; 88; 88; 88; 88; 88; 0] m (buf + len pre) M) as (m1 & E & ST). rewrite E. cbn [bind].
  assert (C : cstr m1 buf (pre ++ XXXXXX)).
  { split; [apply Forall_app; split; [exact CP|repeat (apply Forall_cons; [unfold is_char; lia|]); apply Forall_nil]|].
    rewrite <- app_assoc. apply bytes_at_app. split; [eapply bytes_at_ext; [|exact B]; intros x X; apply ST; lia|apply ST]. }
  destruct (mktemp_ok fuel m1 buf pre s N CP FU L C) as (m' & s' & E' & F & ws & s1 & WS & FA & R). rewrite E'. cbn [bind].
  assert (FF : forall x, ~ buf <= x < buf + len pre + 7 -> m' x = m x) by (intros x X; rewrite F by lia; apply ST; change (len [88; 88; 88; 88; 88; 88; 0]) with 7; pose proof (len_nonneg pre); lia).
  destruct R as [(R1 & w & W & A & CC)|(R1 & -> & Z0)].
  - destruct pre as [|c pre']; [congruence|]. pose proof CC as CC'. cbn [app] in CC'. apply cstr_cons in CC'. destruct CC' as (HC & HM & _). rewrite (ld_ok _ _ _ HM). cbn [bind].
    destruct (Z.eqb_spec c 0); [unfold is_char in HC; lia|]. eexists _, _, _. split; [reflexivity|]. split; [exact FF|]. exists ws, s1. split; [exact WS|]. split; [exact FA|]. left. eauto 10.
  - rewrite (ld_ok _ _ _ Z0). cbn [bind]. change (0 =? 0) with true. cbv iota. eexists _, _, _. split; [reflexivity|]. split; [exact FF|].
    exists ws, s1. split; [exact WS|]. split; [exact FA|]. right. auto.
Qed.

Lemma appropriate_ok fuel m s d D : (d <> 0 -> cstr m d D /\ (length D < fuel)%nat) ->
  appropriate S access fuel m s d = Ok (if d =? 0 then false else match snd (access s D 2) with None => true | Some _ => false end).
Proof.
  intros H. unfold appropriate. destruct (Z.eqb_spec d 0); [reflexivity|]. destruct (H n) as [C F]. rewrite (read_str_ok D) by assumption. cbn [bind].
  destruct (access s D 2) as [? [|]]; reflexivity.
Qed.

Lemma tempnam_ok fuel m alloc tmpdir dir slash_tmp pfx s d D P :
  choose_dir S access fuel m s tmpdir dir slash_tmp = Ok d -> d <> 0 -> cstr m d D -> (length D + 12 < fuel)%nat -> len D + 12 < 2147483648 ->
  (pfx = 0 /\ P = [] \/ pfx <> 0 /\ bstr m pfx 5 P) ->
  let n := len D + 1 + len P + 8 in let out := alloc n in out <> 0 -> mapped m out n -> disjoint out n d (len D) -> disjoint out n pfx (len P) ->
  let pre := D ++ 47 :: P in
  exists m' s' r fr, tempnam S draw access fuel m alloc tmpdir dir slash_tmp pfx s = Ok (m', s', r, fr) /\
    (forall x, ~ out <= x < out + n -> m' x = m x) /\
    exists ws s1, Forall six ws /\ failed (fun s n => access s n 0) (fun x => x <> Some ENOENT) s (map (app pre) ws) s1 /\
    (r = out /\ fr = [] /\ (length ws < 100)%nat /\ (exists w, six w /\ access s1 (pre ++ w) 0 = (s', Some ENOENT) /\ cstr m' out (pre ++ w)) \/
     r = 0 /\ fr = [out] /\ length ws = 100%nat /\ s' = s1).
Proof.
  intros CH ND CD FU LD HP n out NO MO D1 D2 pre. unfold tempnam. rewrite CH. cbn [bind]. rewrite (strlen_ok D) by (auto; lia). cbn [bind].
  pose proof (len_nonneg D). pose proof (len_nonneg P).
  assert (SL : strnlen_s fuel m pfx 5 = Ok (len P)).
  { unfold strnlen_s, NULL. destruct HP as [[-> ->]|[NP HP]]; [reflexivity|]. rewrite (proj2 (Z.eqb_neq _ _) NP). apply strnlen_ok; [exact NP|exact HP|].
    pose proof (bstr_le _ _ _ _ HP). unfold len in *. lia. }
  assert (LP : len P <= 5) by (destruct HP as [[_ ->]|[_ HP]]; [rewrite len_nil; lia|exact (bstr_le _ _ _ _ HP)]).
  assert (CP : Forall is_char P /\ bytes_at m pfx P) by (destruct HP as [[_ ->]|[_ HP]]; [split; [constructor|exact I]|destruct HP as (? & ? & _); auto]). destruct CP as [CP BP].
  rewrite SL. cbn [bind]. change L_tmpnam with 7. replace (len D + 1 + len P + 7 + 1) with n by (unfold n; lia). fold out.
  rewrite (proj2 (Z.eqb_neq _ _) NO). replace (Z.to_nat (len D)) with (length D) by (unfold len; lia). replace (Z.to_nat (len P)) with (length P) by (unfold len; lia).
  assert (LN : len pre = len D + 1 + len P) by (unfold pre; rewrite len_app, len_cons; lia).
  destruct (copy_fwd_ok D m out d) as (m1 & E1 & S1); [apply cstr_bytes, CD|eapply mapped_sub; [exact MO|lia|unfold n; lia]|unfold disjoint, n in *; lia|].
  rewrite E1. cbn [bind]. rewrite st_ok by (apply (stored_mapped _ _ _ _ out n S1 MO); unfold n; lia). cbn [bind].
  assert (S2 : stored m (upd m1 (out + len D) 47) out (D ++ [47])) by (eapply stored_snoc; [exact S1|reflexivity]).
  destruct (copy_fwd_ok P (upd m1 (out + len D) 47) (out + len D + 1) pfx) as (m3 & E3 & S3).
  { eapply stored_frame; [exact S2| |exact BP]. unfold disjoint, n in *. rewrite len_app. change (len [47]) with 1. lia. }
  { eapply mapped_sub; [apply (stored_mapped _ _ _ _ out n S2 MO)|lia|unfold n; lia]. }
  { unfold disjoint, n in D2. lia. }
  rewrite E3. cbn [bind].
  assert (S4 : stored m m3 out pre).
  { unfold pre. change (47 :: P) with ([47] ++ P). rewrite app_assoc. eapply stored_app; [exact S2|]. rewrite len_app. change (len [47]) with 1. rewrite Z.add_assoc. exact S3. }
  destruct (inner_tmpnam_ok fuel m3 out pre s NO) as (m' & s' & r & E & F & ws & s1 & WS & FA & R).
  - unfold pre. destruct D; discriminate.
  - unfold pre. apply Forall_app. split; [apply CD|]. constructor; [unfold is_char; lia|exact CP].
  - unfold pre. rewrite app_length. cbn [length]. unfold len in *. lia.
  - lia.
  - apply S4.
  - eapply mapped_sub; [apply (stored_mapped _ _ _ _ out n S4 MO)|lia|unfold n; lia].
  - rewrite LN in E. rewrite E. cbn [bind]. exists m', s'.
    assert (FF : forall x, ~ out <= x < out + n -> m' x = m x) by (intros x X; rewrite F by (unfold n in X; lia); apply S4; unfold n in X; lia).
    destruct R as [(-> & R)|(-> & R)].
    + rewrite (proj2 (Z.eqb_neq _ _) NO). eexists _, _. split; [reflexivity|]. split; [exact FF|]. exists ws, s1. split; [exact WS|]. split; [exact FA|]. left. tauto.
    + change (0 =? 0) with true. eexists _, _. split; [reflexivity|]. split; [exact FF|]. exists ws, s1. split; [exact WS|]. split; [exact FA|]. right. tauto.
Qed.
End M.
