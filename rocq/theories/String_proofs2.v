(** strsep, strtok_r as call sequences; strcasestr; strdup; strxfrm; strerror_r. *)
From Verif Require Import Base String_model String_spec String_proofs.

Ltac Zify.zify_post_hook ::= Z.div_mod_to_equations.

Lemma in_dec_Z (b : Z) D : {In b D} + {~ In b D}.
Proof. apply in_dec, Z.eq_dec. Qed.

(** Splitting before the first byte with a property is unique. *)
Lemma split_unique (P : Z -> Prop) f d rest pre post :
  Forall (fun b => ~ P b) f -> P d -> f ++ d :: rest = pre ++ post ->
  Forall (fun b => ~ P b) pre -> match post with [] => True | b :: _ => P b end ->
  pre = f /\ post = d :: rest.
Proof.
  revert pre; induction f as [|x f IH]; intros pre Hf Hd E Hp Hq.
  - destruct pre as [|y pre]; [cbn in E; auto|]. cbn in E. injection E as <- _.
    apply Forall_cons_iff in Hp. tauto.
  - apply Forall_cons_iff in Hf. destruct Hf as [Hx Hf]. destruct pre as [|y pre].
    + cbn in E. subst post. contradiction.
    + cbn in E. injection E as <- E. apply Forall_cons_iff in Hp. destruct Hp as [_ Hp].
      destruct (IH pre Hf Hd E Hp Hq) as [-> ->]. auto.
Qed.

Lemma split_unique_end (P : Z -> Prop) s pre post :
  Forall (fun b => ~ P b) s -> s = pre ++ post ->
  match post with [] => True | b :: _ => P b end -> pre = s /\ post = [].
Proof.
  intros Hs -> Hq. apply Forall_app in Hs. destruct Hs as [_ Hs].
  destruct post as [|b post]; [rewrite app_nil_r; auto|].
  apply Forall_cons_iff in Hs. tauto.
Qed.

Lemma first_split (D : list Z) (s : list Z) : exists pre post, s = pre ++ post /\ Forall (fun b => ~ In b D) pre /\
  match post with [] => True | b :: _ => In b D end.
Proof.
  induction s as [|b s [pre [post [-> [H1 H2]]]]].
  - exists [], []. auto.
  - destruct (in_dec_Z b D).
    + exists [], (b :: pre ++ post). auto.
    + exists (b :: pre), post. auto.
Qed.

Lemma first_split_in (D : list Z) (s : list Z) : exists pre post, s = pre ++ post /\ Forall (fun b => In b D) pre /\
  match post with [] => True | b :: _ => ~ In b D end.
Proof.
  induction s as [|b s [pre [post [-> [H1 H2]]]]].
  - exists [], []. auto.
  - destruct (in_dec_Z b D).
    + exists (b :: pre), post. auto.
    + exists [], (b :: pre ++ post). auto.
Qed.

Lemma fields_total D s : exists fs, fields D s fs.
Proof.
  remember (length s) as n eqn:En. revert s En.
  induction n as [n IH] using (well_founded_induction lt_wf). intros s ->.
  destruct (first_split D s) as [pre [post [-> [H1 H2]]]]. destruct post as [|d rest].
  - rewrite app_nil_r. exists [pre]. constructor. exact H1.
  - destruct (IH (length rest)) with (s := rest) as [fs Hfs]; [|reflexivity|].
    + rewrite app_length. cbn. lia.
    + exists (pre :: fs). constructor; assumption.
Qed.

Lemma tokens_total D s : exists ts, tokens D s ts.
Proof.
  remember (length s) as n eqn:En. revert s En.
  induction n as [n IH] using (well_founded_induction lt_wf). intros s ->.
  destruct (first_split_in D s) as [sep [post [-> [H1 H2]]]]. destruct post as [|c r].
  - rewrite app_nil_r. exists []. constructor. exact H1.
  - destruct (first_split D (c :: r)) as [t [rest [E [H3 H4]]]].
    assert (Ht : t <> []).
    { intros ->. cbn in E. subst rest. contradiction. }
    destruct (IH (length rest)) with (s := rest) as [ts Hts]; [|reflexivity|].
    + rewrite E, !app_length. destruct t; [congruence|]. cbn. lia.
    + exists (t :: ts). rewrite E. constructor; assumption.
Qed.

(** ** strsep *)
Lemma strsep_step D s fuel m a q :
  a <> NULL -> cstr m a s -> cstr m q D -> (length s < fuel)%nat -> (length D < fuel)%nat ->
  exists pre post, s = pre ++ post /\ Forall (fun b => ~ In b D) pre /\
    match post with
    | [] => strsep fuel m a q = Ok (m, NULL, a)
    | b :: _ => In b D /\ strsep fuel m a q = Ok (upd m (a + len pre) 0, a + len pre + 1, a)
    end.
Proof.
  intros Ha Hs HD Hf1 Hf2. unfold strsep, strcspn. rewrite (proj2 (Z.eqb_neq _ _) Ha).
  destruct (inner_strspn_ok D s false fuel m a q Hs HD Hf1 Hf2) as [pre [post [-> [E [F P]]]]].
  exists pre, post. split; [reflexivity|]. split; [exact F|]. rewrite E. cbn [bind].
  assert (Fp : Forall is_char pre) by (destruct Hs as [H _]; apply Forall_app in H; tauto).
  apply (cstr_app m a pre post Fp) in Hs. destruct Hs as [_ Hs].
  destruct post as [|b post].
  - apply cstr_nil in Hs. ldst. reflexivity.
  - apply cstr_cons in Hs. destruct Hs as [Hc [Hm _]]. ldst. rewrite (char_neq0 b Hc). cbn [negb].
    rewrite st_ok by eauto. auto.
Qed.

Lemma strsep_null_run fuel q n : forall m,
  repeat_calls (fun m c => strsep fuel m c q) n m NULL = Ok (m, NULL, repeat NULL n).
Proof.
  induction n as [|n IH]; intros m; cbn [repeat_calls repeat]; [reflexivity|].
  unfold strsep at 1. cbn [Z.eqb NULL bind]. fold NULL. rewrite IH. reflexivity.
Qed.

Lemma strsep_run_ok D fuel q s fs : fields D s fs -> forall n m a,
  0 < a -> cstr m a s -> cstr m q D -> disjoint a (len s + 1) q (len D + 1) ->
  (length s < fuel)%nat -> (length D < fuel)%nat ->
  exists m' cur' ps,
    repeat_calls (fun m c => strsep fuel m c q) n m a
      = Ok (m', cur', ps ++ repeat NULL (n - length fs)) /\
    Forall2 (fun p f => cstr m' p f) ps (firstn n fs) /\
    (forall x, ~ (a <= x < a + len s) -> m' x = m x).
Proof.
  intros Hfs. induction Hfs as [s Hs0|f d rest fs Hf0 Hd Hrest IH]; intros n m a Ha Hs HD Hdis F1 F2.
  - destruct n as [|n].
    + exists m, a, []. cbn. repeat split; auto.
    + cbn [repeat_calls].
      destruct (strsep_step D s fuel m a q) as [pre [post [E [Fp P]]]]; try assumption; [unfold NULL; lia|].
      assert (Hpost : pre = s /\ post = []).
      { apply (split_unique_end (fun b => In b D)); auto. destruct post; tauto. }
      destruct Hpost as [-> ->]. rewrite P. cbn [bind]. rewrite strsep_null_run. cbn [bind].
      exists m, NULL, [a]. cbn [length Nat.sub app firstn]. rewrite Nat.sub_0_r.
      split; [reflexivity|]. split; [|auto]. rewrite firstn_nil. constructor; [exact Hs|constructor].
  - destruct n as [|n].
    + exists m, a, []. cbn. repeat split; auto.
    + cbn [repeat_calls].
      destruct (strsep_step D (f ++ d :: rest) fuel m a q) as [pre [post [E [Fp P]]]]; try assumption; [unfold NULL; lia|].
      assert (Hpost : pre = f /\ post = d :: rest).
      { apply (split_unique (fun b => In b D)); auto. destruct post; tauto. }
      destruct Hpost as [-> ->]. destruct P as [_ P]. rewrite P. cbn [bind].
      assert (Ff : Forall is_char f) by (destruct Hs as [H _]; apply Forall_app in H; tauto).
      apply (cstr_app m a f _ Ff) in Hs. destruct Hs as [Hbf Hs].
      apply cstr_cons in Hs. destruct Hs as [Hcd [Hmd Hs]].
      rewrite len_app, len_cons in *. rewrite app_length in F1. cbn [length] in F1.
      pose proof (len_nonneg f). pose proof (len_nonneg rest).
      destruct (IH n (upd m (a + len f) 0) (a + len f + 1)) as [m' [cur' [ps [ER [F2' Fr]]]]].
      * lia.
      * eapply cstr_ext; [|exact Hs]. intros x Hx. apply upd_other. lia.
      * eapply cstr_ext; [|exact HD]. intros x Hx. apply upd_other. unfold disjoint in Hdis. lia.
      * unfold disjoint in *. lia.
      * lia.
      * exact F2.
      * exists m', cur', (a :: ps). rewrite ER. cbn [bind length Nat.sub app].
        split; [reflexivity|]. split.
        -- cbn [firstn]. constructor; [|exact F2'].
           split; [exact Ff|]. apply bytes_at_app. split.
           ++ eapply bytes_at_ext; [|exact Hbf]. intros x Hx. rewrite Fr by lia. apply upd_other. lia.
           ++ cbn. split; [|exact I]. rewrite Fr by lia. apply upd_same.
        -- intros x Hx. rewrite Fr by lia. apply upd_other. lia.
Qed.

(** ** strtok_r *)
Lemma strtok_step_end D s fuel m s0 lasts q h :
  h = (if s0 =? NULL then lasts else s0) -> h <> NULL -> cstr m h s -> cstr m q D ->
  (length s < fuel)%nat -> (length D < fuel)%nat ->
  Forall (fun b => In b D) s ->
  strtok_r fuel m s0 q lasts = Ok (m, h + len s, NULL).
Proof.
  intros Hh Hh0 Hs HD F1 F2 Hall. unfold strtok_r.
  assert (Hcond : (s0 =? NULL) && (lasts =? NULL) = false).
  { destruct (Z.eqb_spec s0 NULL); [|reflexivity]. subst h. cbn. apply Z.eqb_neq. exact Hh0. }
  rewrite Hcond, <- Hh. unfold strspn.
  destruct (inner_strspn_ok D s true fuel m h q Hs HD F1 F2) as [pre [post [E0 [E [F P]]]]].
  rewrite E. cbn [bind].
  assert (post = []).
  { destruct post as [|b post]; [reflexivity|]. exfalso. subst s. apply Forall_app in Hall.
    destruct Hall as [_ Hall]. apply Forall_cons_iff in Hall. tauto. }
  subst post. rewrite app_nil_r in E0. subst pre. pose proof (cstr_end _ _ _ Hs). ldst. reflexivity.
Qed.

Lemma strtok_step_tok D sep t rest fuel m s0 lasts q h :
  h = (if s0 =? NULL then lasts else s0) -> 0 < h -> cstr m h (sep ++ t ++ rest) -> cstr m q D ->
  (length (sep ++ t ++ rest) < fuel)%nat -> (length D < fuel)%nat ->
  Forall (fun b => In b D) sep -> t <> [] -> Forall (fun b => ~ In b D) t ->
  match rest with [] => True | b :: _ => In b D end ->
  strtok_r fuel m s0 q lasts =
    match rest with
    | [] => Ok (m, h + len sep + len t, h + len sep)
    | _ :: _ => Ok (upd m (h + len sep + len t) 0, h + len sep + len t + 1, h + len sep)
    end.
Proof.
  intros Hh Hh0 Hs HD F1 F2 Hsep Ht0 Ht Hrest. unfold strtok_r.
  assert (Hcond : (s0 =? NULL) && (lasts =? NULL) = false).
  { destruct (Z.eqb_spec s0 NULL); [|reflexivity]. subst h. cbn. apply Z.eqb_neq. unfold NULL. lia. }
  rewrite Hcond, <- Hh. unfold strspn.
  destruct (inner_strspn_ok D _ true fuel m h q Hs HD F1 F2) as [pre [post [E0 [E [F P]]]]].
  assert (pre = sep /\ post = t ++ rest) as [-> ->].
  { destruct t as [|c t]; [congruence|].
    apply (split_unique (fun b => ~ In b D) sep c (t ++ rest) pre post).
    - eapply Forall_impl; [|exact Hsep]. cbn. tauto.
    - apply Forall_cons_iff in Ht. tauto.
    - exact E0.
    - eapply Forall_impl; [|exact F]. cbn. tauto.
    - exact P. }
  rewrite E. cbn [bind].
  assert (Fs : Forall is_char sep) by (destruct Hs as [H _]; apply Forall_app in H; tauto).
  apply (cstr_app m h sep _ Fs) in Hs. destruct Hs as [_ Hs].
  pose proof (len_nonneg sep). pose proof (len_nonneg t).
  assert (exists c, m (h + len sep) = Some c /\ is_char c) as [c [Hc Hcc]].
  { destruct t as [|c t]; [congruence|]. cbn [app] in Hs. apply cstr_cons in Hs. exists c. tauto. }
  ldst. rewrite (char_neq0 c Hcc).
  rewrite !app_length in F1.
  destruct (strpbrk_aux D (t ++ rest) fuel m (h + len sep) q Hs HD) as [pre [post [E1 [F' P']]]].
  { rewrite app_length. lia. }
  { exact F2. }
  destruct rest as [|d rest].
  - rewrite app_nil_r in *.
    assert (pre = t /\ post = []) as [-> ->].
    { apply (split_unique_end (fun b => In b D)); auto. destruct post; tauto. }
    rewrite P'. cbn [bind NULL Z.eqb negb].
    rewrite (strlen_ok t); [|unfold NULL; lia|exact Hs|lia]. reflexivity.
  - assert (pre = t /\ post = d :: rest) as [-> ->].
    { apply (split_unique (fun b => In b D)); auto. destruct post; tauto. }
    destruct P' as [_ P']. rewrite P'. cbn [bind].
    rewrite (proj2 (Z.eqb_neq (h + len sep + len t) NULL)) by (unfold NULL; lia). cbn [negb].
    assert (Ft : Forall is_char t) by (destruct Hs as [H1 _]; apply Forall_app in H1; tauto).
    apply (cstr_app m _ t _ Ft) in Hs. destruct Hs as [_ Hs]. apply cstr_cons in Hs.
    rewrite st_ok by (exists d; tauto). reflexivity.
Qed.

Definition strtok_next fuel q (m : mem) (lasts : Z) := strtok_r fuel m NULL q lasts.

Lemma strtok_end_run D fuel q n : forall m h s,
  0 < h -> cstr m h s -> cstr m q D -> Forall (fun b => In b D) s ->
  (length s < fuel)%nat -> (length D < fuel)%nat ->
  exists l', repeat_calls (strtok_next fuel q) n m h = Ok (m, l', repeat NULL n).
Proof.
  induction n as [|n IH]; intros m h s Hh Hs HD Hall F1 F2; cbn [repeat_calls repeat].
  - eauto.
  - unfold strtok_next at 1.
    rewrite (strtok_step_end D s) with (h := h); try assumption; try reflexivity; [|unfold NULL; lia].
    cbn [bind]. pose proof (len_nonneg s).
    destruct (IH m (h + len s) []) as [l' E].
    + lia.
    + apply cstr_nil. apply (cstr_end _ _ _ Hs).
    + exact HD.
    + constructor.
    + cbn. lia.
    + exact F2.
    + rewrite E. cbn. eauto.
Qed.

Lemma tokens_drop_delim D d rest ts : In d D -> tokens D (d :: rest) ts -> tokens D rest ts.
Proof.
  intros Hd Hts. remember (d :: rest) as s eqn:Es.
  destruct Hts as [s Hall|sep0 t0 rest0 ts0 A B C Dd Ee].
  - subst s. apply Forall_cons_iff in Hall. constructor. tauto.
  - destruct sep0 as [|x sep0].
    + destruct t0 as [|y t0]; [congruence|]. cbn in Es. injection Es as -> _.
      apply Forall_cons_iff in C. tauto.
    + cbn in Es. injection Es as -> <-. constructor; try assumption.
      apply Forall_cons_iff in A. tauto.
Qed.

Lemma strtok_run_ok D fuel q : forall k s ts, (length s <= k)%nat -> tokens D s ts -> forall n m a,
  0 < a -> cstr m a s -> cstr m q D -> disjoint a (len s + 1) q (len D + 1) ->
  (length s < fuel)%nat -> (length D < fuel)%nat ->
  exists m' cur' ps,
    repeat_calls (strtok_next fuel q) n m a
      = Ok (m', cur', ps ++ repeat NULL (n - length ts)) /\
    Forall2 (fun p t => cstr m' p t) ps (firstn n ts) /\
    (forall x, ~ (a <= x < a + len s) -> m' x = m x).
Proof.
  induction k as [k IHk] using (well_founded_induction lt_wf).
  intros s ts Hk Hts. destruct Hts as [s Hall|sep t rest ts Hsep Ht0 Ht Hr Hts]; intros n m a Ha Hs HD Hdis F1 F2.
  - destruct (strtok_end_run D fuel q n m a s) as [l' E]; try assumption.
    exists m, l', []. cbn [length]. rewrite Nat.sub_0_r, firstn_nil. repeat split; auto.
  - destruct n as [|n].
    + exists m, a, []. cbn. repeat split; auto.
    + cbn [repeat_calls]. unfold strtok_next at 1.
      rewrite (strtok_step_tok D sep t rest fuel m NULL a q a); try assumption; try reflexivity.
      assert (Fs : Forall is_char sep) by (destruct Hs as [H _]; apply Forall_app in H; tauto).
      assert (Ft : Forall is_char t).
      { destruct Hs as [H _]. apply Forall_app in H. destruct H as [_ H]. apply Forall_app in H. tauto. }
      apply (cstr_app m a sep _ Fs) in Hs. destruct Hs as [Hbs Hs].
      apply (cstr_app m _ t _ Ft) in Hs. destruct Hs as [Hbt Hs].
      rewrite !len_app in *. rewrite !app_length in F1, Hk.
      pose proof (len_nonneg sep). pose proof (len_nonneg t).
      destruct rest as [|d rest].
      * cbn [bind]. rewrite len_nil in *.
        assert (ts = []).
        { remember [] as e eqn:Ee. destruct Hts as [|sp tt rr tts ? Hne]; [reflexivity|].
          destruct sp, tt; try discriminate. congruence. }
        subst ts.
        destruct (strtok_end_run D fuel q n m (a + len sep + len t) []) as [l' E].
        -- lia.
        -- exact Hs.
        -- exact HD.
        -- constructor.
        -- cbn in *. lia.
        -- exact F2.
        -- rewrite E. cbn [bind]. exists m, l', [a + len sep]. cbn [length Nat.sub app firstn].
           rewrite Nat.sub_0_r, firstn_nil. split; [reflexivity|]. split; [|auto].
           constructor; [|constructor]. split; [exact Ft|]. apply bytes_at_app. split; [exact Hbt|].
           apply cstr_nil in Hs. cbn. auto.
      * cbn [bind]. rewrite len_cons in *. cbn [length] in F1, Hk. pose proof (len_nonneg rest).
        apply cstr_cons in Hs. destruct Hs as [Hcd [Hmd Hs]].
        apply tokens_drop_delim in Hts; [|exact Hr].
        assert (Lt : (0 < length t)%nat) by (destruct t; [congruence|cbn; lia]).
        destruct (IHk (length rest) ltac:(lia) rest ts (le_n _) Hts n
                   (upd m (a + len sep + len t) 0) (a + len sep + len t + 1)) as [m' [cur' [ps [ER [FF Fr]]]]].
        -- lia.
        -- eapply cstr_ext; [|exact Hs]. intros x Hx. apply upd_other. lia.
        -- eapply cstr_ext; [|exact HD]. intros x Hx. apply upd_other. unfold disjoint in Hdis. lia.
        -- unfold disjoint in *. lia.
        -- lia.
        -- exact F2.
        -- rewrite ER. cbn [bind]. exists m', cur', ((a + len sep) :: ps).
           cbn [length Nat.sub app]. split; [reflexivity|]. split.
           ++ cbn [firstn]. constructor; [|exact FF].
              split; [exact Ft|]. apply bytes_at_app. split.
              ** eapply bytes_at_ext; [|exact Hbt]. intros x Hx. rewrite Fr by lia. apply upd_other. lia.
              ** cbn. split; [|exact I]. rewrite Fr by lia. apply upd_same.
           ++ intros x Hx. rewrite Fr by lia. apply upd_other. lia.
Qed.

(** The client's first call passes the string itself, the others NULL. *)
Definition strtok_calls fuel q (n : nat) (m : mem) (s lasts : Z) : res (mem * Z * list Z) :=
  match n with
  | O => Ok (m, lasts, [])
  | S n' => '(m1, l1, p) <- strtok_r fuel m s q lasts ;;
            '(m2, l2, ps) <- repeat_calls (strtok_next fuel q) n' m1 l1 ;;
            Ok (m2, l2, p :: ps)
  end.

Lemma strtok_first_call fuel m s q lasts : s <> NULL ->
  strtok_r fuel m s q lasts = strtok_r fuel m NULL q s.
Proof.
  intros H. unfold strtok_r. rewrite (proj2 (Z.eqb_neq s NULL) H). cbn [Z.eqb NULL andb].
  reflexivity.
Qed.

Lemma strtok_calls_ok D fuel q s ts : tokens D s ts -> forall n m a lasts,
  0 < a -> cstr m a s -> cstr m q D -> disjoint a (len s + 1) q (len D + 1) ->
  (length s < fuel)%nat -> (length D < fuel)%nat ->
  exists m' cur' ps,
    strtok_calls fuel q n m a lasts = Ok (m', cur', ps ++ repeat NULL (n - length ts)) /\
    Forall2 (fun p t => cstr m' p t) ps (firstn n ts) /\
    (forall x, ~ (a <= x < a + len s) -> m' x = m x).
Proof.
  intros Hts n m a lasts Ha Hs HD Hdis F1 F2. destruct n as [|n].
  - exists m, lasts, []. cbn. repeat split; auto.
  - destruct (strtok_run_ok D fuel q (length s) s ts (le_n _) Hts (S n) m a Ha Hs HD Hdis F1 F2)
      as [m' [cur' [ps H]]].
    exists m', cur', ps. unfold strtok_calls. rewrite strtok_first_call by (unfold NULL; lia).
    exact H.
Qed.

(** ** strcasestr: correct for a needle of letters *)
Definition letterb (b : Z) : bool := ((65 <=? b) && (b <=? 90)) || ((97 <=? b) && (b <=? 122)).
Lemma letterb_spec b : letterb b = true <-> letter b.
Proof. unfold letterb, letter. lia. Qed.

Lemma land_223_letter c b : is_char c -> letter b ->
  (Z.land c 223 =? Z.land b 223) = (lower c =? lower b).
Proof.
  intros Hc Hb. apply Bool.eqb_prop.
  pose proof (byte_sweep2 (fun c b => implb (letterb b)
    (Bool.eqb (Z.land c 223 =? Z.land b 223) (lower c =? lower b)))) as H.
  specialize (H ltac:(vm_compute; reflexivity) c b).
  apply letterb_spec in Hb as Hb'. cbv beta in H. rewrite Hb' in H. apply H; unfold is_byte, is_char, letter in *; lia.
Qed.

Lemma letter_not_nul b : letter b -> Z.land b 223 <> Z.land 0 223.
Proof.
  intros Hb. rewrite Z.land_0_l. apply Z.eqb_neq, negb_true_iff.
  pose proof (byte_sweep (fun b => implb (letterb b) (negb (Z.land b 223 =? 0)))) as H.
  specialize (H ltac:(vm_compute; reflexivity) b).
  apply letterb_spec in Hb as Hb'. cbv beta in H. rewrite Hb' in H. apply H; unfold is_byte, letter in *; lia.
Qed.

Lemma mprefix_223 w l : Forall letter w -> Forall is_char l ->
  mprefix 223 w l = true <-> occurs_at (map lower w) (map lower l) 0.
Proof.
  intros Hw Hl. rewrite occurs_at_0, map_length. revert l Hl; induction w as [|b w IH]; intros l Hl.
  - cbn. tauto.
  - apply Forall_cons_iff in Hw. destruct Hw as [Hb Hw].
    destruct l as [|c l]; cbn [mprefix length firstn map]; [split; congruence|].
    apply Forall_cons_iff in Hl. destruct Hl as [Hc Hl].
    rewrite land_223_letter by assumption.
    rewrite andb_true_iff, Z.eqb_eq, (IH Hw l Hl).
    split; [intros [-> ->]; reflexivity|intros E; injection E; auto].
Qed.

Lemma strcasestr_ok w : w <> [] -> Forall letter w -> forall l fuel m h nd,
  cstr m h l -> cstr m nd w -> (length l < fuel)%nat ->
  forall ifuel, (length w < ifuel)%nat ->
  exists p, inner_strstr fuel ifuel m h nd 223 = Ok p /\ finds_leftmost_nocase w l h p.
Proof.
  intros Hne Hlw. unfold finds_leftmost_nocase.
  induction l as [|c l IH]; intros [|f] m h nd Hl Hw Hf ifuel Hif; cbn [length] in *; try lia;
    cbn [inner_strstr].
  - apply cstr_nil in Hl. ldst. exists NULL. split; [reflexivity|]. left. split; [|reflexivity].
    intros i H. apply occurs_at_len in H. rewrite map_length in H. destruct w; [congruence|cbn in H; lia].
  - pose proof Hl as Hl0. apply cstr_cons in Hl. destruct Hl as [Hc [Hm Hl]]. ldst. rewrite (char_neq0 c Hc).
    rewrite (strstr_inner_ok 223 w) with (l := c :: l); try assumption.
    2:{ eapply Forall_impl; [|exact Hlw]. apply letter_not_nul. }
    2:{ rewrite Z.add_0_r. exact Hw. }
    2:{ rewrite Z.add_0_r. exact Hl0. }
    cbn [bind]. pose proof (mprefix_223 w (c :: l) Hlw (proj1 Hl0)) as MP.
    destruct (mprefix 223 w (c :: l)).
    + exists h. split; [reflexivity|]. right. exists 0%nat. split; [tauto|]. split; [intros; lia|cbn; lia].
    + assert (N0 : ~ occurs_at (map lower w) (map lower (c :: l)) 0) by (rewrite <- MP; congruence).
      destruct (IH f m (h+1) nd Hl Hw ltac:(lia) ifuel Hif) as [p [E F]].
      exists p. split; [exact E|]. cbn [map] in *.
      destruct F as [[F ->]|[i [F1 [F2 ->]]]].
      * left. split; [|reflexivity]. intros [|i]; [exact N0|]. rewrite occurs_at_S. apply F.
      * right. exists (S i). split; [apply occurs_at_S; exact F1|]. split; [|lia].
        intros [|j] Hj; [exact N0|]. rewrite occurs_at_S. apply F2. lia.
Qed.

(** ** strdup / strndup *)
Lemma strndup_ok l fuel alloc m s n :
  s <> NULL -> bstr m s n l -> (length l < fuel)%nat ->
  (alloc (len l + 1) <> NULL -> mapped m (alloc (len l + 1)) (len l + 1) /\
     disjoint (alloc (len l + 1)) (len l + 1) s (Z.min n (len l + 1))) ->
  if alloc (len l + 1) =? NULL
  then strndup fuel alloc m s n = Ok (m, NULL, true)
  else exists m', strndup fuel alloc m s n = Ok (m', alloc (len l + 1), false) /\
                  stored m m' (alloc (len l + 1)) (l ++ [0]).
Proof.
  intros Hs0 Hs Hf Ha. unfold strndup. rewrite (strnlen_ok l) by assumption. cbn [bind].
  set (buf := alloc (len l + 1)) in *. pose proof (bstr_le _ _ _ _ Hs). pose proof (len_nonneg l).
  destruct (Z.eqb_spec buf NULL) as [->|Hb]; [reflexivity|].
  destruct (Ha Hb) as [Hm Hdis].
  unfold len at 1. rewrite Nat2Z.id.
  destruct (copy_fwd_ok l m buf s) as [m1 [E1 S1]].
  - destruct Hs as [_ [Hs _]]. exact Hs.
  - eapply mapped_sub; [exact Hm|lia|lia].
  - unfold disjoint in Hdis. lia.
  - rewrite E1. cbn [bind]. rewrite st_ok by (eapply stored_mapped; [exact S1|exact Hm|lia]).
    cbn [bind]. eexists. split; [reflexivity|]. eapply stored_snoc; [exact S1|reflexivity].
Qed.

(** ** strxfrm *)
Lemma strxfrm_ok s fuel m d a n :
  a <> NULL -> cstr m a s -> (length s < fuel)%nat ->
  (len s < n -> mapped m d (len s + 1) /\ disjoint d (len s + 1) a (len s + 1)) ->
  exists m', strxfrm fuel m d a n = Ok (m', len s) /\
    (len s < n /\ stored m m' d (s ++ [0]) \/ n <= len s /\ m' = m).
Proof.
  intros Ha Hs Hf Hd. unfold strxfrm. rewrite (strlen_ok s) by assumption. cbn [bind].
  destruct (Z.ltb_spec (len s) n) as [Hlt|Hge].
  - destruct (Hd Hlt) as [Hm Hdis]. unfold strcpy.
    destruct (strcpy_ok s fuel m d a Hs Hm Hdis Hf) as [m' [E S]]. rewrite E. cbn.
    exists m'. split; [reflexivity|left; auto].
  - exists m. split; [reflexivity|right; auto].
Qed.

(** ** strerror_r *)
Lemma strerror_r_ok s fuel m msg buf n :
  msg <> NULL -> cstr m msg s -> (length s < fuel)%nat -> 0 <= n ->
  mapped m buf (Z.min n (len s + 1)) -> disjoint buf (Z.min n (len s + 1)) msg (len s + 1) ->
  exists m' r, strerror_r fuel m msg buf n = Ok (m', r) /\
    (len s < n /\ r = 0 /\ stored m m' buf (s ++ [0]) \/
     n <= len s /\ r = ERANGE /\ 
       (n = 0 /\ m' = m \/ 0 < n /\ stored m m' buf (firstn (Z.to_nat (n - 1)) s ++ [0]))).
Proof.
  intros Hm0 Hs Hf Hn Hb Hdis. unfold strerror_r. rewrite (strlen_ok s) by assumption. cbn [bind].
  pose proof (len_nonneg s). destruct (Z.geb_spec (len s) n) as [Hge|Hlt].
  - destruct (Z.eqb_spec n 0) as [->|Hn0]; cbn [negb].
    + exists m, ERANGE. split; [reflexivity|]. right. auto.
    + set (t := firstn (Z.to_nat (n - 1)) s).
      assert (Lt : len t = n - 1) by (unfold t, len in *; rewrite firstn_length; lia).
      rewrite <- Lt.
      destruct (memcpy_ok t m buf msg) as [m1 [E1 S1]].
      * apply cstr_bytes in Hs. rewrite <- (firstn_skipn (Z.to_nat (n - 1)) s) in Hs.
        apply bytes_at_app in Hs. tauto.
      * eapply mapped_sub; [exact Hb|lia|lia].
      * unfold disjoint in *. lia.
      * rewrite E1. cbn [bind]. rewrite st_ok by (eapply stored_mapped; [exact S1|exact Hb|lia]).
        cbn [bind]. eexists _, ERANGE. split; [reflexivity|]. right. split; [lia|]. split; [reflexivity|].
        right. split; [lia|]. eapply stored_snoc; [exact S1|reflexivity].
  - assert (L : len (s ++ [0]) = len s + 1) by (rewrite len_app, len_cons, len_nil; lia).
    destruct (memcpy_ok (s ++ [0]) m buf msg) as [m1 [E1 S1]].
    + apply Hs.
    + rewrite L. eapply mapped_sub; [exact Hb|lia|lia].
    + rewrite L. unfold disjoint in *. lia.
    + rewrite L in E1. rewrite E1. cbn [bind]. eexists _, 0. split; [reflexivity|]. left. auto.
Qed.

(** ** Wrappers in the shape of the property statements *)
Lemma strnlen_cstr s fuel m p n :
  p <> NULL -> cstr m p s -> 0 <= n -> (length s < fuel)%nat ->
  strnlen fuel m p n = Ok (Z.min n (len s)).
Proof.
  intros Hp Hs Hn Hf. rewrite (strnlen_ok (firstn (Z.to_nat n) s)); [|assumption| |].
  - f_equal. unfold len. rewrite firstn_length. lia.
  - apply bstr_of_cstr; assumption.
  - rewrite firstn_length. lia.
Qed.

Lemma strcpy_full s fuel m d a :
  cstr m a s -> mapped m d (len s + 1) -> disjoint d (len s + 1) a (len s + 1) ->
  (length s < fuel)%nat ->
  exists m', strcpy fuel m d a = Ok (m', d) /\ stored m m' d (s ++ [0]).
Proof.
  intros H1 H2 H3 H4. unfold strcpy. destruct (strcpy_ok s fuel m d a H1 H2 H3 H4) as [m' [E S]].
  rewrite E. cbn. eauto.
Qed.

Lemma strncpy_full l fuel m d a n :
  bstr m a n l -> mapped m d n -> disjoint d n a (Z.min n (len l + 1)) ->
  (length l < fuel)%nat ->
  exists m', strncpy fuel m d a n = Ok (m', d) /\
             stored m m' d (l ++ repeat 0 (Z.to_nat (n - len l))).
Proof.
  intros H1 H2 H3 H4. unfold strncpy. destruct (stpncpy_ok l fuel m d a n H1 H2 H3 H4) as [m' [E S]].
  rewrite E. cbn. eauto.
Qed.

Lemma strcat_full ds s fuel m d a :
  d <> NULL -> cstr m d ds -> cstr m a s -> len s < USIZE_MAX ->
  mapped m (d + len ds) (len s + 1) ->
  disjoint (d + len ds) (len s + 1) a (len s + 1) ->
  (length ds < fuel)%nat -> (length s < fuel)%nat ->
  exists m', strcat fuel m d a = Ok (m', d) /\ stored m m' (d + len ds) (s ++ [0]).
Proof.
  intros H0 H1 H2 H3 H4 H5 H6 H7. apply strncat_ok; try assumption.
  - apply bstr_cstr; assumption.
  - unfold disjoint in *. lia.
Qed.

Lemma strcmp_total_order l k j fuel m a b c :
  cstr m a l -> cstr m b k -> cstr m c j ->
  len l < USIZE_MAX -> len k < USIZE_MAX -> len j < USIZE_MAX ->
  (length l < fuel)%nat -> (length k < fuel)%nat ->
  exists ab ba bc ac,
    strcmp fuel m a b = Ok ab /\ strcmp fuel m b a = Ok ba /\
    strcmp fuel m b c = Ok bc /\ strcmp fuel m a c = Ok ac /\
    (ab = 0 <-> l = k) /\ (ab < 0 <-> ba > 0) /\ (ab > 0 <-> ba < 0) /\
    (ab <= 0 -> bc <= 0 -> ac <= 0).
Proof.
  intros Ha Hb Hc La Lb Lc Fl Fk.
  destruct (strcmp_ok l k fuel m a b) as [ab [E1 S1]]; try assumption.
  destruct (strcmp_ok k l fuel m b a) as [ba [E2 S2]]; try assumption.
  destruct (strcmp_ok k j fuel m b c) as [bc [E3 S3]]; try assumption.
  destruct (strcmp_ok l j fuel m a c) as [ac [E4 S4]]; try assumption.
  exists ab, ba, bc, ac. rewrite lex_antisym in S2.
  pose proof (lex_eq_iff l k) as EQ. pose proof (lex_trans l k j) as TR.
  do 4 (split; [assumption|]).
  split; [|split; [|split]].
  - rewrite <- EQ. destruct (lex l k); cbn in S1; split; intros; try congruence; lia.
  - destruct (lex l k); cbn in S1, S2; lia.
  - destruct (lex l k); cbn in S1, S2; lia.
  - intros A B. destruct (lex l k), (lex k j), (lex l j); cbn in *; try lia;
      exfalso; apply TR; congruence.
Qed.

Lemma strchrnul_full s fuel m p c :
  cstr m p s -> (length s < fuel)%nat ->
  exists r, strchrnul fuel m p c = Ok r /\
    (~ In (c mod 256) (s ++ [0]) /\ r = p + len s \/
     exists i, first_occ (c mod 256) (s ++ [0]) i /\ r = p + Z.of_nat i).
Proof. intros. apply strchrnul_loop_ok; assumption. Qed.

Lemma finds_last_snoc c s p r d : c <> d -> finds_last c s p r -> finds_last c (s ++ [d]) p r.
Proof.
  intros Hcd [[F ->]|[i [[F1 F2] ->]]].
  - left. split; [|reflexivity]. rewrite in_app_iff. cbn. intuition.
  - right. exists i. split; [|reflexivity].
    assert (Hi : (i < length s)%nat) by (apply nth_error_Some; congruence).
    split; [rewrite nth_error_app1 by lia; exact F1|].
    intros j Hj. destruct (Nat.lt_ge_cases j (length s)).
    + rewrite nth_error_app1 by lia. apply F2. exact Hj.
    + rewrite nth_error_app2 by lia. destruct (j - length s)%nat as [|k]; cbn; [congruence|].
      destruct k; cbn; congruence.
Qed.

Lemma strrchr_full s fuel m p c :
  p <> NULL -> cstr m p s -> (length s < fuel)%nat -> c mod 256 <> 0 ->
  exists r, strrchr fuel m p c = Ok r /\ finds_last (c mod 256) (s ++ [0]) p r.
Proof.
  intros Hp Hs Hf Hc. destruct (strrchr_ok s fuel m p c Hp Hs Hf) as [r [E F]].
  exists r. split; [exact E|]. apply finds_last_snoc; assumption.
Qed.

Lemma strrchr_nul_bad s fuel m p :
  0 < p -> cstr m p s -> (length s < fuel)%nat ->
  strrchr fuel m p 0 = Ok NULL /\ ~ finds_last 0 (s ++ [0]) p NULL.
Proof.
  intros Hp Hs Hf. split.
  - destruct (strrchr_ok s fuel m p 0) as [r [E F]]; try assumption; [unfold NULL; lia|].
    rewrite E. destruct F as [[_ ->]|[i [[F _] _]]]; [reflexivity|].
    exfalso. destruct Hs as [Hc _]. rewrite Forall_forall in Hc.
    change (0 mod 256) with 0 in F. apply nth_error_In in F. apply Hc in F. unfold is_char in F. lia.
  - intros [[F _]|[i [_ F]]].
    + apply F. apply in_or_app. right. left. reflexivity.
    + unfold NULL in F. lia.
Qed.

Lemma strpbrk_full D s fuel m p q :
  0 < p -> cstr m p s -> cstr m q D -> (length s < fuel)%nat -> (length D < fuel)%nat ->
  exists r, strpbrk fuel m p q = Ok r /\
    (r = NULL /\ Forall (fun b => ~ In b D) s \/
     exists pre d post, s = pre ++ d :: post /\ Forall (fun b => ~ In b D) pre /\ In d D /\ r = p + len pre).
Proof.
  intros Hp Hs HD F1 F2. destruct (strpbrk_aux D s fuel m p q Hs HD F1 F2) as [pre [post [-> [F P]]]].
  destruct post as [|d post].
  - exists NULL. rewrite app_nil_r. auto.
  - destruct P as [Hd E]. eexists. split; [exact E|]. right. exists pre, d, post. auto.
Qed.

Lemma strsep_full D s fuel q :
  exists fs, fields D s fs /\ forall n m a,
  0 < a -> cstr m a s -> cstr m q D -> disjoint a (len s + 1) q (len D + 1) ->
  (length s < fuel)%nat -> (length D < fuel)%nat ->
  exists m' cur' ps,
    repeat_calls (fun m c => strsep fuel m c q) n m a
      = Ok (m', cur', ps ++ repeat NULL (n - length fs)) /\
    Forall2 (fun p f => cstr m' p f) ps (firstn n fs) /\
    (forall x, ~ (a <= x < a + len s) -> m' x = m x).
Proof.
  destruct (fields_total D s) as [fs Hfs]. exists fs. split; [exact Hfs|]. intros.
  apply (strsep_run_ok D fuel q s fs); assumption.
Qed.

Lemma strtok_full D s fuel q :
  exists ts, tokens D s ts /\ forall n m a lasts,
  0 < a -> cstr m a s -> cstr m q D -> disjoint a (len s + 1) q (len D + 1) ->
  (length s < fuel)%nat -> (length D < fuel)%nat ->
  exists m' cur' ps,
    strtok_calls fuel q n m a lasts = Ok (m', cur', ps ++ repeat NULL (n - length ts)) /\
    Forall2 (fun p t => cstr m' p t) ps (firstn n ts) /\
    (forall x, ~ (a <= x < a + len s) -> m' x = m x).
Proof.
  destruct (tokens_total D s) as [ts Hts]. exists ts. split; [exact Hts|]. intros.
  apply (strtok_calls_ok D fuel q s ts); assumption.
Qed.

Lemma strcasestr_wrong_match : exists m h nd,
  h <> NULL /\ cstr m h [64] /\ cstr m nd [96] /\
  strcasestr 9 m h nd = Ok h /\ (forall i, ~ occurs_at (map lower [96]) (map lower [64]) i).
Proof.
  exists (mem_of 1000 [64;0;96;0]), 1000, 1002. split; [discriminate|].
  split; [split; [repeat constructor; lia|vm_compute; auto]|].
  split; [split; [repeat constructor; lia|vm_compute; auto]|].
  split; [reflexivity|]. intros i H. pose proof (occurs_at_len _ _ _ H) as L. cbn in L.
  assert (i = 0)%nat by lia. subst i. apply occurs_at_0 in H. vm_compute in H. discriminate.
Qed.

Lemma strcasestr_overread : exists m h nd,
  cstr m h [97] /\ cstr m nd [97;32;32] /\ strcasestr 9 m h nd = Fault.
Proof.
  exists (mem_of 1000 [97;32;32;0;97;0]), 1004, 1000.
  split; [split; [repeat constructor; lia|vm_compute; auto]|].
  split; [split; [repeat constructor; lia|vm_compute; auto]|].
  vm_compute. reflexivity.
Qed.

Lemma strdup_full s fuel alloc m p :
  p <> NULL -> cstr m p s -> len s < USIZE_MAX -> (length s < fuel)%nat ->
  (alloc (len s + 1) <> NULL -> mapped m (alloc (len s + 1)) (len s + 1) /\
     disjoint (alloc (len s + 1)) (len s + 1) p (len s + 1)) ->
  if alloc (len s + 1) =? NULL
  then strdup fuel alloc m p = Ok (m, NULL, true)
  else exists m', strdup fuel alloc m p = Ok (m', alloc (len s + 1), false) /\
                  stored m m' (alloc (len s + 1)) (s ++ [0]).
Proof.
  intros H0 H1 H2 H3 H4. apply strndup_ok; try assumption.
  - apply bstr_cstr; assumption.
  - intros A. destruct (H4 A) as [B C]. split; [exact B|]. unfold disjoint in *. lia.
Qed.
