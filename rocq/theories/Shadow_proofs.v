From Verif Require Import Base Numeral String_model Sort_model Sort_proofs Pwd_model Pwd_spec Pwd_proofs Grp_model Grp_spec Grp_proofs Shadow_model Shadow_spec.

(* ---- numbers ---- *)
Lemma parse_run_ok lo hi l : lo <= 0 -> forall acc, Forall (fun d => 0 <= d < 10) l -> 0 <= acc ->
  acc * 10 ^ len l + dvalue 10 l <= hi ->
  parse_run lo hi false acc (map (fun d => 48 + d) l) = Some (acc * 10 ^ len l + dvalue 10 l).
Proof.
  intros Hlo. induction l as [|d l IH]; intros acc F Ha B; cbn [map parse_run].
  - change (len (@nil Z)) with 0. cbn. f_equal. lia.
  - rewrite dvalue_cons, len_cons, Z.pow_add_r in * by (pose proof (len_nonneg l); lia). change (10 ^ 1) with 10 in *.
    pose proof (Forall_inv F) as Hd. cbv beta in Hd. apply Forall_inv_tail in F. pose proof (dvalue_range 10 l ltac:(lia) F) as R.
    assert (P : 0 < 10 ^ len l) by (apply Z.pow_pos_nonneg; pose proof (len_nonneg l); lia).
    destruct (Z.leb_spec 48 (48 + d)); [|lia]. destruct (Z.leb_spec (48 + d) 57); [|lia]. cbn [andb]. cbv zeta.
    replace (48 + d - 48) with d by lia. assert (acc * 10 + d <= hi) by nia.
    destruct (Z.leb_spec lo (acc * 10 + d)); [|lia]. destruct (Z.leb_spec (acc * 10 + d) hi); [|lia]. cbn [andb].
    rewrite IH; [f_equal; ring|assumption|lia|]. replace ((acc * 10 + d) * 10 ^ len l + dvalue 10 l) with (acc * (10 ^ len l * 10) + (d * 10 ^ len l + dvalue 10 l)) by ring. exact B.
Qed.
Lemma parse_int_ok lo hi n : lo <= 0 -> 0 <= n <= hi -> parse_int lo hi (decimal n) = Some n.
Proof.
  intros Hl Hn. destruct (to_digits_numeral 10 n ltac:(lia) ltac:(lia)) as (F & V & NE & _). unfold decimal.
  assert (E := parse_run_ok lo hi (to_digits 10 n) Hl 0 F ltac:(lia)). rewrite V, Z.mul_0_l, Z.add_0_l in E. specialize (E ltac:(lia)).
  destruct (to_digits 10 n) as [|d l]; [congruence|]. pose proof (Forall_inv F) as Hd. cbv beta in Hd. unfold parse_int. cbn [map] in *.
  destruct (Z.eqb_spec (48 + d) 45); [lia|]. destruct (Z.eqb_spec (48 + d) 43); [lia|]. exact E.
Qed.
Lemma to_long_ok v : match v with Some n => 0 <= n < 2 ^ 63 | None => True end -> to_long (number v) = match v with Some n => n | None => -1 end.
Proof. intros H. unfold to_long. destruct v as [n|]; [|reflexivity]. cbn [number]. rewrite parse_int_ok by lia. reflexivity. Qed.
Lemma to_ulong_ok n : 0 <= n < 2 ^ 64 -> to_ulong (decimal n) = n.
Proof. intros H. unfold to_ulong. rewrite parse_int_ok by lia. reflexivity. Qed.

(* ---- lines ---- *)
Lemma chop_full l : last l 0 <> 13 -> chop (l ++ [10]) = l.
Proof. intros N. unfold chop. rewrite last_last, Z.eqb_refl, removelast_last. cbv zeta. destruct (Z.eqb_spec (last l 0) 13); [contradiction|reflexivity]. Qed.
Lemma chop_bare l : ~ In 10 l -> chop l = l.
Proof. intros N. unfold chop. destruct (Z.eqb_spec (last l 0) 10) as [E|]; [|reflexivity]. destruct l as [|b l]; [reflexivity|]. exfalso. apply N. rewrite <- E. apply last_in. discriminate. Qed.
Lemma file_next utf8 l ls file : file_of (l :: ls) file -> a_line utf8 l ->
  exists l' rest, next_line file = Some (l', rest) /\ chop l' = l /\ utf8 l' = true /\ file_of ls rest.
Proof.
  intros F (N & R & U1 & U2). unfold file_of in F. cbn [map concat] in F.
  assert (FULL : forall r, next_line ((l ++ [10]) ++ r) = Some (l ++ [10], r)).
  { intros r. unfold next_line. rewrite <- app_assoc. cbn [app]. rewrite read_line_ok by exact N. destruct l; reflexivity. }
  destruct F as [-> | [F NE]].
  - exists (l ++ [10]), (concat (map (fun l => l ++ [10]) ls)). split; [apply FULL|]. split; [apply chop_full, R|]. split; [exact U2|left; reflexivity].
  - destruct ls as [|l1 ls].
    + cbn [map concat] in F. rewrite app_nil_r in F. apply app_inj_tail in F. destruct F as [-> _]. cbn [last] in NE.
      exists l, []. split; [unfold next_line; rewrite read_line_end by exact N; destruct l; [congruence|reflexivity]|].
      split; [apply chop_bare, N|]. split; [exact U1|left; reflexivity].
    + assert (E : exists r, file = (l ++ [10]) ++ r /\ r ++ [10] = concat (map (fun l => l ++ [10]) (l1 :: ls))).
      { destruct (exists_last (l := concat (map (fun l => l ++ [10]) (l1 :: ls)))) as (r & z & E0).
        { cbn [map concat]. intros E0. apply app_eq_nil in E0. destruct E0 as [E0 _]. apply app_eq_nil in E0. destruct E0; discriminate. }
        exists r. rewrite E0 in F. rewrite app_assoc in F. apply app_inj_tail in F. destruct F as [-> <-]. split; [reflexivity|]. symmetry. exact E0. }
      destruct E as (r & -> & E). exists (l ++ [10]), r. split; [apply FULL|]. split; [apply chop_full, R|]. split; [exact U2|]. right. split; [exact E|exact NE].
Qed.
Lemma file_end file : file_of [] file -> next_line file = None /\ file = [].
Proof. intros [->|[_ E]]; [split; reflexivity|]. cbn in E. congruence. Qed.
Lemma read_line_len file : forall a b, read_line file = (a, b) -> length file = (length a + length b)%nat.
Proof.
  induction file as [|c f IH]; intros a b H; cbn [read_line] in H; [injection H as <- <-; reflexivity|]. destruct (c =? 10); [injection H as <- <-; cbn; lia|].
  destruct (read_line f) as [x y] eqn:Ef. injection H as <- <-. specialize (IH _ _ eq_refl). cbn [length]. lia.
Qed.
Lemma next_line_len file l rest : next_line file = Some (l, rest) -> (length rest < length file)%nat.
Proof.
  unfold next_line. intros E. destruct (read_line file) as [x y] eqn:Ef. pose proof (read_line_len _ _ _ Ef) as Q. destruct x; [discriminate|]. injection E as <- <-. cbn [length] in Q. lia.
Qed.
Lemma starts_with_iff n : forall l, starts_with l n = true <-> prefix n l.
Proof.
  induction n as [|x n IH]; intros l; cbn [starts_with]; [split; [exists l; reflexivity|reflexivity]|].
  destruct l as [|y l]; [split; [discriminate|intros [t E]; discriminate]|]. rewrite andb_true_iff, IH, Z.eqb_eq. split.
  - intros [-> [t ->]]. exists t. reflexivity.
  - intros [t E]. injection E as -> ->. split; [reflexivity|]. exists t. reflexivity.
Qed.
Definition snumbers (s : secret) : list (list Z) := map number (s_days s) ++ [number (s_flag s)].
Lemma number_clean o v : match v with Some n => 0 <= n | None => True end -> clean (separator o) (number v).
Proof. destruct v; intros H; cbn [number]; [apply decimal_clean, H|constructor]. Qed.
Lemma split_sline o s : valid_secret o s -> split_at (separator o) [] (sline (separator o) s) = s_name s :: s_passwd s :: snumbers s.
Proof.
  intros (N & P & _ & D & F). unfold sline. rewrite split_join; [reflexivity|discriminate|].
  assert (C : Forall (clean (separator o)) ([s_name s; s_passwd s] ++ map number (s_days s) ++ [number (s_flag s)])).
  { constructor; [exact N|]. constructor; [exact P|]. apply Forall_app. split.
    - apply Forall_map. eapply Forall_impl; [|exact D]. intros v Hv. apply number_clean. destruct v; [lia|exact I].
    - constructor; [|constructor]. apply number_clean. destruct (s_flag s); [lia|exact I]. }
  eapply Forall_impl; [|exact C]. intros f Hf. eapply clean_no; [exact Hf|tauto].
Qed.
Lemma parse_spwd_ok o m s d p cap : valid_secret o s -> need s <= cap -> mapped m p cap -> at_dest d p cap ->
  exists m' r, parse_spwd o m (sline (separator o) s) d = Ok (m', inl r) /\ tells m' r s /\ same_outside m m' p cap /\ mapped m' p cap.
Proof.
  intros V NC M D. unfold parse_spwd. rewrite (split_sline o s V). cbv zeta. destruct V as (N & P & L6 & DY & FL). unfold need in NC.
  pose proof (len_nonneg (s_name s)) as L1. pose proof (len_nonneg (s_passwd s)) as L2.
  assert (exists size, match d with Owned a => (a, len (s_name s) + 1 + len (s_passwd s) + 1) | Borrowed a size => (a, size) end = (p, size) /\ len (s_name s) + 1 + len (s_passwd s) + 1 <= size) as (size & Es & Hs).
  { destruct D as [-> | ->]; eexists; (split; [reflexivity|]); lia. }
  rewrite Es. destruct (Z.ltb_spec size (len (s_name s) + 1 + len (s_passwd s) + 1)); [lia|].
  destruct (st_bytes_ok (s_name s ++ [0]) m p) as (m1 & E1 & S1); [eapply mapped_sub; [exact M|lia|rewrite len_app; change (len [0]) with 1; lia]|].
  rewrite E1. cbn [bind]. assert (M1 : mapped m1 p cap) by (eapply stored_mapped; eassumption).
  destruct (st_bytes_ok (s_passwd s ++ [0]) m1 (p + len (s_name s) + 1)) as (m2 & E2 & S2); [eapply mapped_sub; [exact M1|lia|rewrite len_app; change (len [0]) with 1; lia]|].
  rewrite E2. cbn [bind]. eexists m2, _. split; [reflexivity|]. split; [|split].
  - split; [|split; [|split]]; cbn [sp_namp sp_pwdp sp_lstchg sp_min sp_max sp_warn sp_inact sp_expire sp_flag].
    + split; [eapply clean_char, N|]. destruct S1 as [B1 _]. eapply bytes_at_ext; [|exact B1].
      intros y Hy. apply (proj2 S2). rewrite len_app in Hy. change (len [0]) with 1 in Hy. lia.
    + split; [eapply clean_char, P|]. apply S2.
    + unfold snumbers. destruct (s_days s) as [|d1 [|d2 [|d3 [|d4 [|d5 [|d6 [|d7 t]]]]]]]; try discriminate L6. cbn [map app nth].
      inversion DY as [|? ? Q1 DY1]; subst. inversion DY1 as [|? ? Q2 DY2]; subst. inversion DY2 as [|? ? Q3 DY3]; subst. inversion DY3 as [|? ? Q4 DY4]; subst.
      inversion DY4 as [|? ? Q5 DY5]; subst. inversion DY5 as [|? ? Q6 DY6]; subst. rewrite !to_long_ok by assumption. reflexivity.
    + unfold snumbers. destruct (s_flag s) as [n|]; [|exact I]. destruct (s_days s) as [|d1 [|d2 [|d3 [|d4 [|d5 [|d6 [|d7 t]]]]]]]; try discriminate L6. cbn [map app nth number].
      apply to_ulong_ok, FL.
  - intros y Hy. rewrite (proj2 S2) by (rewrite len_app; change (len [0]) with 1; lia). apply (proj2 S1). rewrite len_app. change (len [0]) with 1. lia.
  - eapply stored_mapped; eassumption.
Qed.
Lemma parse_small o m s p cap : valid_secret o s -> cap < need s -> parse_spwd o m (sline (separator o) s) (Borrowed p cap) = Ok (m, inr BufTooSmall).
Proof. intros V H. unfold parse_spwd. rewrite (split_sline o s V). cbv zeta. unfold need in H. destruct (Z.ltb_spec cap (len (s_name s) + 1 + len (s_passwd s) + 1)); [reflexivity|lia]. Qed.

(* ---- searching ---- *)
Lemma entry_prefix o n s l : entry_for o n s l -> prefix n l.
Proof. intros (-> & <- & _). exists (separator o :: join (separator o) (s_passwd s :: map number (s_days s) ++ [number (s_flag s)])). reflexivity. Qed.
Lemma getspnam_ok o utf8 m ls file p cap fuel n :
  file_of ls file -> Forall (a_line utf8) ls -> utf8 n = true -> distinct_names o n ls ->
  sfits o n ls cap -> mapped m p cap -> (length file < fuel)%nat ->
  exists m' r rs, getspnam o utf8 fuel m (Some file) n p = Ok (m', r) /\ same_outside m m' p cap /\ lookup o n ls rs /\
    match rs, r with Some s, Some q => tells m' q s | None, None => True | _, _ => False end.
Proof.
  intros F A U D C M L. unfold getspnam. revert file fuel F L.
  induction ls as [|l ls IH]; intros file fuel F L; (destruct fuel as [|fuel]; [lia|]); cbn [nam_loop].
  - destruct (file_end file F) as [-> _]. exists m, None, None. repeat split. constructor.
  - destruct (file_next utf8 l ls file F (Forall_inv A)) as (l' & rest & E & CH & UL & F1). rewrite E, UL, CH. unfold as_str. rewrite U. cbn [andb].
    destruct (starts_with l n) eqn:SW.
    + apply starts_with_iff in SW. destruct (Forall_inv D SW) as (s & EF). pose proof EF as (-> & NS & V).
      destruct (parse_spwd_ok o m s (Owned p) p cap V (C s (or_introl eq_refl) NS V) M (or_introl eq_refl)) as (m' & r & E' & T & O' & _).
      rewrite E'. cbn [bind]. exists m', (Some r), (Some s). split; [reflexivity|]. split; [exact O'|]. split; [constructor; exact EF|exact T].
    + assert (NP : forall s, ~ entry_for o n s l) by (intros s EF; apply entry_prefix, starts_with_iff in EF; congruence).
      pose proof (next_line_len _ _ _ E) as LR.
      destruct (IH (Forall_inv_tail A) (Forall_inv_tail D) (fun s I => C s (or_intror I)) rest fuel F1 ltac:(lia)) as (m' & r & rs & E' & O' & LK & R).
      exists m', r, rs. split; [exact E'|]. split; [exact O'|]. split; [constructor; assumption|exact R].
Qed.
Lemma getspnam_r_ok o utf8 m ls file p cap fuel n :
  file_of ls file -> Forall (a_line utf8) ls -> utf8 n = true -> distinct_names o n ls -> mapped m p cap -> (length file < fuel)%nat ->
  (exists s, In (sline (separator o) s) ls /\ s_name s = n /\ valid_secret o s) ->
  exists m' r s, getspnam_r o utf8 fuel m (Some file) n p cap = Ok (m', r) /\ lookup o n ls (Some s) /\
    (need s <= cap -> same_outside m m' p cap /\ exists q, r = (Some q, 0) /\ tells m' q s) /\
    (cap < need s -> r = (None, 34) /\ m' = m).
Proof.
  intros F A U D M L EX. unfold getspnam_r. revert file fuel F L EX.
  induction ls as [|l ls IH]; intros file fuel F L EX; (destruct fuel as [|fuel]; [lia|]); cbn [nam_r_loop].
  - destruct EX as (s & [] & _).
  - destruct (file_next utf8 l ls file F (Forall_inv A)) as (l' & rest & E & CH & UL & F1). rewrite E, UL, CH. unfold as_str. rewrite U. cbn [andb].
    destruct (starts_with l n) eqn:SW.
    + apply starts_with_iff in SW. destruct (Forall_inv D SW) as (s & EF). pose proof EF as (-> & NS & V). destruct (Z.le_gt_cases (need s) cap) as [HN|HN].
      * destruct (parse_spwd_ok o m s (Borrowed p cap) p cap V HN M (or_intror eq_refl)) as (m' & r & E' & T & O' & _).
        rewrite E'. cbn [bind]. eexists m', _, s. split; [reflexivity|]. split; [constructor; exact EF|]. split; [intros _; split; [exact O'|exists r; auto]|lia].
      * rewrite parse_small by assumption. cbn [bind]. eexists m, _, s. split; [reflexivity|]. split; [constructor; exact EF|]. split; [lia|auto].
    + assert (NP : forall s, ~ entry_for o n s l) by (intros s EF; apply entry_prefix, starts_with_iff in EF; congruence).
      pose proof (next_line_len _ _ _ E) as LR.
      destruct (IH (Forall_inv_tail A) (Forall_inv_tail D) rest fuel F1 ltac:(lia)) as (m' & r & s & E' & LK & R).
      { destruct EX as (s & [I|I] & NS & V); [|exists s; auto]. exfalso. apply (NP s). split; [exact I|auto]. }
      exists m', r, s. split; [exact E'|]. split; [constructor; assumption|exact R].
Qed.
Lemma getspent_ok o utf8 file p cap ss : forall m reader rest n,
  file_of (map (sline (separator o)) ss) rest -> Forall (fun s => valid_secret o s /\ a_line utf8 (sline (separator o) s) /\ need s <= cap) ss ->
  mapped m p cap -> (match reader with Some r => r = rest | None => file = rest end) ->
  exists l reader', swalk o utf8 file p (length ss + n) m reader = Ok (l, reader') /\
    Forall2 (fun mr s => exists q, snd mr = Some q /\ tells (fst mr) q s) (firstn (length ss) l) ss /\
    Forall (fun mr => snd mr = None) (skipn (length ss) l) /\ length l = (length ss + n)%nat /\
    Forall (fun mr => same_outside m (fst mr) p cap) l.
Proof.
  induction ss as [|s ss IH]; intros m reader rest n F V M R.
  - cbn [length plus firstn skipn map] in *. revert reader R. induction n as [|n IH]; intros reader R; cbn [swalk].
    + exists [], reader. repeat split; constructor.
    + destruct (file_end rest F) as [NL ->].
      assert (E : getspent o utf8 m (Some file) reader p = Ok (m, Some [], None)).
      { unfold getspent. destruct reader as [r|]; [subst r|subst file]; reflexivity. }
      rewrite E. cbn [bind]. destruct (IH (Some [])) as (l & reader' & E' & _ & Fn & Ll & Fo); [reflexivity|]. rewrite E'. cbn [bind].
      exists ((m, None) :: l), reader'. split; [reflexivity|]. split; [constructor|]. split; [constructor; [reflexivity|exact Fn]|].
      split; [cbn; congruence|]. constructor; [intros y _; reflexivity|exact Fo].
  - cbn [length plus swalk firstn skipn map] in *. destruct (Forall_inv V) as (V1 & A1 & N1).
    destruct (file_next utf8 _ _ rest F A1) as (l0 & rest1 & EN & CH & UL & F1).
    destruct (parse_spwd_ok o m s (Owned p) p cap V1 N1 M (or_introl eq_refl)) as (m1 & q & E1 & T & O1 & M1).
    assert (E0 : getspent o utf8 m (Some file) reader p = Ok (m1, Some rest1, Some q)).
    { unfold getspent. destruct reader as [r|]; [subst r|subst file]; cbn [setspent]; rewrite EN, UL, CH, E1; reflexivity. }
    rewrite E0. cbn [bind]. destruct (IH m1 (Some rest1) rest1 n F1 (Forall_inv_tail V) M1 eq_refl) as (l & reader' & E' & F2 & Fn & Ll & Fo).
    rewrite E'. cbn [bind]. exists ((m1, Some q) :: l), reader'. split; [reflexivity|]. split; [constructor; [exists q; auto|exact F2]|].
    split; [exact Fn|]. split; [cbn; congruence|]. constructor; [exact O1|]. eapply Forall_impl; [|exact Fo]. intros [m2 r2] H2. eapply same_outside_trans; eassumption.
Qed.
