From Coq Require Import String Ascii.
From Verif Require Import Base Numeral Sort_model Sort_proofs Word_mem Utf8_model String_model String_proofs Scanf_spec Inet_model Inet_spec Inet_proofs
  Sockaddr_model Sockaddr_spec.
From Coq Require Import List Lia.
Import ListNotations.
Open Scope Z_scope.

(* ---- the text of an address ---- *)
Definition digit (c : Z) : Prop := 48 <= c <= 57.
Lemma dec_digit n : 0 <= n -> Forall digit (dec n).
Proof.
  intro N. unfold dec. apply Forall_map. eapply Forall_impl; [|apply (numeral_digits 10 _ n), to_digits_numeral; lia].
  intros d D. unfold digit. cbn in D. lia.
Qed.
Lemma not_digit c n : 0 <= n -> ~ digit c -> ~ In c (dec n).
Proof. intros N D I. apply D. exact (proj1 (Forall_forall _ _) (dec_digit n N) c I). Qed.

Lemma dec_parse n max : 0 <= n <= max -> parse_uint 10 max (dec n) = Some n.
Proof.
  intro N. apply parse_uint_iff; [lia|lia|apply not_digit; [lia|unfold digit; lia]|].
  pose proof (to_digits_numeral 10 n ltac:(lia) ltac:(lia)) as U. pose proof (numeral_digits _ _ _ U) as D.
  split; [|lia]. unfold digits_of, dec. split; [|split].
  - intro E. apply (numeral_ne _ _ _ U). destruct (to_digits 10 n); [reflexivity|discriminate].
  - apply Forall_map. eapply Forall_impl; [|exact D]. intros d X. unfold base_digit, dval. cbn in X. destruct (Z.leb_spec (48 + d) 57); lia.
  - rewrite map_map. rewrite (map_ext_in _ (fun d => d)).
    + rewrite map_id. exact (eq_sym (proj1 (proj2 U))).
    + intros d I. pose proof (proj1 (Forall_forall _ _) D d I) as X. cbn in X. unfold dval. destruct (Z.leb_spec (48 + d) 57); lia.
Qed.

Lemma dec_part b : 0 <= b < 256 -> parse_part (dec b) = Some b.
Proof.
  intro B.
  assert (A : forallb (fun i => match parse_part (dec (Z.of_nat i)) with Some v => v =? Z.of_nat i | None => false end) (seq 0 256) = true) by (vm_compute; reflexivity).
  pose proof (proj1 (forallb_forall _ _) A (Z.to_nat b)) as H. cbv beta in H. rewrite Z2Nat.id in H by lia.
  assert (I : In (Z.to_nat b) (seq 0 256)) by (apply in_seq; lia). specialize (H I).
  destruct (parse_part (dec b)); [|discriminate]. apply Z.eqb_eq in H. congruence.
Qed.

Lemma aton_dec a b c d : 0 <= a < 256 -> 0 <= b < 256 -> 0 <= c < 256 -> 0 <= d < 256 ->
  aton (dotted [dec a; dec b; dec c; dec d]) = Some (a * 2 ^ 24 + b * 2 ^ 16 + c * 2 ^ 8 + d).
Proof.
  intros A B C D. unfold aton. rewrite split_dotted; [|discriminate|repeat constructor; apply not_digit; unfold digit; lia].
  change (4 <? len [dec a; dec b; dec c; dec d]) with false. cbn [aton_loop].
  rewrite !dec_part by assumption.
  change (24 - 0 * 8) with 24. change (24 - (0 + 1) * 8) with 16. change (24 - (0 + 1 + 1) * 8) with 8.
  change ((0 <? 0 + 1 + 1 + 1)) with true. change (2 ^ (32 - (0 + 1 + 1 + 1) * 8)) with 256.
  change (2 ^ 24) with 16777216. change (2 ^ 16) with 65536. change (2 ^ 8) with 256. change (2 ^ 32) with 4294967296.
  destruct (Z.ltb_spec 255 a); [lia|]. destruct (Z.ltb_spec 255 b); [lia|]. destruct (Z.ltb_spec 255 c); [lia|].
  cbn [andb]. destruct (Z.leb_spec 256 d); [lia|].
  rewrite (Z.mod_small (0 + a * 16777216)) by lia. rewrite (Z.mod_small (0 + a * 16777216 + b * 65536)) by lia.
  rewrite (Z.mod_small (_ + c * 256)) by lia. rewrite Z.mod_small by lia. f_equal; lia.
Qed.

Lemma inet_text_eq a b c d port : inet_text a b c d port = dotted [dec a; dec b; dec c; dec d] ++ [58] ++ dec port.
Proof. unfold inet_text. cbn [dotted]. rewrite <- ?app_assoc. cbn [app]. rewrite <- ?app_assoc. cbn [app]. rewrite <- ?app_assoc. cbn [app]. rewrite <- ?app_assoc. reflexivity. Qed.

Lemma octets_four l : octets l -> exists a b c d, l = [a; b; c; d] /\ 0 <= a < 256 /\ 0 <= b < 256 /\ 0 <= c < 256 /\ 0 <= d < 256.
Proof.
  intros (L & F). destruct l as [|a [|b [|c [|d [|e l]]]]]; cbn in L; try discriminate.
  inversion F as [|? ? A F1]; subst. inversion F1 as [|? ? B F2]; subst. inversion F2 as [|? ? C F3]; subst. inversion F3 as [|? ? D F4]; subst.
  exists a, b, c, d. auto.
Qed.

Lemma shown_text t a b c d port : shown t [a; b; c; d] port <-> t = inet_text a b c d port /\ numeral 10 (to_digits 10 port) port /\ Forall2 (numeral 10) (map (to_digits 10) [a; b; c; d]) [a; b; c; d].
Proof.
  rewrite inet_text_eq. split.
  - intros (s & ds & (qs & E & _ & F) & N & ->).
    assert (NN : forall ds n, numeral 10 ds n -> ds = to_digits 10 n /\ numeral 10 (to_digits 10 n) n).
    { intros k n U. assert (0 <= n).
      { destruct (Z.le_gt_cases 0 n); [assumption|]. exfalso. pose proof (numeral_digits _ _ _ U) as D.
        pose proof (dvalue_range 10 k ltac:(lia) D) as V. pose proof (proj1 (proj2 U)). lia. }
      pose proof (to_digits_numeral 10 n ltac:(lia) ltac:(lia)). split; [eapply numeral_inj; eauto; lia|assumption]. }
    destruct (NN _ _ N) as (-> & N'). split; [|split; [exact N'|]].
    + inversion F as [|q0 ? qs1 ? U0 F1]; subst. inversion F1 as [|q1 ? qs2 ? U1 F2]; subst. inversion F2 as [|q2 ? qs3 ? U2 F3]; subst.
      inversion F3 as [|q3 ? qs4 ? U3 F4]; subst. inversion F4; subst.
      apply NN in U0, U1, U2, U3. destruct U0 as (-> & _), U1 as (-> & _), U2 as (-> & _), U3 as (-> & _). reflexivity.
    + inversion F as [|q0 ? qs1 ? U0 F1]; subst. inversion F1 as [|q1 ? qs2 ? U1 F2]; subst. inversion F2 as [|q2 ? qs3 ? U2 F3]; subst.
      inversion F3 as [|q3 ? qs4 ? U3 F4]; subst. inversion F4; subst.
      apply NN in U0, U1, U2, U3. cbn [map]. do 4 (constructor; [tauto|]). constructor.
  - intros (-> & N & F). exists (dotted [dec a; dec b; dec c; dec d]), (to_digits 10 port). split; [|split; [exact N|reflexivity]].
    exists (map (to_digits 10) [a; b; c; d]). split; [reflexivity|]. split; [reflexivity|exact F].
Qed.

Lemma shown_inet a b c d port : octets [a; b; c; d] -> 0 <= port -> shown (inet_text a b c d port) [a; b; c; d] port.
Proof.
  intros (_ & F) P. apply shown_text. split; [reflexivity|]. split; [apply to_digits_numeral; lia|].
  inversion F as [|? ? A F1]; subst. inversion F1 as [|? ? B F2]; subst. inversion F2 as [|? ? C F3]; subst. inversion F3 as [|? ? D F4]; subst.
  cbn [map]. do 4 (constructor; [apply to_digits_numeral; lia|]). constructor.
Qed.

(* ---- bind and connect ---- *)
Lemma bind_connect m address l port passive : octets l -> 0 <= port < 65536 -> bytes_at m address (sin l port) ->
  exists t, shown t l port /\ bind_or_connect passive m address 16 = Ok (inl (if passive then 47 :: t else t)).
Proof.
  intros O P B. destruct (octets_four l O) as (a & b & c & d & -> & A1 & A2 & A3 & A4).
  exists (inet_text a b c d port). split; [apply shown_inet; [exact O|lia]|].
  unfold sin in B. cbn [app bytes_at] in B. destruct B as (B0 & B1 & B2 & B3 & B4 & B5 & B6 & B7 & _).
  unfold bind_or_connect. cbn [Z.ltb Z.compare Pos.compare Pos.compare_cont]. unfold AF_INET, SIN_SIZE.
  rewrite (ld_le_bytes 2 m address 2); [|cbn; auto|cbn; lia].
  cbn [bind]. change (2 =? 2) with true. change (negb (16 =? 16)) with false. cbv iota.
  rewrite (ld_le_bytes 2 m (address + 2) (htobe 2 port)).
  - cbn [bind]. replace (address + 4) with (address + 1 + 1 + 1 + 1) by lia. rewrite (ld_ok _ _ _ B4). cbn [bind].
    replace (address + 5) with (address + 1 + 1 + 1 + 1 + 1) by lia. rewrite (ld_ok _ _ _ B5). cbn [bind].
    replace (address + 6) with (address + 1 + 1 + 1 + 1 + 1 + 1) by lia. rewrite (ld_ok _ _ _ B6). cbn [bind].
    replace (address + 7) with (address + 1 + 1 + 1 + 1 + 1 + 1 + 1) by lia. rewrite (ld_ok _ _ _ B7). cbn [bind].
    unfold betoh, htobe. rewrite swap_swap by (cbn; lia). reflexivity.
  - unfold htobe. rewrite swap_bytes_mem. unfold big_endian. cbn [seq map bytes_at].
    change (256 ^ (Z.of_nat 2 - 1 - Z.of_nat 0)) with 256. change (256 ^ (Z.of_nat 2 - 1 - Z.of_nat 1)) with 1.
    replace (address + 2) with (address + 1 + 1) by lia. rewrite B2, B3.
    split; [|split; [|exact I]].
    + f_equal. rewrite Z.mod_small; [reflexivity|]. split; [apply Z.div_pos; lia|apply Z.div_lt_upper_bound; lia].
    + f_equal. rewrite Z.div_1_r. reflexivity.
  - unfold htobe. apply swap_bytes_range.
Qed.

Lemma bind_connect_errors m address n family passive : bytes_at m address (le_bytes 2 family) -> 0 <= family < 65536 -> 0 <= n ->
  (n < 2 \/ family = 2 /\ n <> 16 -> bind_or_connect passive m address n = Ok (inr 22)) /\
  (2 <= n -> family <> 2 -> family <> 0 \/ passive = true -> bind_or_connect passive m address n = Ok (inr 97)).
Proof.
  intros B F N. unfold bind_or_connect, AF_INET, AF_UNIX, AF_UNSPEC, SIN_SIZE. split.
  - intros [H|(-> & H)].
    + destruct (Z.ltb_spec n 2); [reflexivity|lia].
    + destruct (Z.ltb_spec n 2); [reflexivity|]. rewrite (ld_le_bytes 2 m address 2 B F). cbn [bind].
      change (2 =? 2) with true. cbv iota. destruct (Z.eqb_spec n 16); [contradiction|reflexivity].
  - intros H H1 H2. destruct (Z.ltb_spec n 2); [lia|]. rewrite (ld_le_bytes 2 m address family B F). cbn [bind].
    destruct (Z.eqb_spec family 2); [contradiction|]. destruct (Z.eqb_spec family 1); [reflexivity|].
    destruct (Z.eqb_spec family 0) as [->|]; [|reflexivity]. destruct H2 as [H2| ->]; [congruence|reflexivity].
Qed.

(* ---- the names of sockets ---- *)
Lemma split_on_cons sep t r : ~ In sep t -> split_on sep (t ++ sep :: r) = t :: split_on sep r.
Proof.
  induction t as [|c t IH]; intro N; cbn [app split_on]; [rewrite Z.eqb_refl; reflexivity|].
  destruct (Z.eqb_spec c sep); [exfalso; apply N; left; assumption|]. rewrite IH by (intro; apply N; right; assumption). reflexivity.
Qed.
Lemma split_on_one sep t : ~ In sep t -> split_on sep t = [t].
Proof.
  induction t as [|c t IH]; intro N; cbn [split_on]; [reflexivity|].
  destruct (Z.eqb_spec c sep); [exfalso; apply N; left; assumption|]. rewrite IH by (intro; apply N; right; assumption). reflexivity.
Qed.
Lemma split_on_first sep t rest : ~ In sep t -> rest = [] \/ hd 0 rest = sep /\ rest <> [] -> exists ps, split_on sep (t ++ rest) = t :: ps.
Proof.
  intros N [->|(H & K)].
  - rewrite app_nil_r, split_on_one by assumption. eexists. reflexivity.
  - destruct rest as [|c r]; [congruence|]. cbn in H. subst c. rewrite split_on_cons by assumption. eexists. reflexivity.
Qed.
Lemma cut_ok c s p : ~ In c s -> cut c (s ++ [c] ++ p) = Some (s, p).
Proof.
  induction s as [|x s IH]; intro N; cbn [app cut]; [rewrite Z.eqb_refl; reflexivity|].
  destruct (Z.eqb_spec x c); [exfalso; apply N; left; assumption|]. cbn [app] in IH. rewrite IH by (intro; apply N; right; assumption). reflexivity.
Qed.
Lemma until_nul_ok s : ~ In 0 s -> until_nul s = s.
Proof.
  induction s as [|x s IH]; intro N; cbn [until_nul]; [reflexivity|].
  destruct (Z.eqb_spec x 0); [exfalso; apply N; left; assumption|]. rewrite IH by (intro; apply N; right; assumption). reflexivity.
Qed.
Lemma dotted_not x a b c d : 0 <= a -> 0 <= b -> 0 <= c -> 0 <= d -> ~ digit x -> x <> 46 -> ~ In x (dotted [dec a; dec b; dec c; dec d]).
Proof.
  intros. apply dotted_in; [discriminate| |assumption]. intros p [<-|[<-|[<-|[<-|[]]]]]; apply not_digit; assumption.
Qed.
Lemma inet_text_not x a b c d port : 0 <= a -> 0 <= b -> 0 <= c -> 0 <= d -> 0 <= port -> ~ digit x -> x <> 46 -> x <> 58 -> ~ In x (inet_text a b c d port).
Proof.
  intros. rewrite inet_text_eq, !in_app_iff. intros [I|[[I|[]]|I]]; [|congruence|].
  - revert I. apply dotted_not; assumption.
  - revert I. apply not_digit; assumption.
Qed.

Lemma sin_bytes a b c d port : 0 <= a < 256 -> 0 <= b < 256 -> 0 <= c < 256 -> 0 <= d < 256 -> 0 <= port < 65536 ->
  sockaddr_in_bytes port (swap_bytes 4 (a * 2 ^ 24 + b * 2 ^ 16 + c * 2 ^ 8 + d)) = sin [a; b; c; d] port.
Proof.
  intros A B C D P. unfold sockaddr_in_bytes, htobe. rewrite !swap_bytes_mem. unfold big_endian. cbn [seq map repeat].
  change (256 ^ (Z.of_nat 2 - 1 - Z.of_nat 0)) with 256. change (256 ^ (Z.of_nat 2 - 1 - Z.of_nat 1)) with 1.
  change (256 ^ (Z.of_nat 4 - 1 - Z.of_nat 0)) with 16777216. change (256 ^ (Z.of_nat 4 - 1 - Z.of_nat 1)) with 65536.
  change (256 ^ (Z.of_nat 4 - 1 - Z.of_nat 2)) with 256. change (256 ^ (Z.of_nat 4 - 1 - Z.of_nat 3)) with 1.
  change (2 ^ 24) with 16777216. change (2 ^ 16) with 65536. change (2 ^ 8) with 256.
  change (le_bytes 2 AF_INET) with [2; 0]. unfold sin. cbn [app].
  assert (E1 : (a * 16777216 + b * 65536 + c * 256 + d) / 16777216 = a) by (symmetry; apply Z.div_unique with (b * 65536 + c * 256 + d); lia).
  assert (E2 : (a * 16777216 + b * 65536 + c * 256 + d) / 65536 = a * 256 + b) by (symmetry; apply Z.div_unique with (c * 256 + d); lia).
  assert (E3 : (a * 16777216 + b * 65536 + c * 256 + d) / 256 = a * 65536 + b * 256 + c) by (symmetry; apply Z.div_unique with d; lia).
  rewrite E1, E2, E3, !Z.div_1_r.
  replace (a mod 256) with a by (symmetry; apply Z.mod_small; lia).
  replace ((a * 256 + b) mod 256) with b by (apply Z.mod_unique with a; lia).
  replace ((a * 65536 + b * 256 + c) mod 256) with c by (apply Z.mod_unique with (a * 256 + b); lia).
  replace ((a * 16777216 + b * 65536 + c * 256 + d) mod 256) with d by (apply Z.mod_unique with (a * 65536 + b * 256 + c); lia).
  replace (port / 256 mod 256) with (port / 256); [reflexivity|]. symmetry. apply Z.mod_small. split; [apply Z.div_pos; lia|apply Z.div_lt_upper_bound; lia].
Qed.
Lemma sin_len l port : octets l -> len (sin l port) = 16.
Proof. intros (L & _). unfold sin, len. rewrite !app_length, L. reflexivity. Qed.

Lemma u32_word m a v : u32_at m a v <-> bytes_at m a (le_bytes 4 v).
Proof.
  unfold u32_at. cbn [le_bytes bytes_at].
  rewrite !Z.div_div by lia. change (256 * 256) with 65536. change (65536 * 256) with 16777216.
  replace (a + 1 + 1) with (a + 2) by lia. replace (a + 2 + 1) with (a + 3) by lia. tauto.
Qed.

Lemma min_len n (l : list Z) : 0 <= n -> len (firstn (Z.to_nat (Z.min n (len l))) l) = Z.min n (len l).
Proof. intro N. unfold len in *. rewrite firstn_length. lia. Qed.
Lemma firstn_min n (l : list Z) : 0 <= n -> firstn (Z.to_nat (Z.min n (len l))) l = firstn (Z.to_nat n) l.
Proof.
  intro N. unfold len. destruct (Z.le_gt_cases n (Z.of_nat (length l))).
  - rewrite Z.min_l by lia. reflexivity.
  - rewrite Z.min_r by lia. rewrite Nat2Z.id, !firstn_all2 by lia. reflexivity.
Qed.

(* what comes before and after the address asked for in the name *)
Definition around (local : bool) (r t rest : list Z) : list Z := if local then r ++ [47] ++ t ++ rest else t ++ rest.

Lemma inet_name local m address alen n l port t r rest : octets l -> 0 <= port < 65536 -> shown t l port ->
  ~ In 47 r -> rest = [] \/ hd 0 rest = 47 /\ rest <> [] ->
  0 <= n < 2 ^ 32 -> u32_at m alen n -> mapped m address (Z.min n 16) -> disjoint address (Z.min n 16) alen 4 ->
  exists m', inner_af_inet local m (around local r t rest) address alen = Ok m' /\ delivered m m' address n alen (Z.min n 16) (sin l port).
Proof.
  intros O P SH NR RS N U M D. destruct (octets_four l O) as (a & b & c & d & -> & A1 & A2 & A3 & A4).
  apply shown_text in SH. destruct SH as (-> & _).
  assert (NT : ~ In 47 (inet_text a b c d port)) by (apply inet_text_not; unfold digit; lia).
  destruct (split_on_first 47 _ rest NT RS) as (ps & SP).
  assert (Q : (if local then tl (split_on 47 (around local r (inet_text a b c d port) rest)) else split_on 47 (around local r (inet_text a b c d port) rest)) = inet_text a b c d port :: ps).
  { unfold around. destruct local; [|exact SP]. change ([47] ++ inet_text a b c d port ++ rest) with (47 :: inet_text a b c d port ++ rest).
    rewrite split_on_cons by exact NR. exact SP. }
  unfold inner_af_inet. rewrite Q, inet_text_eq, cut_ok by (apply dotted_not; unfold digit; lia).
  rewrite dec_parse by lia. rewrite until_nul_ok by (apply dotted_not; unfold digit; lia). rewrite aton_dec by assumption.
  apply u32_word in U. rewrite (ld32_ok m alen n U) by (unfold is_u32; lia). cbn [bind]. unfold SIN_SIZE.
  rewrite sin_bytes by assumption. pose proof (sin_len _ port O) as SL.
  destruct (st_bytes_ok (firstn (Z.to_nat (Z.min n 16)) (sin [a; b; c; d] port)) m address) as (m1 & E1 & B1 & F1).
  { rewrite <- SL, min_len, SL by lia. exact M. }
  rewrite E1. cbn [bind].
  assert (L1 : len (firstn (Z.to_nat (Z.min n 16)) (sin [a; b; c; d] port)) = Z.min n 16) by (rewrite <- SL at 1; rewrite min_len, SL by lia; reflexivity).
  rewrite L1 in F1.
  destruct (st32_ok m1 alen (Z.min n 16)) as (m2 & E2 & B2 & F2).
  { intros x X. rewrite F1 by (unfold disjoint in D; lia). cbn [le_bytes bytes_at] in U. destruct U as (U0 & U1 & U2 & U3 & _).
    assert (K : x = alen \/ x = alen + 1 \/ x = alen + 1 + 1 \/ x = alen + 1 + 1 + 1) by lia.
    destruct K as [->|[->|[->| ->]]]; eauto. }
  exists m2. split; [exact E2|]. rewrite le_bytes_len in F2. split; [|split].
  - rewrite <- firstn_min by lia. rewrite SL. apply (bytes_at_ext m1); [|exact B1]. intros x X. apply F2. rewrite L1 in X. change (Z.of_nat 4) with 4. unfold disjoint in D. lia.
  - apply u32_word. exact B2.
  - intros x X Y. rewrite SL in X. rewrite F2 by exact Y. apply F1. exact X.
Qed.

Definition inet_scheme (pre : list Z) : Prop :=
  pre = text "tcp:" \/ pre = text "udp:" \/ pre = text "/scheme/tcp/" \/ pre = text "/scheme/udp/".
Definition unix_scheme (pre path : list Z) : Prop :=
  pre = text "chan:" \/ pre = text "/scheme/chan/" \/ (pre = text "/scheme/uds_stream" \/ pre = text "/scheme/uds_dgram") /\ hd 0 path = 47.

Lemma get_name_inet local m pre x address alen : inet_scheme pre ->
  get_name local m (pre ++ x) address alen = (m1 <- inner_af_inet local m x address alen ;; Ok (m1, None)).
Proof. intros [->|[->|[->| ->]]]; reflexivity. Qed.
Lemma get_name_unix local m pre x address alen : unix_scheme pre x ->
  get_name local m (pre ++ x) address alen = (m1 <- inner_af_unix m x address alen ;; Ok (m1, None)).
Proof. intros [->|[->|([->| ->] & H)]]; try reflexivity; destruct x as [|y x]; cbn in H; try discriminate; subst y; reflexivity. Qed.

Lemma inet_named local m pre address alen n l port t r rest : inet_scheme pre -> octets l -> 0 <= port < 65536 -> shown t l port ->
  ~ In 47 r -> rest = [] \/ hd 0 rest = 47 /\ rest <> [] ->
  0 <= n < 2 ^ 32 -> u32_at m alen n -> mapped m address (Z.min n 16) -> disjoint address (Z.min n 16) alen 4 ->
  exists m', get_name local m (pre ++ around local r t rest) address alen = Ok (m', None) /\
    delivered m m' address n alen (Z.min n 16) (sin l port).
Proof.
  intros PR O P SH NR RS N U M D. rewrite get_name_inet by exact PR.
  destruct (inet_name local m address alen n l port t r rest O P SH NR RS N U M D) as (m' & E & X).
  exists m'. rewrite E. split; [reflexivity|exact X].
Qed.

Lemma u32_mapped m a v : u32_at m a v -> mapped m a 4.
Proof.
  intro U. apply u32_word in U. apply bytes_at_mapped in U. rewrite le_bytes_len in U. exact U.
Qed.

Lemma sun_len path : len (sun path) = if len path <? 108 then len path + 3 else 110.
Proof.
  unfold sun. destruct (Z.ltb_spec (len path) 108); rewrite !len_app; [change (len [1; 0]) with 2; change (len [0]) with 1; lia|].
  unfold len in *. rewrite firstn_length. cbn [length]. lia.
Qed.

Lemma unix_name m path address alen n : len (sun path) <= n -> u32_at m alen n -> mapped m address (len (sun path)) -> disjoint address (len (sun path)) alen 4 ->
  exists m', inner_af_unix m path address alen = Ok m' /\ delivered m m' address n alen (len (sun path)) (sun path).
Proof.
  intros N U M D. pose proof (sun_len path) as SL. pose proof (len_nonneg path) as L0. apply u32_mapped in U.
  assert (SB : exists m3, (m1 <- st_bytes m address (le_bytes 2 AF_UNIX) ;;
      m2 <- st_bytes m1 (address + 2) (firstn (Z.to_nat (Z.min PATH_SIZE (len path))) path) ;;
      (if Z.min PATH_SIZE (len path) <? PATH_SIZE then st m2 (address + 2 + Z.min PATH_SIZE (len path)) 0 else Ok m2)) = Ok m3 /\ stored m m3 address (sun path)).
  { change (le_bytes 2 AF_UNIX) with [1; 0]. unfold PATH_SIZE.
    destruct (st_bytes_ok [1; 0] m address) as (m1 & E1 & S1); [eapply mapped_sub; [exact M|lia|change (len [1; 0]) with 2; destruct (Z.ltb_spec (len path) 108); lia]|].
    rewrite E1. cbn [bind].
    assert (MM : forall m m' a l b k, stored m m' a l -> mapped m b k -> mapped m' b k).
    { intros u u' a0 l0 b0 k0 (B & F) X y Y. destruct (Z.le_gt_cases a0 y); [destruct (Z.lt_ge_cases y (a0 + len l0))|].
      - apply bytes_at_mapped in B. apply B. lia.
      - rewrite F by lia. apply X. exact Y.
      - rewrite F by lia. apply X. exact Y. }
    assert (L2 : len (firstn (Z.to_nat (Z.min 108 (len path))) path) = Z.min 108 (len path)) by (apply min_len; lia).
    destruct (st_bytes_ok (firstn (Z.to_nat (Z.min 108 (len path))) path) m1 (address + 2)) as (m2 & E2 & S2).
    { eapply MM; [exact S1|]. rewrite L2. eapply mapped_sub; [exact M|lia|destruct (Z.ltb_spec (len path) 108); lia]. }
    rewrite E2. cbn [bind].
    assert (S12 : stored m m2 address ([1; 0] ++ firstn (Z.to_nat (Z.min 108 (len path))) path)).
    { eapply stored_app; [exact S1|]. change (len [1; 0]) with 2. exact S2. }
    unfold sun. destruct (Z.ltb_spec (len path) 108) as [H|H].
    - rewrite Z.min_r in * by lia. destruct (Z.ltb_spec (len path) 108); [|lia].
      assert (FA : firstn (Z.to_nat (len path)) path = path) by (unfold len; rewrite Nat2Z.id; apply firstn_all). rewrite FA in *.
      rewrite st_ok.
      + eexists. split; [reflexivity|]. rewrite app_assoc. eapply stored_snoc; [exact S12|]. rewrite len_app. change (len [1; 0]) with 2.
        replace (address + (2 + len path)) with (address + 2 + len path) by lia. reflexivity.
      + eapply MM; [exact S12|exact M|]. lia.
    - rewrite Z.min_l in * by lia. destruct (Z.ltb_spec 108 108); [lia|]. exists m2. split; [reflexivity|exact S12]. }
  destruct SB as (m3 & E3 & B3 & F3).
  destruct (st32_ok m3 alen (len (sun path))) as (m4 & E4 & B4 & F4).
  { intros x X. rewrite F3 by (unfold disjoint in D; lia). apply U. exact X. }
  exists m4. split.
  - unfold inner_af_unix. destruct (st_bytes m address (le_bytes 2 AF_UNIX)) as [m1| | |] eqn:E1; try discriminate. cbn [bind] in *.
    destruct (st_bytes m1 (address + 2) _) as [m2| | |] eqn:E2; try discriminate. cbn [bind] in *. unfold PATH_SIZE in *.
    destruct (Z.ltb_spec (Z.min 108 (len path)) 108) as [H|H].
    + rewrite E3. cbn [bind]. rewrite <- E4. f_equal. rewrite SL. destruct (Z.ltb_spec (len path) 108); lia.
    + injection E3 as ->. rewrite <- E4. f_equal. rewrite SL. destruct (Z.ltb_spec (len path) 108); lia.
  - rewrite le_bytes_len in F4. change (Z.of_nat 4) with 4 in F4. split; [|split].
    + rewrite firstn_all2 by (unfold len in N; lia). apply (bytes_at_ext m3); [|exact B3]. intros x X. apply F4. unfold disjoint in D. lia.
    + apply u32_word. exact B4.
    + intros x X Y. rewrite Z.min_r in X by lia. rewrite F4 by exact Y. apply F3. exact X.
Qed.

Lemma unix_named local m pre path address alen n : unix_scheme pre path -> len (sun path) <= n -> u32_at m alen n ->
  mapped m address (len (sun path)) -> disjoint address (len (sun path)) alen 4 ->
  exists m', get_name local m (pre ++ path) address alen = Ok (m', None) /\ delivered m m' address n alen (len (sun path)) (sun path).
Proof.
  intros PR N U M D. rewrite get_name_unix by exact PR.
  destruct (unix_name m path address alen n N U M D) as (m' & E & X). exists m'. rewrite E. split; [reflexivity|exact X].
Qed.

(* ---- the paths given to bind and connect ---- *)
Lemma up_to_ok path : forall n m p rest, Forall is_char path -> bytes_at m p path -> (length path <= n)%nat -> (length path < n)%nat /\ m (p + len path) = Some 0 \/ n = length path /\ rest = 0 ->
  up_to n m p = Ok path.
Proof.
  induction path as [|c path IH]; intros n m p rest C B L X.
  - destruct X as [(X & Y)|(-> & _)]; [|reflexivity]. destruct n; [lia|]. cbn [up_to].
    change (len (@nil Z)) with 0 in Y. rewrite Z.add_0_r in Y. rewrite (ld_ok _ _ _ Y). reflexivity.
  - cbn [length] in *. destruct n as [|n]; [lia|]. inversion C as [|? ? CC CF]; subst. cbn [bytes_at] in B. destruct B as (B0 & B). cbn [up_to]. rewrite (ld_ok _ _ _ B0). cbn [bind].
    unfold is_char in CC. destruct (Z.eqb_spec c 0); [lia|]. rewrite (IH n m (p + 1) rest CF B); [reflexivity|lia|].
    destruct X as [(X & Y)|(X & Z)]; [left|right; split; [lia|exact Z]]. split; [lia|]. rewrite len_cons in Y. replace (p + 1 + len path) with (p + (len path + 1)) by lia. exact Y.
Qed.

Lemma bind_path_ok m address n path : Forall is_char path -> bytes_at m (address + 2) path -> 2 <= n < 2 ^ 64 ->
  (len path < 108 /\ 2 + len path < n /\ m (address + 2 + len path) = Some 0 \/ len path = Z.min 108 (n - 2)) ->
  bind_path m address n = Ok path.
Proof.
  intros C B N X. unfold bind_path, PATH_SIZE. rewrite Z.mod_small by lia. pose proof (len_nonneg path). unfold len in *.
  apply (up_to_ok path _ m (address + 2) 0); [exact C|exact B|lia|].
  destruct X as [(X1 & X2 & X3)|X]; [left; split; [lia|exact X3]|right; split; [lia|reflexivity]].
Qed.
Lemma connect_path_ok fuel m address n path : cstr m (address + 2) path -> (length path < fuel)%nat -> connect_path fuel m address n = Ok path.
Proof. intros C F. unfold connect_path. apply read_str_ok; assumption. Qed.
