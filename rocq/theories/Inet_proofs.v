(* Proofs for C47 and C48. *)
From Verif Require Import Base Numeral Sort_model Sort_proofs Word_mem Utf8_model Writer_model Writer_proofs String_model
  Scanf_spec Scanf_proofs Inet_model Inet_spec.

(* ---- byte order ---- *)
Lemma le_is_little n : forall x, le_bytes n x = little_endian n x.
Proof.
  induction n as [|n IH]; intro x; [reflexivity|]. unfold little_endian. cbn [seq map le_bytes]. f_equal; [cbn; rewrite Z.div_1_r; reflexivity|].
  rewrite IH. unfold little_endian. rewrite <- seq_shift, map_map. apply map_ext. intro i.
  rewrite Z.div_div by (try apply Z.pow_pos_nonneg; lia). do 2 f_equal.
  rewrite Nat2Z.inj_succ, Z.pow_succ_r by lia. reflexivity.
Qed.
Lemma seq_rev n : rev (seq 0 n) = map (fun i => (n - 1 - i)%nat) (seq 0 n).
Proof.
  induction n as [|n IH]; [reflexivity|]. rewrite seq_S at 1. cbn [plus]. rewrite rev_app_distr. cbn [rev app plus seq map]. f_equal; [lia|].
  rewrite IH, <- seq_shift, map_map. apply map_ext. intro i. lia.
Qed.
Lemma big_is_rev n x : big_endian n x = rev (little_endian n x).
Proof.
  unfold big_endian, little_endian. rewrite <- map_rev, seq_rev, map_map. apply map_ext_in. intros i I. apply in_seq in I. replace (Z.of_nat (n - 1 - i)) with (Z.of_nat n - 1 - Z.of_nat i) by lia. reflexivity.
Qed.
Lemma of_le_range l : Forall is_byte l -> 0 <= of_le l < 256 ^ len l.
Proof.
  induction 1 as [|b l B _ IH]; [vm_compute; split; [discriminate|reflexivity]|]. rewrite len_cons, Z.pow_add_r by (try apply len_nonneg; lia). cbn [of_le fold_right]. fold (of_le l).
  unfold is_byte in B. lia.
Qed.
Lemma le_of_le l : Forall is_byte l -> le_bytes (length l) (of_le l) = l.
Proof.
  induction 1 as [|b l B _ IH]; [reflexivity|]. cbn [length le_bytes of_le fold_right]. fold (of_le l). unfold is_byte in B.
  rewrite (Z.mul_comm 256), Z.mod_add, Z.div_add by lia. rewrite Z.mod_small, Z.div_small by lia. rewrite Z.add_0_l, IH. reflexivity.
Qed.
Lemma of_le_le n : forall x, 0 <= x < 256 ^ Z.of_nat n -> of_le (le_bytes n x) = x.
Proof.
  induction n as [|n IH]; intros x X; [cbn in *; lia|]. rewrite Nat2Z.inj_succ, Z.pow_succ_r in X by lia.
  cbn [le_bytes of_le fold_right]. fold (of_le (le_bytes n (x / 256))). rewrite IH.
  - pose proof (Z.div_mod x 256). lia.
  - split; [apply Z.div_pos; lia|apply Z.div_lt_upper_bound; lia].
Qed.
Lemma swap_bytes_mem n x : le_bytes n (swap_bytes n x) = big_endian n x.
Proof.
  unfold swap_bytes. rewrite big_is_rev, <- le_is_little.
  replace n with (length (rev (le_bytes n x))) at 1 by (rewrite rev_length; apply le_bytes_length).
  apply le_of_le. apply Forall_rev. apply le_bytes_byte.
Qed.
Lemma swap_bytes_range n x : 0 <= swap_bytes n x < 256 ^ Z.of_nat n.
Proof.
  unfold swap_bytes. replace (Z.of_nat n) with (len (rev (le_bytes n x))) by (unfold len; rewrite rev_length, le_bytes_length; reflexivity).
  apply of_le_range. apply Forall_rev. apply le_bytes_byte.
Qed.
Lemma swap_swap n x : 0 <= x < 256 ^ Z.of_nat n -> swap_bytes n (swap_bytes n x) = x.
Proof.
  intro H. unfold swap_bytes at 1. rewrite swap_bytes_mem, big_is_rev, rev_involutive, <- le_is_little. apply of_le_le. exact H.
Qed.

(* ---- parsing ---- *)
Lemma to_digit_iff c r d : 2 <= r <= 16 -> (to_digit c r = Some d <-> base_digit r c /\ d = dval c).
Proof.
  intro R. unfold to_digit, base_digit, dval.
  destruct ((48 <=? c) && (c <=? 57)) eqn:E1; [|destruct ((65 <=? c) && (c <=? 90)) eqn:E2; [|destruct ((97 <=? c) && (c <=? 122)) eqn:E3]].
  all: destruct (Z.leb_spec c 57); try lia; destruct (Z.leb_spec c 70); try lia;
    match goal with |- context [if ?e <? ?f then _ else _] => destruct (Z.ltb_spec e f) end;
    (split; [intros [= <-]; split; lia|intros (X & ->); try reflexivity; exfalso; lia]) || (split; [discriminate|intros (X & ->); exfalso; lia]).
Qed.
Definition dacc (r acc : Z) (l : list Z) : Z := fold_left (fun a d => a * r + d) l acc.
Lemma dacc_ge r l : 2 <= r -> Forall (fun d => 0 <= d) l -> forall acc, 0 <= acc -> acc <= dacc r acc l.
Proof.
  intros R F. induction F as [|d l D F IH]; intros acc A; [cbn; lia|]. cbn [dacc fold_left]. fold (dacc r (acc * r + d) l).
  pose proof (IH (acc * r + d) ltac:(lia)). nia.
Qed.
Lemma base_digit_nonneg r l : Forall (base_digit r) l -> Forall (fun d => 0 <= d) (map dval l).
Proof.
  intro F. apply Forall_map. eapply Forall_impl; [|exact F]. intros c (C & _). unfold dval. destruct (Z.leb_spec c 57); [lia|]. destruct (Z.leb_spec c 70); lia.
Qed.
Lemma parse_digits_iff r max l : 2 <= r <= 16 -> forall acc v, 0 <= acc <= max ->
  (parse_digits r max acc l = Some v <-> Forall (base_digit r) l /\ v = dacc r acc (map dval l) /\ v <= max).
Proof.
  intro R. induction l as [|c l IH]; intros acc v A; cbn [parse_digits map].
  - split; [intros [= <-]; repeat split; [constructor|lia]|intros (_ & -> & _); reflexivity].
  - destruct (to_digit c r) as [d|] eqn:E.
    + apply to_digit_iff in E; [|exact R]. destruct E as (B & ->).
      assert (D0 : 0 <= dval c) by (pose proof (base_digit_nonneg r [c] (Forall_cons _ B (Forall_nil _))) as F; inversion F; assumption).
      destruct (Z.ltb_spec max (acc * r + dval c)) as [O|O].
      * split; [discriminate|]. intros (F & -> & L). inversion F; subst. exfalso. cbn [dacc fold_left] in L. fold (dacc r (acc * r + dval c) (map dval l)) in L.
        pose proof (dacc_ge r (map dval l) ltac:(lia) (base_digit_nonneg r l H2) (acc * r + dval c) ltac:(nia)). lia.
      * rewrite IH by nia. cbn [dacc fold_left]. fold (dacc r (acc * r + dval c) (map dval l)). split.
        -- intros (F & V & L). repeat split; auto.
        -- intros (F & V & L). inversion F; subst. auto.
    + split; [discriminate|]. intros (F & _). inversion F; subst. exfalso.
      assert (X : to_digit c r = Some (dval c)) by (apply to_digit_iff; auto). congruence.
Qed.
Lemma parse_uint_iff r max l v : 2 <= r <= 16 -> 0 <= max -> ~ In 43 l ->
  (parse_uint r max l = Some v <-> digits_of r l v /\ v <= max).
Proof.
  intros R M NP. unfold parse_uint, digits_of. destruct l as [|c l].
  - split; [discriminate|intros ((X & _) & _); congruence].
  - destruct (Z.eqb_spec c 43) as [->|_]; [exfalso; apply NP; left; reflexivity|]. rewrite parse_digits_iff by lia.
    split; [intros (F & V & L); repeat split; auto; discriminate|intros ((_ & F & V) & L); auto].
Qed.

Lemma split_dotted parts : parts <> [] -> Forall (fun p => ~ In 46 p) parts -> split_dot (dotted parts) = parts.
Proof.
  assert (A : forall p r, ~ In 46 p -> split_dot (p ++ 46 :: r) = p :: split_dot r).
  { induction p as [|c p IH]; intros r N; [reflexivity|]. cbn [app split_dot]. destruct (Z.eqb_spec c 46); [exfalso; apply N; left; auto|].
    rewrite IH by (intro; apply N; right; auto). reflexivity. }
  assert (B : forall p, ~ In 46 p -> split_dot p = [p]).
  { induction p as [|c p IH]; intros N; [reflexivity|]. cbn [split_dot]. destruct (Z.eqb_spec c 46); [exfalso; apply N; left; auto|].
    rewrite IH by (intro; apply N; right; auto). reflexivity. }
  intros N F. induction F as [|p ps P F IH]; [congruence|]. destruct ps as [|q ps]; [apply B; exact P|].
  change (dotted (p :: q :: ps)) with (p ++ 46 :: dotted (q :: ps)). rewrite A by exact P. rewrite IH by discriminate. reflexivity.
Qed.
Lemma dotted_split s : dotted (split_dot s) = s /\ split_dot s <> [] /\ Forall (fun p => ~ In 46 p) (split_dot s).
Proof.
  induction s as [|c s IH]; [repeat split; [discriminate|repeat constructor; auto]|]. destruct IH as (I1 & I2 & I3). cbn [split_dot].
  destruct (Z.eqb_spec c 46) as [->|N].
  - destruct (split_dot s) as [|p ps] eqn:E; [congruence|]. repeat split; [|discriminate|constructor; auto]. change (dotted ([] :: p :: ps)) with (46 :: dotted (p :: ps)). rewrite I1. reflexivity.
  - destruct (split_dot s) as [|p ps] eqn:E; [congruence|]. inversion I3 as [|? ? J1 J2]. repeat split; [|discriminate|].
    + rewrite <- I1. destruct ps; reflexivity.
    + constructor; [|assumption]. intros [X|X]; auto.
Qed.
Lemma dotted_in x parts : parts <> [] -> (forall p, In p parts -> ~ In x p) -> x <> 46 -> ~ In x (dotted parts).
Proof.
  intros _ H N. induction parts as [|p ps IH]; [auto|]. destruct ps as [|q ps]; [apply H; left; reflexivity|].
  change (dotted (p :: q :: ps)) with (p ++ 46 :: dotted (q :: ps)). rewrite in_app_iff. intros [X|[X|X]]; [|congruence|].
  - eapply H; [left; reflexivity|exact X].
  - apply IH; [|exact X]. intros p' I. apply H. right. exact I.
Qed.
Lemma in_dotted x p parts : In p parts -> In x p -> In x (dotted parts).
Proof.
  induction parts as [|q ps IH]; intros I X; [destruct I|]. destruct ps as [|r ps].
  - destruct I as [->|[]]. exact X.
  - change (dotted (q :: r :: ps)) with (q ++ 46 :: dotted (r :: ps)). apply in_or_app. destruct I as [->|I]; [left; exact X|right; right; apply IH; auto].
Qed.
Lemma base_digit_not r c : base_digit r c -> c <> 43 /\ c <> 46.
Proof. intros (H & _). lia. Qed.
Lemma digits_no r t v : digits_of r t v -> ~ In 43 t /\ ~ In 46 t.
Proof.
  intros (_ & F & _). rewrite Forall_forall in F. split; intro I; apply F in I; apply base_digit_not in I; lia.
Qed.
Lemma constant_no c t v : constant c t v -> ~ In 43 t /\ ~ In 46 t.
Proof.
  intro H. inversion H; subst; try (eapply digits_no; eassumption).
  all: match goal with D : digits_of _ _ _ |- _ => apply digits_no in D; destruct D as (D1 & D2) end; unfold is_x in *; cbn [In]; split; intro X; intuition lia.
Qed.

Lemma read_str_ok s : forall fuel m p, cstr m p s -> (length s < fuel)%nat -> read_str fuel m p = Ok s.
Proof.
  induction s as [|c s IH]; intros fuel m p C F; (destruct fuel as [|f]; [lia|]); cbn [read_str length] in *.
  - apply cstr_nil in C. rewrite (ld_ok _ _ _ C). reflexivity.
  - apply cstr_cons in C. destruct C as (CH & E & C). rewrite (ld_ok _ _ _ E). cbn [bind]. unfold is_char in CH.
    destruct (Z.eqb_spec c 0); [lia|]. rewrite (IH f m (p + 1) C ltac:(lia)). reflexivity.
Qed.

(* ---- inet_pton ---- *)
Lemma pton_loop_ok k : forall m dst octets, Forall (fun p => ~ In 43 p) octets -> mapped m dst (Z.of_nat k) ->
  (exists l m', Forall2 octet octets l /\ length octets = k /\ pton_loop k m dst octets = Ok (m', 1) /\ stored m m' dst l) \/
  ((~ exists l, Forall2 octet octets l /\ length octets = k) /\
   exists m', pton_loop k m dst octets = Ok (m', 0) /\ forall x, ~ (dst <= x < dst + Z.of_nat k) -> m' x = m x).
Proof.
  induction k as [|k IH]; intros m dst octets F MP; cbn [pton_loop].
  - destruct octets as [|x r].
    + left. exists [], m. split; [constructor|]. split; [reflexivity|]. split; [reflexivity|]. apply stored_nil.
    + right. split; [intros (l & _ & X); discriminate|]. exists m. auto.
  - destruct octets as [|x r]; [right; split; [intros (l & _ & X); discriminate|exists m; auto]|].
    inversion F as [|? ? F1 F2]; subst.
    assert (BAD : ~ (exists v, octet x v) -> ~ exists l, Forall2 octet (x :: r) l /\ length (x :: r) = S k).
    { intros N (l & H & _). inversion H; subst. apply N. eauto. }
    destruct (Z.ltb_spec 3 (len x)).
    { right. split; [apply BAD; intros (v & _ & L & _); lia|]. exists m. auto. }
    destruct (parse_uint 10 255 x) as [n|] eqn:E.
    + apply parse_uint_iff in E; [|lia|lia|exact F1]. destruct E as (D & N).
      destruct (MP dst) as (b & B); [lia|]. rewrite st_ok by eauto. cbn [bind].
      destruct (IH (upd m dst n) (dst + 1) r F2) as [(l & m' & H1 & H2 & H3 & H4)|(H1 & m' & H2 & H3)].
      { apply mapped_upd. intros y Y. apply MP. lia. }
      * left. exists (n :: l), m'. split; [constructor; [split; [exact D|lia]|exact H1]|]. split; [cbn; lia|]. split; [exact H3|].
        apply stored_cons. exact H4.
      * right. split.
        -- intros (l & L1 & L2). inversion L1; subst. apply H1. exists l'. split; [assumption|]. cbn in L2. lia.
        -- exists m'. split; [exact H2|]. intros y Y. rewrite H3 by lia. apply upd_other. lia.
    + right. split.
      * apply BAD. intros (v & D & L & V). assert (X : parse_uint 10 255 x = Some v) by (apply parse_uint_iff; auto; lia). congruence.
      * exists m. auto.
Qed.
Lemma quad_iff s l : quad s l <-> Forall2 octet (split_dot s) l /\ length (split_dot s) = 4%nat.
Proof.
  split.
  - intros (parts & -> & L & F). rewrite split_dotted; auto; [destruct parts; discriminate|].
    clear L. induction F as [|p v ps vs H F IH]; constructor; [|exact IH]. destruct H as (D & _). eapply digits_no. exact D.
  - intros (F & L). exists (split_dot s). split; [symmetry; apply dotted_split|]. auto.
Qed.
Lemma pton_ok fuel m src dst s : cstr m src s -> (length s < fuel)%nat -> ~ In 43 s -> mapped m dst 4 ->
  (exists l m', quad s l /\ inet_pton4 fuel m src dst = Ok (m', 1) /\ stored m m' dst l) \/
  ((~ exists l, quad s l) /\ exists m', inet_pton4 fuel m src dst = Ok (m', 0) /\ forall x, ~ (dst <= x < dst + 4) -> m' x = m x).
Proof.
  intros C F P MP. unfold inet_pton4. rewrite (read_str_ok s fuel m src C F). cbn [bind].
  destruct (pton_loop_ok 4 m dst (split_dot s)) as [(l & m' & H1 & H2 & H3 & H4)|(H1 & m' & H2 & H3)]; auto.
  - apply Forall_forall. intros p I J. apply P. destruct (dotted_split s) as (E & _). rewrite <- E. eapply in_dotted; eauto.
  - left. exists l, m'. rewrite quad_iff. auto.
  - right. split; [|exists m'; auto]. intros (l & Q). apply H1. exists l. apply quad_iff. exact Q.
Qed.

(* ---- inet_ntop ---- *)
Lemma dec_len b : is_byte b -> 1 <= len (dec b) <= 3.
Proof.
  intro B. unfold is_byte in B. pose proof (to_digits_numeral 10 b ltac:(lia) ltac:(lia)) as N. unfold dec. rewrite (Printf_proofs.len_map).
  pose proof (numeral_len 10 _ b 3 ltac:(lia) N ltac:(lia) ltac:(lia)). pose proof (numeral_ne _ _ _ N).
  destruct (to_digits 10 b); [congruence|]. rewrite len_cons in *. pose proof (len_nonneg l). lia.
Qed.
Lemma dec_digits b : is_byte b -> digits_of 10 (dec b) b /\ Forall is_char (dec b).
Proof.
  intro B. unfold is_byte in B. pose proof (to_digits_numeral 10 b ltac:(lia) ltac:(lia)) as N. pose proof (numeral_digits _ _ _ N) as D.
  unfold dec. split.
  - split; [intro E; apply map_eq_nil in E; apply numeral_ne in N; congruence|]. split.
    + apply Forall_map. eapply Forall_impl; [|exact D]. intros d X. cbv beta in X |- *. unfold base_digit, dval. destruct (Z.leb_spec (48 + d) 57); lia.
    + rewrite map_map. rewrite (map_ext_in _ (fun d => d)).
      * rewrite map_id. symmetry. apply N.
      * intros d I. rewrite Forall_forall in D. apply D in I. cbv beta in I |- *. unfold dval. destruct (Z.leb_spec (48 + d) 57); lia.
  - apply Forall_map. eapply Forall_impl; [|exact D]. intros d X. cbv beta in X |- *. unfold is_char. lia.
Qed.
Lemma ntop_text a b c d : concat (ntop_pieces a b c d) = dotted [dec a; dec b; dec c; dec d] ++ [0].
Proof. unfold ntop_pieces. cbn [concat dotted]. rewrite app_nil_r. repeat (rewrite <- !app_assoc || cbn [app]). reflexivity. Qed.
Lemma ntop_ok m src dst size a b c d : bytes_at m src [a; b; c; d] -> Forall is_byte [a; b; c; d] -> 16 <= size < 2 ^ 32 -> mapped m dst size ->
  let s := dotted [dec a; dec b; dec c; dec d] in
  exists m', inet_ntop m AF_INET src dst size = Ok (m', dst, None) /\ cstr m' dst s /\ len s < 16 /\
    forall x, ~ (dst <= x < dst + size) -> m' x = m x.
Proof.
  intros B F SZ MP s. unfold inet_ntop. cbn [Z.eqb negb AF_INET]. destruct (Z.eqb_spec 2 2); [|lia]. cbn [negb].
  destruct (Z.ltb_spec size 16); [lia|]. destruct B as (B1 & B2 & B3 & B4 & _).
  rewrite (ld_ok _ _ _ B1). cbn [bind]. rewrite (ld_ok _ _ _ B2). cbn [bind]. replace (src + 2) with (src + 1 + 1) by lia. rewrite (ld_ok _ _ _ B3). cbn [bind].
  replace (src + 3) with (src + 1 + 1 + 1) by lia. rewrite (ld_ok _ _ _ B4). cbn [bind].
  inversion F as [|? ? A1 F1]; subst. inversion F1 as [|? ? A2 F2]; subst. inversion F2 as [|? ? A3 F3]; subst. inversion F3 as [|? ? A4 _]; subst.
  assert (LS : len s < 16).
  { unfold s. cbn [dotted]. repeat rewrite ?len_app, ?len_cons. pose proof (dec_len a A1). pose proof (dec_len b A2). pose proof (dec_len c A3). pose proof (dec_len d A4). lia. }
  destruct (cw_write_top (ntop_pieces a b c d) m dst size) as (m' & E & S); [discriminate|lia|exact MP| |].
  { rewrite ntop_text. fold s. rewrite len_app. change (len [0]) with 1. unfold WRAP. lia. }
  rewrite E. cbn [bind]. exists m'. split; [reflexivity|]. rewrite ntop_text in S. fold s in S.
  assert (FS : exists t, firstn (Z.to_nat (size - 1)) (s ++ [0]) ++ [0] = (s ++ [0]) ++ t /\ len ((s ++ [0]) ++ t) <= size).
  { pose proof (len_nonneg s). destruct (Z.eq_dec (len s + 1) size) as [Q|Q].
    - exists []. rewrite firstn_app. rewrite firstn_all2 by (unfold len in *; lia).
      replace (Z.to_nat (size - 1) - length s)%nat with 0%nat by (unfold len in *; lia). cbn [firstn]. rewrite !app_nil_r. split; [reflexivity|].
      rewrite len_app. change (len [0]) with 1. lia.
    - exists [0]. rewrite firstn_all2 by (rewrite app_length; cbn [length]; unfold len in *; lia). split; [reflexivity|]. rewrite !len_app. change (len [0]) with 1. lia. }
  destruct FS as (t & FS & LT). rewrite FS in S. destruct S as (S1 & S2). split.
  - split.
    + unfold s. cbn [dotted]. pose proof (proj2 (dec_digits a A1)). pose proof (proj2 (dec_digits b A2)). pose proof (proj2 (dec_digits c A3)). pose proof (proj2 (dec_digits d A4)).
      repeat (apply Forall_app; split; [assumption|constructor; [unfold is_char; lia|]]). assumption.
    + apply bytes_at_app in S1. apply S1.
  - split; [exact LS|]. intros x X. apply S2. lia.
Qed.
Lemma ntop_canonical a b c d : Forall is_byte [a; b; c; d] -> canonical (dotted [dec a; dec b; dec c; dec d]) [a; b; c; d].
Proof.
  intro F. exists [to_digits 10 a; to_digits 10 b; to_digits 10 c; to_digits 10 d]. split; [reflexivity|]. split; [reflexivity|].
  inversion F as [|? ? A1 F1]; subst. inversion F1 as [|? ? A2 F2]; subst. inversion F2 as [|? ? A3 F3]; subst. inversion F3 as [|? ? A4 _]; subst.
  unfold is_byte in *. repeat constructor; apply to_digits_numeral; lia.
Qed.
Lemma ntop_quad a b c d : Forall is_byte [a; b; c; d] -> quad (dotted [dec a; dec b; dec c; dec d]) [a; b; c; d].
Proof.
  intro F. exists [dec a; dec b; dec c; dec d]. split; [reflexivity|]. split; [reflexivity|].
  assert (O : forall b, is_byte b -> octet (dec b) b).
  { intros x B. split; [apply dec_digits; exact B|]. split; [apply dec_len; exact B|]. unfold is_byte in B. lia. }
  inversion F as [|? ? A1 F1]; subst. inversion F1 as [|? ? A2 F2]; subst. inversion F2 as [|? ? A3 F3]; subst. inversion F3 as [|? ? A4 _]; subst.
  repeat constructor; apply O; assumption.
Qed.
Lemma octets_inj parts : forall l k, Forall2 octet parts l -> Forall2 octet parts k -> l = k.
Proof.
  induction parts as [|p ps IH]; intros l k H K; inversion H as [|? ? ? ? O1 R1]; subst; inversion K as [|? ? ? ? O2 R2]; subst; [reflexivity|].
  f_equal; [|apply IH; assumption]. destruct O1 as ((_ & _ & ->) & _). destruct O2 as ((_ & _ & ->) & _). reflexivity.
Qed.
Lemma quad_inj s l k : quad s l -> quad s k -> l = k.
Proof. rewrite !quad_iff. intros (H & _) (K & _). eapply octets_inj; eauto. Qed.
Lemma no_plus_quad s l : quad s l -> ~ In 43 s.
Proof.
  intros (parts & -> & L & F). apply dotted_in; [destruct parts; discriminate| |lia]. intros p I. clear L.
  induction F as [|q v qs vs O F IH]; [destruct I|]. destruct I as [->|I]; [|auto]. destruct O as (D & _). eapply digits_no. exact D.
Qed.

(* ---- inet_aton ---- *)
Lemma parse_part_iff t v : ~ In 43 t -> (parse_part t = Some v <-> constant 105 t v /\ v <= U32MAX).
Proof.
  intro NP. assert (UM : 0 <= U32MAX) by (unfold U32MAX; lia). unfold parse_part.
  assert (DEC : hd 0 t <> 48 -> (parse_uint 10 U32MAX t = Some v <-> constant 105 t v /\ v <= U32MAX)).
  { intro N. rewrite parse_uint_iff by (auto; lia). split.
    - intros (D & L). split; [apply k_i10; assumption|exact L].
    - intros (K & L). split; [|exact L]. inversion K; subst; try lia; try assumption; cbn in N; lia. }
  destruct t as [|c [|d r]].
  - apply DEC. discriminate.
  - destruct (Z.eq_dec c 48) as [->|N]; [|apply DEC; exact N].
    rewrite parse_uint_iff by (auto; lia). split.
    + intros ((_ & _ & ->) & L). split; [|exact L]. apply k_i8. split; [discriminate|]. split; [repeat constructor; cbn; lia|reflexivity].
    + intros (K & L). split; [|exact L]. inversion K; subst; try lia; try (cbn in *; congruence).
      match goal with D : digits_of 8 [48] _ |- _ => destruct D as (_ & _ & ->) end.
      split; [discriminate|]. split; [constructor; [unfold base_digit, dval; cbn; lia|constructor]|reflexivity].
  - destruct (Z.eqb_spec c 48) as [->|N]; [|apply DEC; exact N].
    destruct ((d =? 120) || (d =? 88)) eqn:X.
    + rewrite parse_uint_iff by (try lia; intro; apply NP; right; right; assumption). split.
      * intros (D & L). split; [|exact L]. apply k_i16; [unfold is_x; lia|exact D].
      * intros (K & L). split; [|exact L]. inversion K; subst; try lia; try (cbn in *; congruence); try assumption.
        match goal with D : digits_of 8 _ _ |- _ => destruct D as (_ & F & _) end. inversion F as [|? ? _ F2]; subst. inversion F2 as [|? ? B _]; subst.
        destruct B as (B & _). exfalso. lia.
    + rewrite parse_uint_iff by (try lia; intro; apply NP; right; assumption).
      assert (E8 : digits_of 8 (d :: r) v <-> digits_of 8 (48 :: d :: r) v).
      { unfold digits_of. cbn [map]. rewrite (dvalue_cons 8 (dval 48)). change (dval 48) with 0. rewrite Z.mul_0_l, Z.add_0_l. split.
        - intros (_ & F & V). repeat split; [discriminate| |exact V]. constructor; [|exact F]. unfold base_digit, dval. cbn. lia.
        - intros (_ & F & V). repeat split; [discriminate| |exact V]. inversion F; subst. assumption. }
      rewrite E8. split.
      * intros (D & L). split; [|exact L]. apply k_i8. exact D.
      * intros (K & L). split; [|exact L]. inversion K; subst; try lia; try (cbn in *; congruence); try assumption.
        unfold is_x in *. lia.
Qed.

Lemma parse_part_ok t v : parse_part t = Some v -> ~ In 43 t -> constant 105 t v /\ 0 <= v <= U32MAX.
Proof. intros H N. apply parse_part_iff in H; [|exact N]. destruct H as (K & L). split; [exact K|]. pose proof (constant_nonneg _ _ _ K). lia. Qed.

Lemma aton_iff s a : ~ In 43 s -> (aton s = Some a <-> denotes s a).
Proof.
  intro NP. destruct (dotted_split s) as (E & NE & ND).
  assert (PP : Forall (fun p => ~ In 43 p) (split_dot s)).
  { apply Forall_forall. intros p I J. apply NP. rewrite <- E. eapply in_dotted; eauto. }
  unfold aton. split.
  - intro H. destruct (Z.ltb_spec 4 (len (split_dot s))) as [L|L]; [discriminate|].
    destruct (split_dot s) as [|p0 [|p1 [|p2 [|p3 [|p4 ps]]]]] eqn:SD; [congruence| | | | |exfalso; rewrite !len_cons in L; pose proof (len_nonneg ps); lia].
    all: repeat match goal with F : Forall _ (_ :: _) |- _ => inversion F; clear F; subst end.
    all: unfold aton_loop in H.
    + destruct (parse_part p0) as [v0|] eqn:E0; [|discriminate]. apply parse_part_ok in E0; [|assumption]. destruct E0 as (K0 & R0).
      cbn [Z.ltb Z.compare andb] in H. injection H as <-. unfold U32MAX in R0. rewrite Z.mod_small by lia.
      exists [p0], [v0]. split; [reflexivity|]. split; [repeat (apply Forall2_cons; [assumption|]); apply Forall2_nil|]. apply a1. lia.
    + destruct (parse_part p0) as [v0|] eqn:E0; [|discriminate]. apply parse_part_ok in E0; [|assumption]. destruct E0 as (K0 & R0).
      destruct (Z.ltb_spec 255 v0); [discriminate|].
      destruct (parse_part p1) as [v1|] eqn:E1; [|discriminate]. apply parse_part_ok in E1; [|assumption]. destruct E1 as (K1 & R1).
      change (0 <? 0 + 1) with true in H. cbn [andb] in H. change (2 ^ (32 - (0 + 1) * 8)) with (2 ^ 24) in H. change (2 ^ (24 - 0 * 8)) with (2 ^ 24) in H.
      destruct (Z.leb_spec (2 ^ 24) v1); [discriminate|]. injection H as <-. rewrite (Z.mod_small (0 + _)) by lia. rewrite Z.mod_small by lia.
      exists [p0; p1], [v0; v1]. split; [reflexivity|]. split; [repeat (apply Forall2_cons; [assumption|]); apply Forall2_nil|]. rewrite Z.add_0_l. apply a2; lia.
    + destruct (parse_part p0) as [v0|] eqn:E0; [|discriminate]. apply parse_part_ok in E0; [|assumption]. destruct E0 as (K0 & R0).
      destruct (Z.ltb_spec 255 v0); [discriminate|].
      destruct (parse_part p1) as [v1|] eqn:E1; [|discriminate]. apply parse_part_ok in E1; [|assumption]. destruct E1 as (K1 & R1).
      destruct (Z.ltb_spec 255 v1); [discriminate|].
      destruct (parse_part p2) as [v2|] eqn:E2; [|discriminate]. apply parse_part_ok in E2; [|assumption]. destruct E2 as (K2 & R2).
      change (0 <? 0 + 1 + 1) with true in H. cbn [andb] in H. change (2 ^ (32 - (0 + 1 + 1) * 8)) with (2 ^ 16) in H.
      change (2 ^ (24 - 0 * 8)) with (2 ^ 24) in H. change (2 ^ (24 - (0 + 1) * 8)) with (2 ^ 16) in H.
      destruct (Z.leb_spec (2 ^ 16) v2); [discriminate|]. injection H as <-.
      rewrite (Z.mod_small (0 + _)) by lia. rewrite (Z.mod_small (0 + _ + _)) by lia. rewrite Z.mod_small by lia.
      exists [p0; p1; p2], [v0; v1; v2]. split; [reflexivity|]. split; [repeat (apply Forall2_cons; [assumption|]); apply Forall2_nil|]. rewrite Z.add_0_l. apply a3; lia.
    + destruct (parse_part p0) as [v0|] eqn:E0; [|discriminate]. apply parse_part_ok in E0; [|assumption]. destruct E0 as (K0 & R0).
      destruct (Z.ltb_spec 255 v0); [discriminate|].
      destruct (parse_part p1) as [v1|] eqn:E1; [|discriminate]. apply parse_part_ok in E1; [|assumption]. destruct E1 as (K1 & R1).
      destruct (Z.ltb_spec 255 v1); [discriminate|].
      destruct (parse_part p2) as [v2|] eqn:E2; [|discriminate]. apply parse_part_ok in E2; [|assumption]. destruct E2 as (K2 & R2).
      destruct (Z.ltb_spec 255 v2); [discriminate|].
      destruct (parse_part p3) as [v3|] eqn:E3; [|discriminate]. apply parse_part_ok in E3; [|assumption]. destruct E3 as (K3 & R3).
      change (0 <? 0 + 1 + 1 + 1) with true in H. cbn [andb] in H. change (2 ^ (32 - (0 + 1 + 1 + 1) * 8)) with (2 ^ 8) in H.
      change (2 ^ (24 - 0 * 8)) with (2 ^ 24) in H. change (2 ^ (24 - (0 + 1) * 8)) with (2 ^ 16) in H. change (2 ^ (24 - (0 + 1 + 1) * 8)) with (2 ^ 8) in H.
      destruct (Z.leb_spec (2 ^ 8) v3); [discriminate|]. injection H as <-.
      rewrite (Z.mod_small (0 + _)) by lia. rewrite (Z.mod_small (0 + _ + _)) by lia. rewrite (Z.mod_small (0 + _ + _ + _)) by lia. rewrite Z.mod_small by lia.
      exists [p0; p1; p2; p3], [v0; v1; v2; v3]. split; [reflexivity|]. split; [repeat (apply Forall2_cons; [assumption|]); apply Forall2_nil|]. rewrite Z.add_0_l. apply a4; lia.
  - intros (parts & vs & -> & F & AD).
    assert (PN : parts <> []) by (intros ->; inversion F; subst; inversion AD).
    assert (SD : split_dot (dotted parts) = parts).
    { apply split_dotted; [exact PN|]. clear - F. induction F; constructor; auto. eapply constant_no; eassumption. }
    rewrite SD in *.
    assert (V : Forall2 (fun p v => constant 105 p v /\ 0 <= v /\ ~ In 43 p) parts vs).
    { clear - F PP. induction F; constructor; [|inversion PP; subst; auto]. split; [assumption|]. split; [eapply constant_nonneg; eassumption|]. inversion PP; assumption. }
    assert (LV : len parts = len vs) by (unfold len; f_equal; clear - F; induction F; cbn; congruence).
    assert (LE : len vs <= 4) by (inversion AD; vm_compute; discriminate). destruct (Z.ltb_spec 4 (len parts)); [lia|].
    clear F PP ND NE E SD PN LV LE NP.
    inversion AD; subst; repeat match goal with Q : Forall2 _ _ (_ :: _) |- _ => inversion Q; clear Q; subst | Q : Forall2 _ _ [] |- _ => inversion Q; clear Q; subst end;
      unfold aton_loop;
      repeat match goal with Q : constant 105 ?p ?v /\ 0 <= ?v /\ ~ In 43 ?p |- _ =>
        let X := fresh "X" in assert (X : parse_part p = Some v) by (apply parse_part_iff; [tauto|split; [tauto|unfold U32MAX; lia]]); rewrite X; clear X;
        destruct Q as (_ & Q & _) end.
    + cbn [Z.ltb Z.compare andb]. rewrite Z.mod_small by lia. reflexivity.
    + destruct (Z.ltb_spec 255 a0); [lia|]. change (0 <? 0 + 1) with true. cbn [andb]. change (2 ^ (32 - (0 + 1) * 8)) with (2 ^ 24). change (2 ^ (24 - 0 * 8)) with (2 ^ 24).
      destruct (Z.leb_spec (2 ^ 24) b); [lia|]. rewrite (Z.mod_small (0 + _)) by lia. rewrite Z.mod_small by lia. reflexivity.
    + destruct (Z.ltb_spec 255 a0); [lia|]. destruct (Z.ltb_spec 255 b); [lia|]. change (0 <? 0 + 1 + 1) with true. cbn [andb].
      change (2 ^ (32 - (0 + 1 + 1) * 8)) with (2 ^ 16). change (2 ^ (24 - 0 * 8)) with (2 ^ 24). change (2 ^ (24 - (0 + 1) * 8)) with (2 ^ 16).
      destruct (Z.leb_spec (2 ^ 16) c); [lia|]. rewrite (Z.mod_small (0 + _)) by lia. rewrite (Z.mod_small (0 + _ + _)) by lia. rewrite Z.mod_small by lia. reflexivity.
    + destruct (Z.ltb_spec 255 a0); [lia|]. destruct (Z.ltb_spec 255 b); [lia|]. destruct (Z.ltb_spec 255 c); [lia|]. change (0 <? 0 + 1 + 1 + 1) with true. cbn [andb].
      change (2 ^ (32 - (0 + 1 + 1 + 1) * 8)) with (2 ^ 8). change (2 ^ (24 - 0 * 8)) with (2 ^ 24). change (2 ^ (24 - (0 + 1) * 8)) with (2 ^ 16). change (2 ^ (24 - (0 + 1 + 1) * 8)) with (2 ^ 8).
      destruct (Z.leb_spec (2 ^ 8) d); [lia|].
      rewrite (Z.mod_small (0 + _)) by lia. rewrite (Z.mod_small (0 + _ + _)) by lia. rewrite (Z.mod_small (0 + _ + _ + _)) by lia. rewrite Z.mod_small by lia. reflexivity.
Qed.

Lemma aton_ok fuel m cp inp s : cstr m cp s -> (length s < fuel)%nat -> ~ In 43 s -> mapped m inp 4 ->
  (exists a m', denotes s a /\ inet_aton fuel m cp inp = Ok (m', 1) /\ stored m m' inp (big_endian 4 a)) \/
  ((~ exists a, denotes s a) /\ inet_aton fuel m cp inp = Ok (m, 0)).
Proof.
  intros C F P MP. unfold inet_aton. rewrite (read_str_ok s fuel m cp C F). cbn [bind].
  destruct (aton s) as [a|] eqn:E.
  - left. destruct (st32_ok m inp (swap_bytes 4 a) MP) as (m' & S1 & S2). rewrite S1. cbn [bind]. exists a, m'.
    split; [apply aton_iff; assumption|]. split; [reflexivity|]. rewrite swap_bytes_mem in S2. exact S2.
  - right. split; [|reflexivity]. intros (a & D). apply aton_iff in D; [|exact P]. congruence.
Qed.
Lemma denotes_range s a : denotes s a -> 0 <= a < 256 ^ Z.of_nat 4.
Proof.
  intros (parts & vs & _ & F & AD). assert (V : Forall (fun v => 0 <= v) vs) by (clear AD; induction F; constructor; [eapply constant_nonneg; eassumption|assumption]).
  change (256 ^ Z.of_nat 4) with (2 ^ 32). inversion AD; subst; repeat match goal with Q : Forall _ (_ :: _) |- _ => inversion Q; clear Q; subst end; lia.
Qed.
