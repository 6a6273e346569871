From Verif Require Import Base String_spec String_proofs Ctype_model Ctype_spec Ctype_proofs Strto_model Strto_spec.

Lemma digit_value_iff c v : digit_value c v <-> (lookup c = v /\ 0 <= v).
Proof.
  unfold digit_value. split.
  - assert (A : forall l, length l = 36%nat ->
      forallb (fun i => lookup (nth i l 0) =? Z.of_nat i) (seq 0 36) = true ->
      nth_error l (Z.to_nat v) = Some c /\ 0 <= v -> lookup c = v /\ 0 <= v).
    { intros l L F [H1 H2]. split; [|exact H2].
      assert (I : (Z.to_nat v < 36)%nat) by (rewrite <- L; apply nth_error_Some; congruence).
      rewrite forallb_forall in F. specialize (F (Z.to_nat v)). rewrite in_seq in F.
      specialize (F ltac:(lia)). rewrite (nth_error_nth _ _ _ H1) in F. lia. }
    intros [H|H]; revert H; apply A; vm_compute; reflexivity.
  - intros [<- H]. unfold lookup in *.
    destruct ((48 <=? c) && (c <=? 57)) eqn:E1.
    { left. split; [|lia].
      assert (D : c = 48 \/ c = 49 \/ c = 50 \/ c = 51 \/ c = 52 \/ c = 53 \/ c = 54 \/ c = 55 \/ c = 56 \/ c = 57) by lia.
      repeat (destruct D as [->|D]; [reflexivity|]). subst. reflexivity. }
    destruct ((65 <=? c) && (c <=? 90)) eqn:E2.
    { right. split; [|lia].
      pose proof (proj2 (nth_uppers (Z.to_nat (c - 65)) c) ltac:(lia)) as N.
      replace (Z.to_nat (c - 55)) with (10 + Z.to_nat (c - 65))%nat by lia. exact N. }
    destruct ((97 <=? c) && (c <=? 122)) eqn:E3; [|lia].
    left. split; [|lia].
    pose proof (proj2 (nth_lowers (Z.to_nat (c - 97)) c) ltac:(lia)) as N.
    replace (Z.to_nat (c - 87)) with (10 + Z.to_nat (c - 97))%nat by lia. exact N.
Qed.

Lemma is_digit_iff base c : is_digit base c <-> 0 <= lookup c < base.
Proof.
  unfold is_digit. split.
  - intros [v [H1 H2]]. apply digit_value_iff in H1. lia.
  - intros H. exists (lookup c). rewrite digit_value_iff. lia.
Qed.

Lemma lookup_range c : lookup c = -1 \/ 0 <= lookup c < 36.
Proof. unfold lookup. bdes; lia. Qed.

Definition acc (base : Z) (ds : list Z) (n : Z) : Z := fold_left (fun n c => n * base + lookup c) ds n.

Lemma numeral_acc base ds n : numeral base ds n -> Forall (is_digit base) ds /\ n = acc base ds 0.
Proof.
  induction 1 as [|ds n c v H [F E] D L]; [split; [constructor|reflexivity]|].
  split.
  - apply Forall_app. split; [exact F|]. constructor; [|constructor]. exists v. auto.
  - unfold acc. rewrite fold_left_app. cbn. unfold acc in E. rewrite <- E.
    apply digit_value_iff in D. destruct D as [-> _]. reflexivity.
Qed.
Lemma acc_numeral base ds : Forall (is_digit base) ds -> numeral base ds (acc base ds 0).
Proof.
  induction ds as [|c ds IH] using rev_ind; intros F; [constructor|].
  apply Forall_app in F. destruct F as [F D]. apply Forall_cons_iff in D. destruct D as [D _].
  unfold acc. rewrite fold_left_app. cbn. apply is_digit_iff in D.
  constructor; [apply IH; exact F|apply digit_value_iff; lia|lia].
Qed.
Lemma acc_ge base ds : 1 <= base -> Forall (is_digit base) ds -> forall n, 0 <= n -> n <= acc base ds n.
Proof.
  intros Hb. induction ds as [|c ds IH]; intros F n Hn; [cbn; lia|].
  apply Forall_cons_iff in F. destruct F as [D F]. apply is_digit_iff in D.
  cbn. specialize (IH F (n * base + lookup c)). unfold acc in *. nia.
Qed.

(** number seen by the loop after reading digits of exact value N *)
Definition rep (num : Z) (ov : bool) (N : Z) : Prop :=
  if ov then num = ULONG_MAX /\ ULONG_MAX < N else num = N /\ N <= ULONG_MAX.

Lemma convert_loop_ok base rest : 2 <= base -> forall ds fuel m s num idx ov N,
  bytes_at m (s + idx) (ds ++ rest) -> rest <> [] -> Forall (is_digit base) ds -> ends (is_digit base) rest ->
  (length ds < fuel)%nat -> 0 <= N -> rep num ov N ->
  exists num' ov', convert_loop fuel m s base num idx ov = Ok (num', idx + len ds, ov') /\ rep num' ov' (acc base ds N).
Proof.
  intros Hb. induction ds as [|c ds IH]; intros fuel m s num idx ov N B Hr F E Hf HN R;
    destruct fuel as [|fuel]; try (cbn in Hf; lia); cbn [convert_loop].
  - destruct rest as [|c rest]; [contradiction|]. destruct B as [B _]. rewrite (ld_ok _ _ _ B). cbn [bind].
    cbn in E. rewrite is_digit_iff in E. pose proof (lookup_range c).
    destruct ((lookup c =? -1) || (lookup c >=? base)) eqn:X; [|lia].
    exists num, ov. rewrite len_nil, Z.add_0_r. auto.
  - destruct B as [B B']. rewrite (ld_ok _ _ _ B). cbn [bind].
    apply Forall_cons_iff in F. destruct F as [D F]. apply is_digit_iff in D.
    destruct ((lookup c =? -1) || (lookup c >=? base)) eqn:X; [lia|].
    rewrite len_cons. cbn [acc fold_left].
    replace (s + idx + 1) with (s + (idx + 1)) in B' by lia.
    replace (idx + (len ds + 1)) with (idx + 1 + len ds) by lia.
    unfold rep, ULONG_MAX in *.
    destruct (Z.leb_spec (num * base + lookup c) 18446744073709551615) as [L|L].
    + destruct ov.
      { destruct R as [-> R]. nia. }
      destruct R as [-> R].
      apply (IH fuel m s (N * base + lookup c) (idx + 1) false (N * base + lookup c)); auto; [cbn in Hf; lia|nia].
    + apply (IH fuel m s 18446744073709551615 (idx + 1) true (N * base + lookup c)); auto; [cbn in Hf; lia|nia|].
      destruct ov; destruct R as [-> R]; split; nia.
Qed.

Definition conv_res (base : Z) (ds : list Z) (r : option (Z * Z * bool)) : Prop :=
  match ds with
  | [] => r = None
  | _ => exists num ov, r = Some (num, len ds, ov) /\ rep num ov (acc base ds 0)
  end.

Lemma convert_integer_ok base rest ds fuel m s : 2 <= base ->
  bytes_at m s (ds ++ rest) -> rest <> [] -> Forall (is_digit base) ds -> ends (is_digit base) rest ->
  (length ds < fuel)%nat ->
  exists r, convert_integer fuel m s base = Ok r /\ conv_res base ds r.
Proof.
  intros Hb B Hr F E Hf. unfold convert_integer.
  destruct (convert_loop_ok base rest Hb ds fuel m s 0 0 false 0) as [num [ov [Q R]]]; auto; try lia.
  - rewrite Z.add_0_r. exact B.
  - unfold rep, ULONG_MAX. lia.
  - rewrite Q. cbn [bind]. eexists. split; [reflexivity|]. unfold conv_res.
    destruct ds as [|c ds]; [reflexivity|].
    rewrite Z.add_0_l. destruct (len (c :: ds) >? 0) eqn:G; [eauto|].
    rewrite len_cons in G. pose proof (len_nonneg ds). lia.
Qed.

Lemma isspace_sx8 b : is_byte b -> negb (isspace (sx8 b) =? 0) = existsb (Z.eqb b) spaces.
Proof.
  intros H. pose proof (byte_sweep (fun b => Bool.eqb (negb (isspace (sx8 b) =? 0)) (existsb (Z.eqb b) spaces))
    ltac:(vm_compute; reflexivity) b H) as S. cbv beta in S. apply eqb_prop in S. exact S.
Qed.
Lemma isdigit_sx8 b : is_byte b -> negb (isdigit (sx8 b) =? 0) = ((48 <=? b) && (b <=? 57)).
Proof.
  intros H. pose proof (byte_sweep (fun b => Bool.eqb (negb (isdigit (sx8 b) =? 0)) ((48 <=? b) && (b <=? 57)))
    ltac:(vm_compute; reflexivity) b H) as S. cbv beta in S. apply eqb_prop in S. exact S.
Qed.

Lemma skip_space_ok rest ws : forall fuel m s idx,
  bytes_at m (s + idx) (ws ++ rest) -> Forall is_byte rest -> rest <> [] ->
  Forall (fun c => In c spaces) ws -> ends (fun c => In c spaces) rest -> (length ws < fuel)%nat ->
  skip_space fuel m s idx = Ok (idx + len ws).
Proof.
  induction ws as [|c ws IH]; intros fuel m s idx B Hb Hr F E Hf; destruct fuel as [|fuel]; try (cbn in Hf; lia);
    cbn [skip_space].
  - destruct rest as [|c rest]; [contradiction|]. destruct B as [B _]. rewrite (ld_ok _ _ _ B). cbn [bind].
    apply Forall_cons_iff in Hb. rewrite isspace_sx8 by tauto. cbn [ends] in E. rewrite in_map_bool in E.
    destruct (existsb (Z.eqb c) spaces); [congruence|]. rewrite len_nil, Z.add_0_r. reflexivity.
  - destruct B as [B B']. rewrite (ld_ok _ _ _ B). cbn [bind].
    apply Forall_cons_iff in F. destruct F as [D F].
    rewrite isspace_sx8.
    2:{ apply (not_in_letters_small spaces); [reflexivity|exact D]. }
    rewrite (proj1 (in_map_bool _ _) D).
    rewrite (IH fuel m s (idx + 1)); auto.
    + f_equal. rewrite len_cons. lia.
    + replace (s + (idx + 1)) with (s + idx + 1) by lia. exact B'.
    + cbn in Hf. lia.
Qed.

(** ** The numeral part *)
Definition core (fuel : nat) (m : mem) (num_str base : Z) : res (option (Z * Z * bool)) :=
  if base =? 0 then
    d <- detect_base m num_str ;;
    match d with
    | None => Ok None
    | Some (b, i) =>
        c <- convert_integer fuel m (num_str + i) b ;;
        Ok (match c with Some (num, k, ov) => Some (num, i + k, ov) | None => None end)
    end
  else if base =? 8 then convert_octal fuel m num_str
  else if base =? 16 then convert_hex fuel m num_str
  else convert_integer fuel m num_str base.

Definition bare_body (body : list Z) : Prop :=
  exists x t, body = 48 :: x :: t /\ (x = 120 \/ x = 88) /\ ends (is_digit 16) t.

Definition core_res (b : Z) (pfx ds : list Z) (r : option (Z * Z * bool)) : Prop :=
  match ds with
  | [] => r = None
  | _ => exists num ov, r = Some (num, len pfx + len ds, ov) /\ rep num ov (acc b ds 0)
  end.

Lemma digit_zero_first b ds rest t : 1 <= b -> ends (is_digit b) rest ->
  ds ++ rest = 48 :: t -> exists ds', ds = 48 :: ds' /\ t = ds' ++ rest.
Proof.
  intros Hb E H. destruct ds as [|c ds].
  - cbn in H. subst. cbn in E. exfalso. apply E. apply is_digit_iff. cbn. lia.
  - cbn in H. injection H as -> <-. eauto.
Qed.

Lemma acc_zero b ds : acc b (48 :: ds) 0 = acc b ds 0.
Proof. unfold acc. cbn [fold_left]. f_equal. Qed.

Lemma core_ok base fuel m a pfx ds rest b :
  base = 0 \/ 2 <= base <= 36 ->
  bytes_at m a ((pfx ++ ds ++ rest) ++ [0]) ->
  radix base (pfx ++ ds ++ rest) pfx b -> Forall (is_digit b) ds -> ends (is_digit b) rest ->
  (base = 0 \/ base = 16 -> ~ bare_body (pfx ++ ds ++ rest)) ->
  (base = 8 -> match ds with [] => True | c :: _ => c = 48 end) ->
  (length ds < fuel)%nat ->
  exists r, core fuel m a base = Ok r /\ core_res b pfx ds r.
Proof.
  intros Hbase B R F E Q16 Q8 Hf.
  assert (NE : rest ++ [0] <> []) by (destruct rest; discriminate).
  assert (E0 : forall b, ends (is_digit b) rest -> ends (is_digit b) (rest ++ [0])).
  { intros b' E'. destruct rest; [|exact E']. cbn. rewrite is_digit_iff. cbn. lia. }
  assert (Conv : forall b p d, 2 <= b -> bytes_at m p (d ++ rest ++ [0]) -> Forall (is_digit b) d ->
     ends (is_digit b) rest -> (length d < fuel)%nat ->
     exists r, convert_integer fuel m p b = Ok r /\ conv_res b d r).
  { intros b' p d H1 H2 H3 H4 H5. apply (convert_integer_ok b' (rest ++ [0]) d); auto. }
  unfold core.
  inversion R as [x t HP Hbody Hb | t NHP Hb Hbody | Hb HE | Hb NHP]; subst pfx b.
  - (* 0x *)
    destruct HP as [x' [h [t' [Hbody' [Hx Hh]]]]]. rewrite Hbody' in Hbody. injection Hbody as -> Ht.
    cbn [app] in Hbody'. injection Hbody' as Hbody'.
    assert (Dn : ds <> []).
    { intros ->. cbn in Hbody'. subst rest. cbn in E. contradiction. }
    cbn [app] in B. destruct B as [B0 [B1 B2]]. rewrite <- app_assoc in B2.
    replace (a + 1 + 1) with (a + 2) in B2 by lia.
    destruct (Conv 16 (a + 2) ds) as [r [Er Cr]]; auto; try lia.
    destruct ds as [|d0 ds0]; [contradiction|]. destruct Cr as [num [ov [-> Rp]]].
    destruct Hb as [->| ->]; cbn [Z.eqb].
    + unfold detect_base. rewrite (ld_ok _ _ _ B0). cbn [bind Z.eqb Pos.eqb]. rewrite (ld_ok _ _ _ B1). cbn [bind].
      destruct ((x =? 88) || (x =? 120)) eqn:X; [|lia]. rewrite Er. cbn [bind].
      eexists. split; [reflexivity|]. cbn. exists num, ov. split; [|exact Rp]. reflexivity.
    + cbn [Pos.eqb]. unfold convert_hex. rewrite (ld_ok _ _ _ B0). cbn [bind Z.eqb Pos.eqb]. rewrite (ld_ok _ _ _ B1). cbn [bind].
      destruct ((x =? 120) || (x =? 88)) eqn:X; [|lia]. rewrite Er. cbn [bind].
      eexists. split; [reflexivity|]. cbn. exists num, ov. split; [|exact Rp].
      do 3 f_equal. change (len [48; x]) with 2. lia.
  - (* leading zero, base 0 *)
    subst base. cbn [Z.eqb]. cbn [app] in *.
    destruct (digit_zero_first 8 ds rest t ltac:(lia) E Hbody) as [ds' [-> ->]].
    rewrite <- app_assoc in B. cbn [app] in B. destruct B as [B0 B1].
    unfold detect_base. rewrite (ld_ok _ _ _ B0). cbn [bind Z.eqb Pos.eqb].
    apply Forall_cons_iff in F. destruct F as [_ F'].
    assert (exists c t', ds' ++ rest ++ [0] = c :: t') as [c [t' Ec]].
    { destruct ds'; cbn; [destruct rest; cbn; eauto|eauto]. }
    assert (Bc : m (a + 1) = Some c) by (rewrite Ec in B1; destruct B1 as [B1 _]; exact B1).
    rewrite (ld_ok _ _ _ Bc). cbn [bind].
    assert (Nx : ~ (c = 120 \/ c = 88)).
    { intros Hx. destruct ds' as [|c' ds'].
      - destruct rest as [|c' rest]; cbn in Ec; symmetry in Ec; injection Ec as -> ->; [lia|].
        assert (G : ends (is_digit 16) rest \/ exists h t, rest = h :: t /\ is_digit 16 h).
        { destruct rest as [|h t]; [left; exact I|]. cbn. 
          assert (D : is_digit 16 h \/ ~ is_digit 16 h) by (rewrite is_digit_iff; lia).
          destruct D; eauto. }
        destruct G as [G|[h [t [-> G]]]].
        + apply (Q16 (or_introl eq_refl)). exists c', rest. auto.
        + apply NHP. exists c', h, t. auto.
      - cbn in Ec. symmetry in Ec; injection Ec as -> ->. apply Forall_cons_iff in F'. destruct F' as [F' _].
        apply is_digit_iff in F'. destruct Hx as [->| ->]; cbn in F'; lia. }
    destruct ((c =? 88) || (c =? 120)) eqn:X; [lia|]. clear X.
    destruct ((48 <=? c) && (c <=? 55)) eqn:O.
    + destruct ds' as [|c' ds'].
      { exfalso. destruct rest as [|c' rest]; cbn in Ec; symmetry in Ec; injection Ec as -> ->; [lia|].
        cbn in E. rewrite is_digit_iff in E. apply E. unfold lookup. bdes; lia. }
      destruct (Conv 8 (a + 1) (c' :: ds')) as [r [Er Cr]]; auto; try lia; [cbn in *; lia|].
      rewrite Er. cbn [bind]. destruct Cr as [num [ov [-> Rp]]].
      eexists. split; [reflexivity|]. cbn [core_res]. exists num, ov. rewrite acc_zero. split; [|exact Rp].
      do 3 f_equal. rewrite (len_cons 48). change (@len Z []) with 0. lia.
    + rewrite Z.add_0_r. destruct (Conv 8 a (48 :: ds')) as [r [Er Cr]]; auto; try lia.
      * cbn. auto.
      * constructor; [apply is_digit_iff; cbn; lia|exact F'].
      * rewrite Er. cbn [bind]. destruct Cr as [num [ov [-> Rp]]].
        eexists. split; [reflexivity|]. cbn [core_res]. exists num, ov. auto.
  - (* base 0, decimal *)
    subst base. cbn [Z.eqb]. cbn [app] in *. rewrite <- app_assoc in B.
    destruct (Conv 10 a ds) as [r [Er Cr]]; auto; try lia.
    unfold detect_base.
    assert (exists c t', ds ++ rest ++ [0] = c :: t') as [c [t' Ec]].
    { destruct ds; cbn; [destruct rest; cbn; eauto|eauto]. }
    assert (Bc : m a = Some c) by (rewrite Ec in B; destruct B as [B _]; exact B).
    rewrite (ld_ok _ _ _ Bc). cbn [bind].
    destruct (Z.eqb_spec c 0) as [->|N0].
    + exists None. split; [reflexivity|]. destruct ds as [|c ds]; [reflexivity|]. cbn in Ec. injection Ec as -> _.
      apply Forall_cons_iff in F. destruct F as [F _]. apply is_digit_iff in F. cbn in F. lia.
    + destruct (Z.eqb_spec c 48) as [->|N48].
      { exfalso. destruct ds as [|c ds]; [destruct rest as [|c rest]|]; cbn in Ec, HE; injection Ec as Ec _; lia. }
      cbn [bind]. rewrite Z.add_0_r, Er. cbn [bind]. eexists. split; [reflexivity|].
      destruct ds as [|c0 ds]; cbn [conv_res core_res] in *; [rewrite Cr; reflexivity|].
      destruct Cr as [num [ov [-> Rp]]]. exists num, ov. auto.
  - (* explicit base *)
    cbn [app] in *. rewrite <- app_assoc in B.
    destruct (Z.eqb_spec base 0) as [|_]; [contradiction|].
    destruct (Conv base a ds) as [r [Er Cr]]; auto; try lia.
    assert (Plain : exists r, convert_integer fuel m a base = Ok r /\ core_res base [] ds r).
    { exists r. split; [exact Er|]. destruct ds; exact Cr. }
    destruct (Z.eqb_spec base 8) as [->|N8].
    + unfold convert_octal.
      destruct ds as [|c ds].
      * cbn [app] in B.
        assert (exists c t', rest ++ [0] = c :: t') as [c [t' Ec]] by (destruct rest; cbn; eauto).
        assert (Bc : m a = Some c) by (rewrite Ec in B; destruct B as [B _]; exact B).
        rewrite (ld_ok _ _ _ Bc). cbn [bind].
        destruct (Z.eqb_spec c 48) as [->|N48].
        -- exfalso. destruct rest as [|c rest]; cbn in Ec; injection Ec as Ec _; [lia|subst c].
           cbn in E. apply E, is_digit_iff. cbn. lia.
        -- rewrite andb_false_r. exists None. split; reflexivity.
      * specialize (Q8 eq_refl). cbn in Q8. subst c. cbn [app] in B. destruct B as [B0 B1].
        rewrite (ld_ok _ _ _ B0). cbn [bind Z.eqb negb andb Pos.eqb].
        apply Forall_cons_iff in F. destruct F as [_ F].
        destruct (Conv 8 (a + 1) ds) as [r' [Er' Cr']]; auto; try lia; [cbn in Hf; lia|].
        rewrite Er'. cbn [bind]. eexists. split; [reflexivity|]. cbn [core_res].
        destruct ds as [|c ds].
        -- rewrite Cr'. exists 0, false. split; [reflexivity|]. cbn. unfold ULONG_MAX. lia.
        -- destruct Cr' as [num [ov [-> Rp]]]. exists num, ov. rewrite acc_zero. split; [|exact Rp].
           do 3 f_equal. rewrite (len_cons 48). change (@len Z []) with 0. lia.
    + destruct (Z.eqb_spec base 16) as [->|N16]; [|exact Plain].
      unfold convert_hex.
      assert (exists c t', ds ++ rest ++ [0] = c :: t') as [c [t' Ec]].
      { destruct ds; cbn; [destruct rest; cbn; eauto|eauto]. }
      assert (Bc : m a = Some c) by (rewrite Ec in B; destruct B as [B' _]; exact B').
      rewrite (ld_ok _ _ _ Bc). cbn [bind].
      destruct (Z.eqb_spec c 48) as [->|N48]; [|exact Plain].
      assert (exists ds', ds = 48 :: ds') as [ds' ->].
      { destruct ds as [|c ds]; [|cbn in Ec; injection Ec as -> _; eauto].
        destruct rest as [|c rest]; cbn in Ec; injection Ec as Ec _; [lia|subst c].
        exfalso. cbn in E. apply E, is_digit_iff. cbn. lia. }
      cbn [app] in Ec. injection Ec as Ec.
      assert (exists d t'', t' = d :: t'') as [d [t'' ->]].
      { subst t'. destruct ds'; cbn; [destruct rest; cbn; eauto|eauto]. }
      assert (Bd : m (a + 1) = Some d). { cbn [app] in B. rewrite Ec in B. destruct B as [_ [B' _]]. exact B'. }
      rewrite (ld_ok _ _ _ Bd). cbn [bind].
      destruct ((d =? 120) || (d =? 88)) eqn:X; [|exact Plain]. exfalso.
      destruct ds' as [|d' ds'].
      * destruct rest as [|d' rest]; cbn in Ec; symmetry in Ec; injection Ec as -> ->; [lia|].
        assert (G : ends (is_digit 16) rest \/ exists h t, rest = h :: t /\ is_digit 16 h).
        { destruct rest as [|h t]; [left; exact I|]. cbn.
          assert (D : is_digit 16 h \/ ~ is_digit 16 h) by (rewrite is_digit_iff; lia).
          destruct D; eauto. }
        destruct G as [G|[h [t [-> G]]]].
        -- apply (Q16 (or_intror eq_refl)). exists d', rest. split; [reflexivity|]. split; [lia|exact G].
        -- apply NHP. split; [reflexivity|]. exists d', h, t. split; [reflexivity|]. split; [lia|exact G].
      * cbn in Ec. symmetry in Ec; injection Ec as -> _. apply Forall_cons_iff in F. destruct F as [_ F].
        apply Forall_cons_iff in F. destruct F as [F _]. apply is_digit_iff in F.
        unfold lookup in F. revert F. bdes; lia.
Qed.

Definition valid_base (base : Z) : Prop := base = 0 \/ 2 <= base <= 36.

Definition finish (cast : Z -> Z) (cs : bool) (maxv minv : Z) (neg : bool) (num : Z) (ov : bool) (e : Z) : strto_out :=
  if (if cs then ov || (to_i64 num <? 0) else ov)
  then {| value := if cs then (if neg then minv else maxv) else maxv; endp := e; err := Some ERANGE |}
  else {| value := if neg then cast (- cast num) else cast num; endp := e; err := None |}.

Lemma strto_impl_ok cast cs maxv minv fuel m s base text neg n used ds :
  valid_base base -> cstr m s text -> (length text < fuel)%nat ->
  subject base text neg n used ds ->
  (base = 0 \/ base = 16 -> ~ bare_0x text) ->
  (base = 8 -> match ds with [] => True | c :: _ => c = 48 end) ->
  match ds with
  | [] => strto_impl cast cs maxv minv fuel m s base = Ok {| value := 0; endp := s; err := Some EINVAL |}
  | _ => exists num ov, rep num ov n /\
      strto_impl cast cs maxv minv fuel m s base = Ok (finish cast cs maxv minv neg num ov (s + used))
  end.
Proof.
  intros Hv Hs Hf [Sub] Q16 Q8.
  destruct Sub as [ws [sg [pfx [rest [b [-> [Fw [Ew [Sg [Es [Rx [Nm [Er ->]]]]]]]]]]]]].
  destruct (numeral_acc _ _ _ Nm) as [Fd ->].
  assert (Chars : Forall is_byte ((sg ++ pfx ++ ds ++ rest) ++ [0])).
  { destruct Hs as [Hc _]. apply Forall_app in Hc. destruct Hc as [_ Hc].
    apply Forall_app. split; [|repeat constructor; unfold is_byte; lia].
    eapply Forall_impl; [|exact Hc]. unfold is_byte, is_char. intros; lia. }
  destruct Hs as [Hc B]. rewrite <- app_assoc in B. pose proof B as B'. apply bytes_at_app in B'. destruct B' as [_ B'].
  rewrite !app_length in Hf.
  assert (SK : skip_space fuel m s 0 = Ok (len ws)).
  { rewrite (skip_space_ok ((sg ++ pfx ++ ds ++ rest) ++ [0]) ws); auto; try lia.
    - rewrite Z.add_0_r. exact B.
    - destruct (sg ++ pfx ++ ds ++ rest); discriminate.
    - destruct (sg ++ pfx ++ ds ++ rest); [cbn; intuition lia|exact Ew]. }
  rewrite <- app_assoc in B'. apply bytes_at_app in B'. destruct B' as [Bsg Bbody].
  destruct (core_ok base fuel m (s + len ws + len sg) pfx ds rest b Hv Bbody Rx Fd Er) as [r [Ec Cr]]; auto; try lia.
  { intros H [x [t [Hb' [Hx Ht]]]]. apply (Q16 H). exists ws, sg, neg, x, t. rewrite Hb'. auto 6. }
  (* the character deciding the sign *)
  assert (CH : exists ch, ld m (s + len ws) = Ok ch /\
     (is_positive ch = Some (negb neg, len sg) \/ is_positive ch = None /\ ds = [])).
  { destruct Sg.
    - assert (exists c t', (pfx ++ ds ++ rest) ++ [0] = c :: t') as [c [t' Eq]].
      { destruct (pfx ++ ds ++ rest); cbn; eauto. }
      rewrite len_nil, Z.add_0_r, Eq in Bbody. destruct Bbody as [Bc _].
      exists c. split; [apply ld_ok; exact Bc|]. unfold is_positive.
      specialize (Es eq_refl). destruct (pfx ++ ds ++ rest) as [|c' t''] eqn:Ebody.
      + cbn in Eq. injection Eq as <- _. right. split; [reflexivity|].
        apply app_eq_nil in Ebody. destruct Ebody as [_ Eb]. apply app_eq_nil in Eb. tauto.
      + cbn in Eq. injection Eq as <- _. cbn in Es. left.
        assert (c' <> 0).
        { apply Forall_app in Hc. destruct Hc as [_ Hc]. cbn [app] in Hc. try rewrite Ebody in Hc.
          apply Forall_cons_iff in Hc. unfold is_char in Hc. lia. }
        destruct (Z.eqb_spec c' 0); [contradiction|]. destruct (Z.eqb_spec c' 43); [tauto|].
        destruct (Z.eqb_spec c' 45); [tauto|]. reflexivity.
    - destruct Bsg as [Bsg _]. exists 43. split; [apply ld_ok; exact Bsg|]. left. reflexivity.
    - destruct Bsg as [Bsg _]. exists 45. split; [apply ld_ok; exact Bsg|]. left. reflexivity. }
  destruct CH as [ch [Lch Pch]].
  assert (RUN : strto_impl cast cs maxv minv fuel m s base =
    match is_positive ch with
    | None => Ok {| value := 0; endp := s; err := Some EINVAL |}
    | Some (positive, i0) =>
       r <- core fuel m (s + (len ws + i0)) base ;;
       match r with
        | None => Ok {| value := 0; endp := s; err := Some EINVAL |}
        | Some (num, i, ov) => Ok (finish cast cs maxv minv (negb positive) num ov (s + (len ws + i0 + i)))
       end
    end).
  { unfold strto_impl. unfold valid_base in Hv.
    destruct (negb (base =? 0) && negb ((2 <=? base) && (base <=? 36))) eqn:G; [lia|].
    rewrite SK. cbn [bind]. rewrite Lch. cbn [bind].
    destruct (is_positive ch) as [[positive i0]|]; [|reflexivity].
    unfold core, finish.
    match goal with |- bind ?x _ = bind ?x _ => destruct x as [[[[num i] ov]|]| | |]; cbn [bind]; try reflexivity end.
    destruct cs, positive, (ov || (to_i64 num <? 0)); try reflexivity;
    destruct ov; reflexivity. }
  rewrite RUN. destruct Pch as [Pch|[Pch ->]]; [|rewrite Pch; reflexivity].
  rewrite Pch. replace (s + (len ws + len sg)) with (s + len ws + len sg) by lia. rewrite Ec. cbn [bind].
  destruct ds as [|c ds]; cbn [core_res] in Cr.
  - rewrite Cr. reflexivity.
  - destruct Cr as [num [ov [-> Rp]]]. exists num, ov. split; [exact Rp|]. rewrite negb_involutive.
    replace (s + (len ws + len sg + (len pfx + len (c :: ds)))) with (s + (len ws + len sg + len pfx + len (c :: ds))) by lia.
    reflexivity.
Qed.

Lemma to_i64_id v : LONG_MIN <= v <= LONG_MAX -> to_i64 v = v.
Proof.
  unfold to_i64, LONG_MIN, LONG_MAX. intros H. change (2 ^ 63) with 9223372036854775808.
  change (2 ^ 64) with 18446744073709551616. rewrite Z.mod_small by lia. lia.
Qed.
Lemma to_i64_neg v : 0 <= v <= ULONG_MAX -> (to_i64 v <? 0) = (LONG_MAX <? v).
Proof.
  unfold to_i64, ULONG_MAX, LONG_MAX. intros H. change (2 ^ 63) with 9223372036854775808.
  change (2 ^ 64) with 18446744073709551616.
  destruct (Z_lt_dec 9223372036854775807 v).
  - replace (v + 9223372036854775808) with (v - 9223372036854775808 + 1 * 18446744073709551616) by lia.
    rewrite Z_mod_plus_full, Z.mod_small by lia. lia.
  - rewrite Z.mod_small by lia. lia.
Qed.

Lemma subject_nonneg base text neg n used ds : valid_base base -> subject base text neg n used ds -> 0 <= n.
Proof.
  intros Hv [[ws [sg [pfx [rest [b [_ [_ [_ [_ [_ [Rx [Nm _]]]]]]]]]]]]].
  destruct (numeral_acc _ _ _ Nm) as [F ->]. apply acc_ge; [|exact F|lia].
  inversion Rx; subst; unfold valid_base in Hv; lia.
Qed.

(** Clauses under which the code departs from the standard. *)
Definition no_quirk (base : Z) (text ds : list Z) : Prop :=
  (base = 0 \/ base = 16 -> ~ bare_0x text) /\
  (base = 8 -> match ds with [] => True | c :: _ => c = 48 end).

Lemma strtol_ok fuel m s base text neg n used ds :
  valid_base base -> cstr m s text -> (length text < fuel)%nat ->
  subject base text neg n used ds -> ds <> [] -> no_quirk base text ds ->
  ~ (neg = true /\ n = 2 ^ 63) ->
  strtol fuel m s base =
    Ok {| value := fst (signed_result (- 2 ^ 63) (2 ^ 63 - 1) neg n); endp := s + used;
          err := snd (signed_result (- 2 ^ 63) (2 ^ 63 - 1) neg n) |}.
Proof.
  intros Hv Hs Hf Sub Hd [Q1 Q2] Hmin.
  pose proof (strto_impl_ok to_i64 true LONG_MAX LONG_MIN fuel m s base text neg n used ds Hv Hs Hf Sub Q1 Q2) as H.
  destruct ds as [|c ds]; [contradiction|]. destruct H as [num [ov [R H]]]. unfold strtol. rewrite H. clear H.
  pose proof (subject_nonneg _ _ _ _ _ _ Hv Sub) as N0.
  unfold finish, signed_result. change (2 ^ 63) with 9223372036854775808 in *.
  change (- (9223372036854775808)) with (-9223372036854775808).
  change (9223372036854775808 - 1) with 9223372036854775807.
  assert (C : (ov || (to_i64 num <? 0)) = (LONG_MAX <? n)).
  { unfold rep in R. destruct ov; destruct R as [-> R]; cbn [orb].
    - unfold ULONG_MAX, LONG_MAX in *. lia.
    - apply to_i64_neg. lia. }
  rewrite C. unfold LONG_MAX, LONG_MIN, ERANGE in *.
  destruct (Z.ltb_spec 9223372036854775807 n) as [L|L].
  - destruct neg; cbn [fst snd].
    + destruct (Z.ltb_spec (- n) (-9223372036854775808)); [reflexivity|]. exfalso. apply Hmin. split; [reflexivity|lia].
    + destruct (Z.ltb_spec n (-9223372036854775808)); [lia|].
      destruct (Z.ltb_spec 9223372036854775807 n); [reflexivity|lia].
  - unfold rep in R. destruct ov; destruct R as [-> R]; [unfold ULONG_MAX in *; lia|].
    rewrite (to_i64_id n) by (unfold LONG_MIN, LONG_MAX; lia).
    destruct neg.
    + rewrite to_i64_id by (unfold LONG_MIN, LONG_MAX; lia).
      destruct (Z.ltb_spec (- n) (-9223372036854775808)); [lia|].
      destruct (Z.ltb_spec 9223372036854775807 (- n)); [lia|reflexivity].
    + destruct (Z.ltb_spec n (-9223372036854775808)); [lia|].
      destruct (Z.ltb_spec 9223372036854775807 n); [lia|reflexivity].
Qed.

Lemma strtoul_ok fuel m s base text neg n used ds :
  valid_base base -> cstr m s text -> (length text < fuel)%nat ->
  subject base text neg n used ds -> ds <> [] -> no_quirk base text ds ->
  strtoul fuel m s base =
    Ok {| value := fst (unsigned_result neg n); endp := s + used; err := snd (unsigned_result neg n) |}.
Proof.
  intros Hv Hs Hf Sub Hd [Q1 Q2].
  pose proof (strto_impl_ok to_u64 false ULONG_MAX 0 fuel m s base text neg n used ds Hv Hs Hf Sub Q1 Q2) as H.
  destruct ds as [|c ds]; [contradiction|]. destruct H as [num [ov [R H]]]. unfold strtoul. rewrite H. clear H.
  pose proof (subject_nonneg _ _ _ _ _ _ Hv Sub) as N0.
  unfold finish, unsigned_result, rep, ULONG_MAX, ERANGE, to_u64 in *. change (2 ^ 64) with 18446744073709551616 in *.
  change (18446744073709551616 - 1) with 18446744073709551615.
  destruct ov; destruct R as [-> R]; destruct (Z.ltb_spec 18446744073709551615 n); try lia; cbn [fst snd].
  - reflexivity.
  - destruct neg; rewrite !(Z.mod_small n) by lia; reflexivity.
Qed.

Lemma strto_none_ok cast cs maxv minv fuel m s base text neg n used :
  valid_base base -> cstr m s text -> (length text < fuel)%nat ->
  subject base text neg n used [] -> (base = 0 \/ base = 16 -> ~ bare_0x text) ->
  strto_impl cast cs maxv minv fuel m s base = Ok {| value := 0; endp := s; err := Some EINVAL |}.
Proof.
  intros Hv Hs Hf Sub Q.
  exact (strto_impl_ok cast cs maxv minv fuel m s base text neg n used [] Hv Hs Hf Sub Q (fun _ => I)).
Qed.

Lemma strto_badbase cast cs maxv minv fuel m s base :
  ~ valid_base base ->
  strto_impl cast cs maxv minv fuel m s base = Ok {| value := 0; endp := s; err := Some EINVAL |}.
Proof.
  intros Hv. unfold strto_impl, valid_base in *.
  destruct (negb (base =? 0) && negb ((2 <=? base) && (base <=? 36))) eqn:G; [reflexivity|lia].
Qed.

(** ** every text has a subject *)
Lemma split_prefix (P : Z -> Prop) (dec : forall c, {P c} + {~ P c}) (l : list Z) :
  exists a b, l = a ++ b /\ Forall P a /\ ends P b.
Proof.
  induction l as [|c l [a [b [-> [F E]]]]].
  - exists [], []. repeat constructor.
  - destruct (dec c) as [D|D].
    + exists (c :: a), b. split; [reflexivity|]. split; [constructor; assumption|exact E].
    + exists [], (c :: a ++ b). split; [reflexivity|]. split; [constructor|exact D].
Qed.
Lemma is_digit_dec b c : {is_digit b c} + {~ is_digit b c}.
Proof.
  destruct (Z_le_dec 0 (lookup c)); [destruct (Z_lt_dec (lookup c) b)|];
    [left|right|right]; rewrite is_digit_iff; lia.
Defined.

Lemma hex_prefixed_dec body : hex_prefixed body \/ ~ hex_prefixed body.
Proof.
  destruct body as [|z [|x [|h t]]]; try (right; intros [x' [h' [t' [E _]]]]; discriminate).
  destruct (Z.eq_dec z 48) as [->|N]; [|right; intros [x' [h' [t' [E _]]]]; congruence].
  destruct (Z.eq_dec x 120), (Z.eq_dec x 88), (is_digit_dec 16 h);
    try (left; exists x, h, t; auto; fail);
    right; intros [x' [h' [t' [E [Hx Hh]]]]]; injection E as <- <- <-; tauto.
Qed.

Lemma subject_total base text : valid_base base -> exists neg n used ds, subject base text neg n used ds.
Proof.
  intros Hv.
  destruct (split_prefix (fun c => In c spaces) (fun c => in_dec Z.eq_dec c spaces) text) as [ws [t1 [-> [Fw Ew]]]].
  assert (exists sg neg t2, t1 = sg ++ t2 /\ sign sg neg /\ (sg = [] -> ends (fun c => c = 43 \/ c = 45) t2)) as [sg [neg [t2 [-> [Sg Es]]]]].
  { destruct t1 as [|c t1]; [exists [], false, []; repeat constructor|].
    destruct (Z.eq_dec c 43) as [->|]; [exists [43], false, t1; repeat constructor; discriminate|].
    destruct (Z.eq_dec c 45) as [->|]; [exists [45], true, t1; repeat constructor; discriminate|].
    exists [], false, (c :: t1). split; [reflexivity|]. split; [constructor|]. intros _. cbn. tauto. }
  assert (exists pfx b t3, t2 = pfx ++ t3 /\ radix base t2 pfx b) as [pfx [b [t3 [E3 Rx]]]].
  { destruct (hex_prefixed_dec t2) as [H|H].
    - destruct (Z.eq_dec base 0), (Z.eq_dec base 16).
      3:{ pose proof H as [x [h [t [-> _]]]]. exists [48; x], 16, (h :: t). split; [reflexivity|]. eapply radix_hex; eauto. }
      + pose proof H as [x [h [t [-> _]]]]. exists [48; x], 16, (h :: t). split; [reflexivity|]. eapply radix_hex; eauto.
      + pose proof H as [x [h [t [-> _]]]]. exists [48; x], 16, (h :: t). split; [reflexivity|]. eapply radix_hex; eauto.
      + exists [], base, t2. split; [reflexivity|]. apply radix_plain; [assumption|tauto].
    - destruct (Z.eq_dec base 0) as [->|].
      + destruct t2 as [|c t2]; [exists [], 10, []; split; [reflexivity|]; apply radix_auto10; [reflexivity|exact I]|].
        destruct (Z.eq_dec c 48) as [->|].
        * exists [], 8, (48 :: t2). split; [reflexivity|]. eapply radix_auto8; eauto.
        * exists [], 10, (c :: t2). split; [reflexivity|]. apply radix_auto10; [reflexivity|exact n].
      + exists [], base, t2. split; [reflexivity|]. apply radix_plain; [assumption|tauto]. }
  destruct (split_prefix (is_digit b) (is_digit_dec b) t3) as [ds [rest [-> [Fd Ed]]]]. subst t2.
  exists neg, (acc b ds 0), (len ws + len sg + len pfx + len ds), ds. constructor.
  exists ws, sg, pfx, rest, b. do 7 (split; [first [assumption|reflexivity|apply acc_numeral; assumption]|]).
  split; [exact Ed|reflexivity].
Qed.

Lemma strtoimax_ok fuel m s base text neg n used ds :
  valid_base base -> cstr m s text -> (length text < fuel)%nat ->
  subject base text neg n used ds -> ds <> [] -> no_quirk base text ds -> n < 2 ^ 63 ->
  strtoimax fuel m s base =
    Ok {| value := if neg then - n else n; endp := s + used; err := None |}.
Proof.
  intros Hv Hs Hf Sub Hd [Q1 Q2] Hn.
  pose proof (strto_impl_ok to_i64 false LONG_MAX LONG_MIN fuel m s base text neg n used ds Hv Hs Hf Sub Q1 Q2) as H.
  destruct ds as [|c ds]; [contradiction|]. destruct H as [num [ov [R H]]]. unfold strtoimax. rewrite H. clear H.
  pose proof (subject_nonneg _ _ _ _ _ _ Hv Sub) as N0.
  unfold finish, rep, to_i64, ULONG_MAX in *. change (2 ^ 64) with 18446744073709551616 in *. change (2 ^ 63) with 9223372036854775808 in *.
  destruct ov; destruct R as [-> R]; [lia|].
  rewrite (Z.mod_small (n + 9223372036854775808)) by lia.
  replace (n + 9223372036854775808 - 9223372036854775808) with n by lia.
  destruct neg; [|reflexivity]. rewrite Z.mod_small by lia. do 2 f_equal. lia.
Qed.
