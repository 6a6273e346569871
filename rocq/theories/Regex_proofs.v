From Coq Require Import String.
From Verif Require Import Base Sort_model Sort_proofs Ctype_spec Regex_model.
Open Scope string_scope.
Open Scope list_scope.
Open Scope Z_scope.

(* a bit of a combination of flags *)
Lemma has_bit flags k : 0 <= k -> has flags (2 ^ k) = Z.testbit flags k.
Proof.
  intros K. unfold has. destruct (Z.testbit flags k) eqn:T.
  - apply Z.eqb_eq. apply Z.bits_inj'. intros n N. rewrite Z.land_spec, Z.pow2_bits_eqb by assumption. destruct (Z.eqb_spec k n); [subst; rewrite T; reflexivity|apply andb_false_r].
  - apply Z.eqb_neq. intros X. assert (Y : Z.testbit (Z.land flags (2 ^ k)) k = Z.testbit (2 ^ k) k) by (rewrite X; reflexivity).
    rewrite Z.land_spec, T, Z.pow2_bits_true in Y by assumption. discriminate.
Qed.

Lemma fill_spec first n : forall pm i j, 0 <= i -> fill pm i n first j =
  if (i <=? j) && (j <? i + Z.of_nat n) then match nth (Z.to_nat j) first None with Some p => p | None => (NONE, NONE) end else pm j.
Proof.
  induction n as [|n IH]; intros pm i j I0; cbn [fill].
  - destruct (Z.leb_spec i j), (Z.ltb_spec j (i + Z.of_nat 0)); cbn [andb]; try reflexivity; lia.
  - rewrite IH by lia. destruct (Z.eqb_spec j i) as [->|J].
    + destruct (Z.leb_spec (i + 1) i); [lia|]. cbn [andb]. destruct (Z.leb_spec i i); [|lia]. destruct (Z.ltb_spec i (i + Z.of_nat (S n))); [|lia]. reflexivity.
    + destruct (Z.leb_spec (i + 1) j), (Z.leb_spec i j); try lia; cbn [andb]; [|reflexivity].
      destruct (Z.ltb_spec j (i + 1 + Z.of_nat n)), (Z.ltb_spec j (i + Z.of_nat (S n))); try lia; reflexivity.
Qed.

(* flags as sets of bits: compile flags 0-3, execution flags 4-5 *)
Definition compile_flags (f : Z) : Prop := forall k, 4 <= k -> Z.testbit f k = false.
Definition exec_flags (f : Z) : Prop := forall k, 0 <= k < 4 -> Z.testbit f k = false.

Theorem regexec_ok (e : engine) pat cf ef r input nmatch pm : compile_flags cf -> exec_flags ef -> 0 <= nmatch -> regcomp e pat cf = inl r ->
  exists t, compile e pat (Z.testbit cf 0) = inl t /\ re_nsub r = groups e t /\
    match matches e t (Z.testbit cf 1) (Z.testbit cf 3) (Z.testbit ef 4) (Z.testbit ef 5) input with
    | None => regexec r input nmatch false pm ef = (pm, 1)
    | Some first => exists pm', regexec r input nmatch false pm ef = (pm', 0) /\
        forall i, (0 <= i < nmatch -> pm' i = match nth_error first (Z.to_nat i) with Some (Some p) => p | _ => (NONE, NONE) end) /\
          (~ 0 <= i < nmatch -> pm' i = pm i)
    end.
Proof.
  intros C X N E. unfold regcomp in E. change REG_EXTENDED with (2 ^ 0) in E. rewrite has_bit in E by lia.
  destruct (compile e pat (Z.testbit cf 0)) as [t|] eqn:T; [|discriminate]. exists t. split; [reflexivity|]. injection E as <-. split; [reflexivity|].
  unfold regexec. cbn [ptr cflags]. change REG_ICASE with (2 ^ 1). change REG_NEWLINE with (2 ^ 3). change REG_NOTBOL with (2 ^ 4). change REG_NOTEOL with (2 ^ 5). change REG_NOSUB with (2 ^ 2).
  rewrite !has_bit by lia. rewrite !Z.lor_spec.
  rewrite (X 1), (X 2), (X 3), (C 4), (C 5) by lia. rewrite !orb_false_r, !orb_false_l.
  destruct (matches e t _ _ _ _ input) as [first|]; [|reflexivity].
  eexists. split; [reflexivity|]. intros i. cbn [negb andb].
  assert (ND : match nth (Z.to_nat i) first None with Some p => p | None => (NONE, NONE) end = match nth_error first (Z.to_nat i) with Some (Some p) => p | _ => (NONE, NONE) end).
  { destruct (nth_error first (Z.to_nat i)) as [o|] eqn:O.
    - rewrite (nth_error_nth _ _ _ O). reflexivity.
    - apply nth_error_None in O. rewrite nth_overflow by lia. reflexivity. }
  destruct (Z.ltb_spec 0 nmatch).
  - rewrite fill_spec by lia. rewrite Z2Nat.id by lia. rewrite Z.add_0_l. split; intros R0.
    + destruct (Z.leb_spec 0 i), (Z.ltb_spec i nmatch); try lia. exact ND.
    + destruct (Z.leb_spec 0 i), (Z.ltb_spec i nmatch); try lia; reflexivity.
  - split; [lia|reflexivity].
Qed.

Theorem regexec_null (e : engine) (r : regex_t e) input nmatch pm ef : fst (regexec r input nmatch true pm ef) = pm.
Proof. unfold regexec. cbn [negb]. rewrite andb_false_r. destruct (matches _ _ _ _ _ _ _); reflexivity. Qed.

Theorem regerror_ok m c out max : 0 <= max -> mapped m out max ->
  exists m', regerror m c out max = Ok (m', len (message c)) /\ stored m m' out (firstn (Z.to_nat max) (message c)).
Proof.
  intros M MP. unfold regerror. cbv zeta.
  assert (F : firstn (Z.to_nat (Z.min (len (message c)) max)) (message c) = firstn (Z.to_nat max) (message c)).
  { destruct (Z.min_spec (len (message c)) max) as [(A & ->)|(A & ->)]; [|reflexivity]. unfold len in *. rewrite !firstn_all2 by lia. reflexivity. }
  rewrite F. destruct (st_bytes_ok (firstn (Z.to_nat max) (message c)) m out) as (m' & E & S0).
  - intros x Hx. apply MP. unfold len in Hx. rewrite firstn_length in Hx. lia.
  - exists m'. rewrite E. split; [reflexivity|exact S0].
Qed.

Definition text (c : Z) : list Z := removelast (message c).
Lemma message_text c : message c = text c ++ [0] /\ Forall is_char (text c).
Proof.
  assert (D : message c = message 15 \/ exists k, (k < 15)%nat /\ message c = message (Z.of_nat k)).
  { destruct (Z_lt_dec c 0); [left; destruct c; try lia; reflexivity|]. destruct (Z_lt_dec c 15).
    - right. exists (Z.to_nat c). split; [lia|]. rewrite Z2Nat.id by lia. reflexivity.
    - left. destruct c as [|c|c]; try lia. do 4 (try (destruct c as [c|c|]; try reflexivity; try lia)). }
  unfold text. destruct D as [D|(k & K & D)]; rewrite D.
  - vm_compute. split; [reflexivity|repeat constructor; discriminate].
  - do 15 (destruct k as [|k]; [vm_compute; split; [reflexivity|repeat constructor; discriminate]|]). lia.
Qed.
Theorem messages_differ c d : 0 <= c <= 14 -> 0 <= d <= 14 -> message c = message d -> c = d.
Proof.
  intros C D. rewrite <- (Z2Nat.id c), <- (Z2Nat.id d) by lia. generalize (Z.to_nat c) (Z.to_nat d) (proj1 (Z2Nat.inj_le c 14 ltac:(lia) ltac:(lia)) ltac:(lia)) (proj1 (Z2Nat.inj_le d 14 ltac:(lia) ltac:(lia)) ltac:(lia)).
  clear. intros a b A B. change (Z.to_nat 14) with 14%nat in *. intros X.
  assert (Y : forallb (fun a => forallb (fun b => if list_eq_dec Z.eq_dec (message (Z.of_nat a)) (message (Z.of_nat b)) then Nat.eqb a b else true) (seq 0 15)) (seq 0 15) = true) by (vm_compute; reflexivity).
  rewrite forallb_forall in Y. specialize (Y a ltac:(apply in_seq; lia)). cbv beta in Y. rewrite forallb_forall in Y. specialize (Y b ltac:(apply in_seq; lia)). cbv beta in Y.
  destruct (list_eq_dec Z.eq_dec _ _); [|contradiction]. apply Nat.eqb_eq in Y. subst. reflexivity.
Qed.
Theorem regerror_fits c : exists t, Forall is_char t /\ forall m out max, 0 <= max -> mapped m out max ->
  exists m', regerror m c out max = Ok (m', len t + 1) /\ (len t < max -> stored m m' out (t ++ [0])) /\ (max <= len t -> stored m m' out (firstn (Z.to_nat max) t)).
Proof.
  destruct (message_text c) as (ET & F). exists (text c). split; [exact F|]. intros m out max M MP.
  destruct (regerror_ok m c out max M MP) as (m' & E & S0). exists m'. rewrite ET in E, S0. rewrite len_app in E. split; [exact E|].
  split; intros L; unfold len in L.
  - rewrite firstn_all2 in S0; [exact S0|]. rewrite app_length. cbn [List.length]. lia.
  - rewrite firstn_app in S0. replace (Z.to_nat max - List.length (text c))%nat with O in S0 by lia. rewrite firstn_O, app_nil_r in S0. exact S0.
Qed.
