From Coq Require Import String.
From Verif Require Import Base Numeral Ctype_spec Crypt_model Crypt_spec.
Open Scope string_scope.
Open Scope list_scope.
Open Scope Z_scope.

Lemma ascii_nth s i : ascii s -> continuation (nth i s 0) = false.
Proof.
  intros A. unfold continuation. destruct (Nat.lt_ge_cases i (List.length s)) as [L|L].
  - unfold ascii in A. rewrite Forall_forall in A. pose proof (A _ (nth_In s 0 L)) as B. cbv beta in B.
    rewrite (proj2 (Z.leb_gt 128 _)) by lia. reflexivity.
  - rewrite nth_overflow by lia. reflexivity.
Qed.

Lemma slice_ascii s a b c : ascii s -> s = a ++ b ++ c -> slice s (len a) (len a + len b) = Ok b.
Proof.
  intros A E. unfold slice, boundary. rewrite !ascii_nth by assumption. cbn [negb].
  assert (L : len s = len a + len b + len c) by (rewrite E; unfold len; rewrite !app_length; lia).
  unfold len in L |- *.
  rewrite !(proj2 (Z.leb_le _ _)) by lia. cbn [andb].
  f_equal. rewrite Nat2Z.id. replace (Z.to_nat _) with (List.length b) by lia.
  rewrite E. rewrite skipn_app, skipn_all2, Nat.sub_diag by lia. cbn [skipn app].
  rewrite firstn_app, firstn_all2, Nat.sub_diag by lia. cbn. rewrite app_nil_r. reflexivity.
Qed.

Lemma filter_ascii s : ascii s -> filter (fun b => negb (continuation b)) s = s.
Proof.
  induction 1 as [|b s B _ IH]; [reflexivity|]. cbn [filter]. unfold continuation at 1. rewrite (proj2 (Z.leb_gt 128 _)) by lia. cbn. rewrite IH. reflexivity.
Qed.
Lemma chars_ascii s : ascii s -> chars s = len s.
Proof. intros A. unfold chars. rewrite filter_ascii by assumption. reflexivity. Qed.

Lemma until_app c a r : ~ In c a -> until c (a ++ r) = a ++ until c r.
Proof.
  induction a as [|b a IH]; intros N; [reflexivity|]. cbn [app until]. destruct (b =? c) eqn:E.
  - apply Z.eqb_eq in E. exfalso. apply N. left. exact E.
  - rewrite IH by (intros I; apply N; right; exact I). reflexivity.
Qed.
Lemma until_stop c a r : ~ In c a -> until c (a ++ c :: r) = a.
Proof. intros N. rewrite until_app by assumption. cbn. rewrite Z.eqb_refl, app_nil_r. reflexivity. Qed.
Lemma until_all c a : ~ In c a -> until c a = a.
Proof. intros N. rewrite <- (app_nil_r a) at 1. rewrite until_app by assumption. cbn. apply app_nil_r. Qed.

Lemma salt_split n s salt : 0 <= n -> salt_of n s salt ->
  exists rest, s = salt ++ rest /\ until 36 (firstn (Z.to_nat n) s) = salt /\ len salt <= n /\ ~ In 36 salt /\ (len salt = n \/ rest = [] \/ exists r, rest = 36 :: r).
Proof.
  intros N (rest & E & I & L & W). exists rest. repeat split; try assumption.
  rewrite E, firstn_app. unfold len in L, W. rewrite firstn_all2 by lia.
  destruct W as [W|[W|(r & W)]].
  - replace (Z.to_nat n - List.length salt)%nat with O by lia. cbn [firstn]. rewrite app_nil_r. apply until_all, I.
  - rewrite W, firstn_nil, app_nil_r. apply until_all, I.
  - rewrite W. destruct (Z.to_nat n - List.length salt)%nat; cbn [firstn].
    + rewrite app_nil_r. apply until_all, I.
    + apply until_stop, I.
Qed.

Lemma ascii_app a b : ascii (a ++ b) <-> ascii a /\ ascii b.
Proof. apply Forall_app. Qed.

Lemma md5_result h p body salt : ascii body -> salt_of 8 body salt -> len p <= 30000 ->
  crypt_md5 h p (codes "$1$" ++ body) = Ok (Some (codes "$1$" ++ salt ++ [36] ++ md5 h p salt)).
Proof.
  intros A W K. destruct (salt_split 8 body salt ltac:(lia) W) as (rest & E & U & L & N & _).
  unfold crypt_md5. rewrite (proj2 (Z.ltb_ge 30000 _)) by lia.
  assert (AA : ascii (codes "$1$" ++ body)) by (apply ascii_app; split; [vm_compute; repeat constructor|exact A]).
  set (s := codes "$1$" ++ body) in *. cbv zeta.
  assert (L3 : len (codes "$1$") = 3) by reflexivity.
  assert (S1 : slice s 3 (Z.min (len s) (3 + 8)) = Ok (firstn 8 body)).
  { replace (Z.min (len s) (3 + 8)) with (len (codes "$1$") + len (firstn 8 body)).
    - rewrite <- L3 at 1. apply (slice_ascii s _ _ (skipn 8 body)); [exact AA|]. rewrite firstn_skipn. reflexivity.
    - unfold s, len. rewrite app_length, firstn_length. change (List.length (codes "$1$")) with 3%nat. lia. }
  rewrite S1. cbn [bind]. change (Z.to_nat 8) with 8%nat in U. rewrite U.
  assert (AS : ascii salt) by (rewrite E in A; apply ascii_app in A; tauto).
  rewrite chars_ascii by exact AS.
  assert (S2 : slice s 3 (3 + len salt) = Ok salt).
  { rewrite <- L3. apply (slice_ascii s _ _ rest); [exact AA|]. unfold s. rewrite E. reflexivity. }
  rewrite S2. reflexivity.
Qed.

Lemma sw_app p r : starts_with p (p ++ r) = true.
Proof. unfold starts_with. rewrite firstn_app, firstn_all, Nat.sub_diag, firstn_O, app_nil_r. destruct (list_eq_dec Z.eq_dec p p); [reflexivity|contradiction]. Qed.
Lemma sw_begins p s : starts_with p s = true <-> begins p s.
Proof.
  split.
  - unfold starts_with. destruct (list_eq_dec _ _ _) as [E|]; [|discriminate]. intros _. exists (skipn (List.length p) s). rewrite <- E at 1. symmetry. apply firstn_skipn.
  - intros (r & ->). apply sw_app.
Qed.

Definition small (s : list Z) : Prop := len s <= 256.
Lemma fits inner : small inner -> (BUFF <? len inner) = false.
Proof. intros S0. apply Z.ltb_ge. exact S0. Qed.

Lemma crypt_r_md5 h p body : crypt_r h p (codes "$1$" ++ body) =
  (o <- crypt_md5 h p (codes "$1$" ++ body) ;; match o with Some inner => if BUFF <? len inner then Fault else Ok (Some inner) | None => Ok None end).
Proof. unfold crypt_r. rewrite sw_app. reflexivity. Qed.

Lemma salt_again n salt e : salt_of n salt salt \/ len salt <= n -> ~ In 36 salt -> len salt <= n -> salt_of n (salt ++ [36] ++ e) salt.
Proof. intros _ N L. exists ([36] ++ e). repeat split; try assumption. right. right. exists e. reflexivity. Qed.

Lemma md5_small h p salt : len salt <= 8 -> len (md5 h p salt) <= 22 -> small (codes "$1$" ++ salt ++ [36] ++ md5 h p salt).
Proof. intros A B. unfold small. unfold len in *. rewrite !app_length. change (List.length (codes "$1$")) with 3%nat. cbn [List.length]. lia. Qed.

Theorem md5_verifies h p q body salt : ascii body -> salt_of 8 body salt -> len p <= 30000 -> len q <= 30000 ->
  (forall k s, ascii (md5 h k s) /\ len (md5 h k s) <= 22) ->
  exists t, crypt_r h p (codes "$1$" ++ body) = Ok (Some t) /\ (crypt_r h q t = Ok (Some t) <-> md5 h q salt = md5 h p salt).
Proof.
  intros A W P Q HH. exists (codes "$1$" ++ salt ++ [36] ++ md5 h p salt).
  pose proof W as (rest & E & N & L & _).
  assert (AS : ascii salt) by (rewrite E in A; apply ascii_app in A; tauto).
  split.
  - rewrite crypt_r_md5, (md5_result h p body salt A W P). cbn [bind]. rewrite fits; [reflexivity|]. apply md5_small; [exact L|apply HH].
  - rewrite crypt_r_md5, (md5_result h q _ salt).
    + cbn [bind]. rewrite fits by (apply md5_small; [exact L|apply HH]). split; intros X.
      * injection X as X. apply app_inv_head in X. injection X as X. exact X.
      * rewrite X. reflexivity.
    + apply ascii_app. split; [exact AS|]. apply ascii_app. split; [repeat constructor; lia|apply HH].
    + apply salt_again; [right; exact L|exact N|exact L].
    + exact Q.
Qed.

(* sha *)
Lemma sha_salt_scan s : forall b a c slen, ascii s -> s = a ++ b ++ c -> ~ In 36 b -> ~ In 10 b -> ~ In 58 b -> forall k,
  sha_salt s (len a) (List.length b + k) slen = sha_salt s (len a + len b) k (slen + len b).
Proof.
  induction b as [|x b IH]; intros a c slen A E N36 N10 N58 k.
  - cbn [List.length plus]. change (len (@nil Z)) with 0. rewrite !Z.add_0_r. reflexivity.
  - cbn [List.length plus sha_salt].
    assert (S1 : slice s (len a) (len a + 1) = Ok [x]) by (apply (slice_ascii s a [x] (b ++ c)); [exact A|exact E]).
    rewrite S1. cbn [bind].
    assert (D : forall T (u v w : T), match [x] with [36] => u | [10] | [58] => v | _ => w end = w).
    { intros T u v w. assert (x <> 36) by (intros ->; apply N36; left; reflexivity). assert (x <> 10) by (intros ->; apply N10; left; reflexivity).
      assert (x <> 58) by (intros ->; apply N58; left; reflexivity).
      destruct x as [|x|x]; try reflexivity. repeat (match goal with y : positive |- _ => destruct y; try reflexivity end); exfalso; lia. }
    rewrite D.
    replace (len a + 1) with (len (a ++ [x])) by (rewrite len_app; reflexivity).
    rewrite (IH (a ++ [x]) c) by (try assumption; try (intros J; first [apply N36; right; exact J|apply N10; right; exact J|apply N58; right; exact J]); rewrite E, <- app_assoc; reflexivity).
    rewrite len_app, (len_cons x b). change (len [x]) with 1. replace (len a + 1 + len b) with (len a + (len b + 1)) by lia. replace (slen + 1 + len b) with (slen + (len b + 1)) by lia. reflexivity.
Qed.

Definition clean (salt : list Z) : Prop := ~ In 10 salt /\ ~ In 58 salt.

Lemma sha_with_ok h k p pre body salt rounds hr : ascii (pre ++ body) -> salt_of 16 body salt -> clean salt ->
  sha_with h k p (pre ++ body) (len pre) rounds hr =
    Ok (match sha h k p salt rounds with
        | Some enc => Some (codes (if k then "$6$" else "$5$") ++ (if hr then RSTRING ++ display rounds ++ [36] else []) ++ salt ++ [36] ++ enc)
        | None => None end).
Proof.
  intros A (rest & E & N & L & W) (N10 & N58). unfold sha_with.
  set (s := pre ++ body) in *.
  assert (ES : s = pre ++ salt ++ rest) by (unfold s; rewrite E; reflexivity).
  assert (LS : len s = len pre + len salt + len rest) by (rewrite ES, !len_app; lia).
  assert (X : sha_salt s (len pre) (Z.to_nat (Z.min 16 (len s - len pre))) (len pre) = Ok (Some (len pre + len salt))).
  { assert (M : exists j, Z.to_nat (Z.min 16 (len s - len pre)) = (List.length salt + j)%nat /\ (j = 0%nat \/ exists r, rest = 36 :: r)).
    { exists (Z.to_nat (Z.min 16 (len s - len pre)) - List.length salt)%nat. pose proof (len_nonneg rest) as R0. unfold len in *. split; [lia|].
      destruct W as [W|[W|W]]; [left; lia|left|right; exact W]. rewrite W in LS. cbn [List.length] in LS. lia. }
    destruct M as (j & -> & J). rewrite (sha_salt_scan s salt pre rest) by assumption.
    destruct J as [->|(r & J)]; [reflexivity|]. destruct j as [|j]; [reflexivity|].
    cbn [sha_salt].
    replace (len pre + len salt) with (len (pre ++ salt)) by apply len_app.
    assert (S1 : slice s (len (pre ++ salt)) (len (pre ++ salt) + 1) = Ok [36])
      by (apply (slice_ascii s (pre ++ salt) [36] r); [exact A|rewrite ES, J, <- app_assoc; reflexivity]).
    rewrite S1. cbn [bind]. reflexivity. }
  rewrite X. cbn [bind].
  rewrite (slice_ascii s pre salt rest A ES). cbn [bind].
  destruct (sha h k p salt rounds); reflexivity.
Qed.

Lemma display_written n : 0 <= n -> written (display n) n /\ (forall r, display n <> 43 :: r).
Proof.
  intros N. pose proof (to_digits_numeral 10 n ltac:(lia) N) as (F & V & NE & _).
  unfold display, written. split.
  - split; [|split].
    + destruct (to_digits 10 n); [congruence|discriminate].
    + apply Forall_map. revert F. apply Forall_impl. intros a Ha. lia.
    + rewrite map_map. rewrite (map_ext _ (fun d => d)) by (intros; lia). rewrite map_id. exact V.
  - intros r X. destruct (to_digits 10 n) as [|d l]; [discriminate|]. cbn [map] in X. injection X as X _. inversion F; subst. lia.
Qed.

Lemma fold_written s a : fold_left (fun a c => a * 10 + (c - 48)) s a = fold_left (fun a d => a * 10 + d) (map (fun c => c - 48) s) a.
Proof. revert a. induction s as [|c s IH]; intros a; [reflexivity|]. cbn [fold_left map]. apply IH. Qed.

Lemma parse_written b s n : written s n -> n < b -> parse_num b s = Some n.
Proof.
  intros (NE & F & V) B. unfold parse_num.
  assert (H0 : unplus s = s).
  { destruct s as [|c s]; [reflexivity|]. inversion F as [|? ? C ?]; subst. destruct c as [|c|c]; try reflexivity; try lia.
    repeat (match goal with y : positive |- _ => destruct y; try reflexivity; try lia end). }
  rewrite H0. destruct s as [|c s]; [congruence|].
  rewrite (proj2 (forallb_forall digit (c :: s))).
  - cbv zeta. rewrite fold_written. change (fold_left _ (map _ _) 0) with (dvalue 10 (map (fun c => c - 48) (c :: s))). rewrite V. rewrite (proj2 (Z.ltb_lt _ _)) by lia. reflexivity.
  - rewrite Forall_forall in F. intros x I0. specialize (F x I0). unfold digit. cbv beta in F. rewrite !(proj2 (Z.leb_le _ _)) by lia. reflexivity.
Qed.

Lemma written_no36 s n : written s n -> ~ In 36 s /\ ascii s.
Proof.
  intros (_ & F & _). split.
  - intros I0. rewrite Forall_forall in F. specialize (F _ I0). cbv beta in F. lia.
  - unfold ascii. revert F. apply Forall_impl. intros; lia.
Qed.

Definition tag (k : bool) : text := codes (if k then "$6$" else "$5$").
Lemma tag_len k : len (tag k) = 3. Proof. destruct k; reflexivity. Qed.
Lemma tag_ascii k : ascii (tag k). Proof. destruct k; vm_compute; repeat constructor. Qed.
Definition clamp (u : Z) : Z := Z.max (Z.min u 999999999) 1000.

Lemma skip_tag k body : skipn 3 (tag k ++ body) = body.
Proof. destruct k; reflexivity. Qed.

Lemma sha_plain h k p body salt : ascii body -> salt_of 16 body salt -> clean salt -> len p <= 256 -> ~ begins (codes "rounds=") body ->
  crypt_sha h k p (tag k ++ body) = Ok (match sha h k p salt 5000 with Some enc => Some (tag k ++ salt ++ [36] ++ enc) | None => None end).
Proof.
  intros A W C P B. unfold crypt_sha. rewrite (proj2 (Z.ltb_ge 256 _)) by lia. rewrite skip_tag.
  assert (SW : starts_with RSTRING body = false) by (destruct (starts_with RSTRING body) eqn:X; [exfalso; apply B, sw_begins, X|reflexivity]).
  rewrite SW. rewrite <- (tag_len k). rewrite (sha_with_ok h k p (tag k) body salt); try assumption.
  - change ROUNDS_DEFAULT with 5000. destruct (sha h k p salt 5000); reflexivity.
  - apply ascii_app. split; [apply tag_ascii|exact A].
Qed.

Lemma sha_rounds h k p num n body salt : ascii body -> salt_of 16 body salt -> clean salt -> len p <= 256 -> written num n -> n < 2 ^ 64 ->
  crypt_sha h k p (tag k ++ codes "rounds=" ++ num ++ [36] ++ body) =
    Ok (match sha h k p salt (clamp n) with Some enc => Some (tag k ++ codes "rounds=" ++ display (clamp n) ++ [36] ++ salt ++ [36] ++ enc) | None => None end).
Proof.
  intros A W C P WN B. unfold crypt_sha. rewrite (proj2 (Z.ltb_ge 256 _)) by lia. rewrite skip_tag. rewrite sw_app.
  destruct (written_no36 _ _ WN) as (N36 & AN).
  set (s := tag k ++ codes "rounds=" ++ num ++ [36] ++ body).
  assert (AS : ascii s).
  { unfold s. apply ascii_app. split; [apply tag_ascii|]. apply ascii_app. split; [vm_compute; repeat constructor|]. apply ascii_app. split; [exact AN|].
    apply ascii_app. split; [repeat constructor; lia|exact A]. }
  assert (L10 : len (tag k ++ codes "rounds=") = 10) by (rewrite len_app, tag_len; reflexivity).
  assert (E1 : s = (tag k ++ codes "rounds=") ++ (num ++ [36] ++ body) ++ []) by (unfold s; rewrite app_nil_r, <- !app_assoc; reflexivity).
  assert (S1 : slice s 10 (len s) = Ok (num ++ [36] ++ body)).
  { replace (len s) with (10 + len (num ++ [36] ++ body)) by (rewrite E1, (len_app (tag k ++ _)), L10, app_nil_r; reflexivity).
    rewrite <- L10. apply (slice_ascii s _ _ []); assumption. }
  rewrite S1. cbn [bind].
  assert (EX : existsb (Z.eqb 36) (num ++ [36] ++ body) = true) by (apply existsb_exists; exists 36; split; [apply in_or_app; right; left; reflexivity|reflexivity]).
  rewrite EX. cbv zeta. cbn [app]. rewrite until_stop by exact N36. rewrite chars_ascii by exact AN.
  assert (S2 : slice s 10 (10 + len num) = Ok num).
  { rewrite <- L10. apply (slice_ascii s _ _ ([36] ++ body)); [exact AS|]. unfold s. rewrite <- app_assoc. reflexivity. }
  rewrite S2. cbn [bind]. rewrite (parse_written _ _ n WN B). fold (clamp n).
  set (pre := tag k ++ codes "rounds=" ++ num ++ [36]).
  assert (E2 : s = pre ++ body) by (unfold s, pre; rewrite <- !app_assoc; reflexivity).
  replace (10 + len num + 1) with (len pre) by (unfold pre; rewrite !len_app, tag_len; change (len [36]) with 1; change (len (codes "rounds=")) with 7; lia).
  rewrite E2. change (Z.max (Z.min n ROUNDS_MAX) ROUNDS_MIN) with (clamp n).
  rewrite (sha_with_ok h k p pre body salt); try assumption; [|rewrite <- E2; exact AS].
  destruct (sha h k p salt (clamp n)); [|reflexivity]. rewrite <- !app_assoc. reflexivity.
Qed.

Lemma crypt_r_sha h k p body : crypt_r h p (tag k ++ body) =
  (o <- crypt_sha h k p (tag k ++ body) ;; match o with Some inner => if BUFF <? len inner then Fault else Ok (Some inner) | None => Ok None end).
Proof. destruct k; reflexivity. Qed.

Lemma not_begins salt e body rest : body = salt ++ rest -> ~ In 36 salt -> ~ begins (codes "rounds=") body -> ~ begins (codes "rounds=") (salt ++ [36] ++ e).
Proof.
  intros E N B (r & X). apply B. exists (skipn 7 body). rewrite E.
  destruct (Nat.lt_ge_cases (List.length salt) 7) as [L|L].
  - exfalso. assert (Y : nth (List.length salt) (salt ++ [36] ++ e) 0 = 36) by (rewrite app_nth2, Nat.sub_diag by lia; reflexivity).
    rewrite X in Y. do 7 (destruct salt as [|? salt]; [vm_compute in Y; discriminate|cbn [List.length] in L]). lia.
  - assert (F : firstn 7 salt = codes "rounds=").
    { assert (G : firstn 7 (salt ++ [36] ++ e) = codes "rounds=") by (rewrite X; reflexivity).
      rewrite firstn_app in G. replace (7 - List.length salt)%nat with O in G by lia. cbn [firstn] in G. rewrite app_nil_r in G. exact G. }
    rewrite <- F. rewrite skipn_app. replace (7 - List.length salt)%nat with O by lia. cbn [skipn]. rewrite app_assoc, firstn_skipn. reflexivity.
Qed.

Definition good (h : hashes) : Prop :=
  (forall k s, ascii (md5 h k s) /\ len (md5 h k s) <= 22) /\ (forall k p s n e, sha h k p s n = Some e -> ascii e /\ len e <= 86).

Theorem sha_verifies h k p q body salt e : good h -> ascii body -> salt_of 16 body salt -> clean salt -> len p <= 256 -> len q <= 256 ->
  ~ begins (codes "rounds=") body -> sha h k p salt 5000 = Some e ->
  exists t, crypt_r h p (tag k ++ body) = Ok (Some t) /\ (crypt_r h q t = Ok (Some t) <-> sha h k q salt 5000 = Some e).
Proof.
  intros (_ & G) A W C P Q B HE. pose proof W as (rest & E & N & L & _). exists (tag k ++ salt ++ [36] ++ e).
  assert (AS : ascii salt) by (rewrite E in A; apply ascii_app in A; tauto).
  assert (SM : forall e', len e' <= 86 -> small (tag k ++ salt ++ [36] ++ e')) by (intros e' Le; unfold small; rewrite !len_app, tag_len; change (len [36]) with 1; lia).
  destruct (G _ _ _ _ _ HE) as (AE & LE).
  split.
  - rewrite crypt_r_sha, (sha_plain h k p body salt) by assumption. rewrite HE. cbn [bind]. rewrite fits by (apply SM, LE). reflexivity.
  - rewrite crypt_r_sha, (sha_plain h k q _ salt); try assumption.
    + destruct (sha h k q salt 5000) as [e'|] eqn:HQ; cbn [bind].
      * rewrite fits by (apply SM, (G _ _ _ _ _ HQ)). split; intros X; [|injection X as ->; reflexivity].
        injection X as X. do 2 apply app_inv_head in X. injection X as ->. reflexivity.
      * split; discriminate.
    + apply ascii_app. split; [exact AS|]. apply ascii_app. split; [repeat constructor; lia|exact AE].
    + apply salt_again; [right; exact L|exact N|exact L].
    + apply (not_begins salt e body rest); assumption.
Qed.

Lemma clamp_range n : 1000 <= clamp n <= 999999999. Proof. unfold clamp. lia. Qed.
Lemma clamp_idem n : clamp (clamp n) = clamp n. Proof. unfold clamp. lia. Qed.
Lemma display_len n : 0 <= n <= 999999999 -> len (display n) <= 9.
Proof.
  intros N. unfold display. assert (H0 : len (to_digits 10 n) <= 9) by (apply (numeral_len 10 _ n 9); [lia|apply to_digits_numeral; lia|lia|change (10 ^ 9) with 1000000000; lia]).
  unfold len in *. rewrite map_length. exact H0.
Qed.

Theorem sha_rounds_verifies h k p q num n body salt e : good h -> ascii body -> salt_of 16 body salt -> clean salt -> len p <= 256 -> len q <= 256 ->
  written num n -> n < 2 ^ 64 -> sha h k p salt (clamp n) = Some e ->
  exists t, crypt_r h p (tag k ++ codes "rounds=" ++ num ++ [36] ++ body) = Ok (Some t) /\
    (crypt_r h q t = Ok (Some t) <-> sha h k q salt (clamp n) = Some e).
Proof.
  intros (_ & G) A W C P Q WN NB HE. pose proof W as (rest & E & N & L & _).
  pose proof (clamp_range n) as CR.
  exists (tag k ++ codes "rounds=" ++ display (clamp n) ++ [36] ++ salt ++ [36] ++ e).
  assert (AS : ascii salt) by (rewrite E in A; apply ascii_app in A; tauto).
  assert (SM : forall e', len e' <= 86 -> small (tag k ++ codes "rounds=" ++ display (clamp n) ++ [36] ++ salt ++ [36] ++ e')).
  { intros e' Le. unfold small. rewrite !len_app, tag_len. change (len [36]) with 1. change (len (codes "rounds=")) with 7. pose proof (display_len (clamp n) ltac:(lia)). lia. }
  destruct (G _ _ _ _ _ HE) as (AE & LE).
  split.
  - rewrite crypt_r_sha, (sha_rounds h k p num n body salt) by assumption. rewrite HE. cbn [bind]. rewrite fits by (apply SM, LE). reflexivity.
  - assert (N64 : clamp n < 2 ^ 64) by (change (2 ^ 64) with 18446744073709551616; lia).
    rewrite crypt_r_sha, (sha_rounds h k q (display (clamp n)) (clamp n) _ salt); try assumption.
    + rewrite clamp_idem. destruct (sha h k q salt (clamp n)) as [e'|] eqn:HQ; cbn [bind].
      * rewrite fits by (apply SM, (G _ _ _ _ _ HQ)). split; intros X; [|injection X as ->; reflexivity].
        injection X as X. repeat (first [apply app_inv_head in X | injection X as X]). rewrite X. reflexivity.
      * split; discriminate.
    + apply ascii_app. split; [exact AS|]. apply ascii_app. split; [repeat constructor; lia|exact AE].
    + apply salt_again; [right; exact L|exact N|exact L].
    + apply display_written. lia.
Qed.

(* the other kinds *)
Lemma slice_from s i r : slice s i (len s) = Ok r -> 0 <= i <= len s /\ r = skipn (Z.to_nat i) s.
Proof.
  unfold slice, boundary. destruct (_ && _ && _) eqn:B; [|discriminate]. intros E. injection E as <-.
  apply andb_true_iff in B. destruct B as (B & B3). apply Z.leb_le in B3. apply andb_true_iff in B. destruct B as (B & _).
  apply andb_true_iff in B. destruct B as (B & _). apply andb_true_iff in B. destruct B as (B & _). apply Z.leb_le in B. split; [lia|].
  apply firstn_all2. unfold len in *. rewrite skipn_length. lia.
Qed.
Lemma until_len c s : (List.length (until c s) <= List.length s)%nat.
Proof. induction s as [|b s IH]; [apply le_n|]. cbn [until]. destruct (b =? c); cbn [List.length]; lia. Qed.

Lemma pbkdf2_longer h p s t : crypt_pbkdf2 h p s = Ok (Some t) -> len s < len t.
Proof.
  unfold crypt_pbkdf2. destruct (slice s 3 (len s)) as [rest| | |] eqn:E; try discriminate. cbn [bind].
  apply slice_from in E. destruct E as (R & E).
  destruct (existsb _ rest); [|discriminate]. cbv zeta.
  assert (LK : (List.length rest <= S (List.length (until 36 rest)) + List.length (skipn (S (List.length (until 36 rest))) rest))%nat) by (rewrite skipn_length; lia).
  pose proof (until_len 36 rest) as U. set (iter := until 36 rest) in *. set (salt := skipn (S (List.length iter)) rest) in *. clearbody salt iter.
  destruct (existsb _ salt); [discriminate|].
  destruct (match salt with [] => _ | _ => _ end) as [actual|]; [|discriminate].
  destruct (parse_hex _) as [n|]; [|discriminate]. intros X.
  assert (T : t = codes "$8$" ++ iter ++ [36] ++ salt ++ [36] ++ pbkdf2 h p actual n) by congruence. rewrite T.
  rewrite !len_app. change (len [36]) with 1. change (len (codes "$8$")) with 3.
  assert (LR : len s = 3 + len rest) by (rewrite E; unfold len in *; rewrite skipn_length; lia).
  unfold len in *. lia.
Qed.

Lemma scrypt_longer h p s t : crypt_scrypt h p s = Ok (Some t) -> len s < len t.
Proof.
  unfold crypt_scrypt. destruct (len s <? 14) eqn:L; [discriminate|]. apply Z.ltb_ge in L.
  destruct (slice s 3 (len s)) as [r| | |] eqn:E; try discriminate. cbn [bind]. apply slice_from in E. destruct E as (R & E).
  assert (LR : len s = 3 + len r) by (rewrite E; unfold len in *; rewrite skipn_length; lia).
  destruct (to_digit _) as [nlog2|]; [|discriminate].
  destruct (slice r 1 6) as [s1| | |]; try discriminate. cbn [bind]. destruct (dencode_uint s1) as [rr|]; [|discriminate].
  destruct (slice r 6 11) as [s2| | |]; try discriminate. cbn [bind]. destruct (dencode_uint s2) as [pp|]; [|discriminate].
  destruct (slice r 11 (len r)) as [salt| | |] eqn:E2; try discriminate. cbn [bind]. apply slice_from in E2. destruct E2 as (R2 & E2).
  assert (LS : len r = 11 + len salt) by (rewrite E2; unfold len in *; rewrite skipn_length; lia).
  destruct (match salt with [] => _ | _ => _ end) as [salt'|] eqn:ES; [|discriminate].
  assert (LL : len salt <= len salt') by (destruct salt; [apply len_nonneg|injection ES as <-; lia]).
  destruct (scrypt h p salt' nlog2 rr pp) as [enc|]; [|discriminate]. intros X.
  assert (T : t = codes "$7$" ++ firstn 11 r ++ [36] ++ salt' ++ [36] ++ enc) by congruence. rewrite T.
  pose proof (len_nonneg enc). rewrite !len_app. change (len [36]) with 1. change (len (codes "$7$")) with 3.
  assert (LF : len (firstn 11 r) = 11) by (pose proof (len_nonneg salt); unfold len in *; rewrite firstn_length; lia). lia.
Qed.

Theorem scrypt_never h p body : crypt_r h p (codes "$7$" ++ body) <> Ok (Some (codes "$7$" ++ body)).
Proof.
  change (crypt_r h p (codes "$7$" ++ body)) with (o <- crypt_scrypt h p (codes "$7$" ++ body) ;; match o with Some inner => if BUFF <? len inner then Fault else Ok (Some inner) | None => Ok None end).
  destruct (crypt_scrypt h p (codes "$7$" ++ body)) as [[t|]| | |] eqn:E; cbn [bind]; try discriminate.
  apply scrypt_longer in E. destruct (BUFF <? len t); [discriminate|]. intros X. assert (T : t = codes "$7$" ++ body) by congruence. rewrite T in E. lia.
Qed.
Theorem pbkdf2_never h p body : crypt_r h p (codes "$8$" ++ body) <> Ok (Some (codes "$8$" ++ body)).
Proof.
  change (crypt_r h p (codes "$8$" ++ body)) with (o <- crypt_pbkdf2 h p (codes "$8$" ++ body) ;; match o with Some inner => if BUFF <? len inner then Fault else Ok (Some inner) | None => Ok None end).
  destruct (crypt_pbkdf2 h p (codes "$8$" ++ body)) as [[t|]| | |] eqn:E; cbn [bind]; try discriminate.
  apply pbkdf2_longer in E. destruct (BUFF <? len t); [discriminate|]. intros X. assert (T : t = codes "$8$" ++ body) by congruence. rewrite T in E. lia.
Qed.

Lemma split_none c cur s : ~ In c s -> split c cur s = [rev cur ++ s].
Proof.
  revert cur. induction s as [|b s IH]; intros cur N; cbn [split].
  - rewrite app_nil_r. reflexivity.
  - assert (b <> c) by (intros ->; apply N; left; reflexivity). rewrite (proj2 (Z.eqb_neq b c)) by assumption.
    rewrite IH by (intros J; apply N; right; exact J). cbn [rev]. rewrite <- app_assoc. reflexivity.
Qed.
Lemma blowfish_result h p salt : ~ In 36 salt ->
  crypt_blowfish h p (codes "$2b$10$" ++ salt) = Ok (match bcrypt h (firstn 72 (p ++ [0])) salt 10 with Some enc => Some (codes "$2b$10$" ++ enc) | None => None end).
Proof.
  intros N. unfold crypt_blowfish.
  assert (E : split 36 [] (codes "$2b$10$" ++ salt) = [] :: codes "2b" :: codes "10" :: split 36 [] salt) by reflexivity.
  rewrite E, split_none by exact N. cbn [tl rev app].
  change (existsb _ (map codes _)) with true. change (parse_num (2 ^ 32) (codes "10")) with (Some 10). cbn iota. change ((10 <? 4) || (31 <? 10)) with false. cbn iota.
  destruct (bcrypt _ _ _ _); reflexivity.
Qed.
Theorem blowfish_salt_lost h p q salt e : ~ In 36 salt -> ~ In 36 e -> len e <= 44 -> bcrypt h (firstn 72 (p ++ [0])) salt 10 = Some e ->
  crypt_r h p (codes "$2b$10$" ++ salt) = Ok (Some (codes "$2b$10$" ++ e)) /\
  (crypt_r h q (codes "$2b$10$" ++ e) = Ok (Some (codes "$2b$10$" ++ e)) -> bcrypt h (firstn 72 (q ++ [0])) e 10 = Some e).
Proof.
  intros N NE L HE.
  assert (R : forall q x, crypt_r h q (codes "$2b$10$" ++ x) = (o <- crypt_blowfish h q (codes "$2b$10$" ++ x) ;; match o with Some inner => if BUFF <? len inner then Fault else Ok (Some inner) | None => Ok None end)) by reflexivity.
  split.
  - rewrite R, blowfish_result, HE by exact N. cbn [bind]. rewrite fits; [reflexivity|]. unfold small. rewrite len_app. change (len (codes "$2b$10$")) with 7. lia.
  - rewrite R, blowfish_result by exact NE. destruct (bcrypt h _ e 10) as [e'|]; cbn [bind]; [|discriminate].
    destruct (BUFF <? len _); [discriminate|]. intros X. injection X as ->. reflexivity.
Qed.

Theorem argon2_verifies h p body : len body <= 200 ->
  (crypt_r h p (codes "$argon2" ++ body) = Ok (Some (codes "$argon2" ++ body)) <-> argon2_ok h p (codes "$argon2" ++ body) = true).
Proof.
  intros L. change (crypt_r h p (codes "$argon2" ++ body)) with (o <- crypt_argon2 h p (codes "$argon2" ++ body) ;; match o with Some inner => if BUFF <? len inner then Fault else Ok (Some inner) | None => Ok None end).
  unfold crypt_argon2. destruct (argon2_ok _ _ _); cbn [bind].
  - rewrite fits; [split; reflexivity|]. unfold small. rewrite len_app. change (len (codes "$argon2")) with 7. lia.
  - split; discriminate.
Qed.

(* a salt of more than 256 bytes writes past the caller's data *)
Theorem long_salt h p salt : ascii salt -> ~ In 36 salt -> 256 < len salt -> crypt_r h p (codes "$8$1$" ++ salt) = Fault.
Proof.
  intros A N L. change (crypt_r h p (codes "$8$1$" ++ salt)) with (o <- crypt_pbkdf2 h p (codes "$8$1$" ++ salt) ;; match o with Some inner => if BUFF <? len inner then Fault else Ok (Some inner) | None => Ok None end).
  unfold crypt_pbkdf2. set (s := codes "$8$1$" ++ salt).
  assert (AS : ascii s) by (apply ascii_app; split; [vm_compute; repeat constructor|exact A]).
  assert (S1 : slice s 3 (len s) = Ok (codes "1$" ++ salt)).
  { change 3 with (len (codes "$8$")). replace (len s) with (len (codes "$8$") + len (codes "1$" ++ salt)) by (unfold s; rewrite !len_app; change (len (codes "$8$")) with 3; change (len (codes "1$")) with 2; change (len (codes "$8$1$")) with 5; lia).
    apply (slice_ascii s _ _ []); [exact AS|]. rewrite app_nil_r. reflexivity. }
  rewrite S1. cbn [bind]. change (existsb (Z.eqb 36) (codes "1$" ++ salt)) with true. cbn iota. cbv zeta.
  change (until 36 (codes "1$" ++ salt)) with [49]. change (skipn (S (List.length [49])) (codes "1$" ++ salt)) with salt.
  assert (EX : existsb (Z.eqb 36) salt = false).
  { destruct (existsb (Z.eqb 36) salt) eqn:X; [|reflexivity]. apply existsb_exists in X. destruct X as (y & I0 & Y). apply Z.eqb_eq in Y. subst. contradiction. }
  rewrite EX. destruct salt as [|b salt']; [exfalso; vm_compute in L; discriminate L|]. change (parse_hex [49]) with (Some 1). cbn [bind].
  assert (LL : (BUFF <? len (codes "$8$" ++ [49] ++ [36] ++ (b :: salt') ++ [36] ++ pbkdf2 h p (b :: salt') 1)) = true).
  { apply Z.ltb_lt. rewrite !len_app. pose proof (len_nonneg (pbkdf2 h p (b :: salt') 1)). unfold BUFF. change (len (codes "$8$")) with 3. change (len [49]) with 1. change (len [36]) with 1. lia. }
  rewrite LL. reflexivity.
Qed.

Theorem not_ascii h p : len p <= 256 -> crypt_r h p (codes "$1$" ++ [195; 188]) = Panic /\ crypt_r h p (codes "$6$" ++ [195; 188]) = Panic.
Proof.
  intros L. split.
  - rewrite crypt_r_md5. unfold crypt_md5. rewrite (proj2 (Z.ltb_ge 30000 _)) by lia. reflexivity.
  - change (codes "$6$") with (tag true). rewrite crypt_r_sha. unfold crypt_sha. rewrite (proj2 (Z.ltb_ge 256 _)) by lia. reflexivity.
Qed.
