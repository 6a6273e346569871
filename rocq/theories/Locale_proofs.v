(* Locales: proofs. *)
From Coq Require Import String.
From Verif Require Import Base Numeral Ctype_spec Locale_model Locale_spec.
Open Scope string_scope.
Open Scope list_scope.
Open Scope Z_scope.

Lemma words_one a : Forall (fun c => space c = false) a -> forall cur, words_from cur a = match rev cur ++ a with [] => [] | x => [x] end.
Proof.
  induction a as [|c a IH]; intros F cur.
  - cbn. rewrite app_nil_r. destruct cur as [|x cur]; [reflexivity|]. destruct (rev (x :: cur)) eqn:E; [|reflexivity]. apply (f_equal (@List.length Z)) in E. rewrite rev_length in E. discriminate.
  - inversion F; subst. cbn [words_from]. rewrite H1. rewrite IH by assumption. cbn [rev]. rewrite <- app_assoc. reflexivity.
Qed.
Lemma words_two a b : a <> [] -> Forall (fun c => space c = false) a -> forall cur, words_from cur (a ++ 32 :: b) = (rev cur ++ a) :: words_from [] b.
Proof.
  induction a as [|c a IH]; intros N F cur; [contradiction|]. inversion F; subst. cbn [words_from app]. rewrite H1. destruct a as [|d a].
  - cbn [app words_from]. change (space 32) with true. reflexivity.
  - rewrite IH; [|discriminate|assumption]. cbn [rev]. rewrite <- app_assoc. reflexivity.
Qed.
Lemma words_begun c : forall cur, cur <> [] -> exists k r, words_from cur c = (rev cur ++ k) :: r.
Proof.
  induction c as [|x c IH]; intros cur N; cbn [words_from].
  - destruct cur; [contradiction|]. exists [], []. rewrite app_nil_r. reflexivity.
  - destruct (space x).
    + destruct cur; [contradiction|]. exists [], (words_from [] c). rewrite app_nil_r. reflexivity.
    + destruct (IH (x :: cur) ltac:(discriminate)) as (k & r & E). exists (x :: k), r. rewrite E. cbn [rev]. rewrite <- app_assoc. reflexivity.
Qed.
Lemma words_blank l : blank l -> words l = [].
Proof. unfold words. induction 1 as [|c l [->| ->] F IH]; [reflexivity| |]; cbn [words_from]; exact IH. Qed.
Lemma key_ok f : codes (key f) <> [] /\ Forall (fun c => space c = false) (codes (key f)) /\ hd 0 (codes (key f)) =? 35 = false /\ field_of (codes (key f)) = Some f.
Proof. destruct f; (split; [discriminate|]; split; [repeat constructor|]; split; [reflexivity|vm_compute; reflexivity]). Qed.
Lemma not_space c : ~ In c [32; 9; 10; 12; 13] -> space c = false.
Proof.
  intro N. unfold space. cbn in N. destruct (Z.eqb_spec c 32); [exfalso; lia|]. destruct (Z.eqb_spec c 9); [exfalso; lia|]. destruct (Z.eqb_spec c 10); [exfalso; lia|].
  destruct (Z.eqb_spec c 12); [exfalso; lia|]. destruct (Z.eqb_spec c 13); [exfalso; lia|]. reflexivity.
Qed.
Lemma value_one v lines : last v 0 <> 92 -> value [v] lines = (v, lines).
Proof. intro N. apply Z.eqb_neq in N. destruct lines; cbn [value]; rewrite N; reflexivity. Qed.
Lemma word_space v : word v -> Forall (fun c => space c = false) v.
Proof. apply Forall_impl. exact not_space. Qed.
Lemma words_word v : v <> [] -> word v -> words v = [v].
Proof. intros N W. unfold words. rewrite (words_one v (word_space v W) []). cbn [rev app]. destruct v; [contradiction|reflexivity]. Qed.
Lemma word_slash p : word p -> word (p ++ [92]).
Proof. intro W. apply Forall_app. split; [exact W|]. repeat constructor. cbn. intuition discriminate. Qed.
Lemma value_parts parts : forall v more, value_ok parts v ->
  value [hd v (map (fun p => p ++ [92]) parts)] (tl (map (fun p => p ++ [92]) parts ++ [v]) ++ more) = (concat parts ++ v, more).
Proof.
  induction parts as [|p ps IH]; intros v more (N & W & B & F).
  - cbn [map hd app tl concat]. apply value_one. exact B.
  - inversion F as [|? ? Wp Fp]; subst. cbn [map hd app tl concat].
    specialize (IH v more (conj N (conj W (conj B Fp)))).
    assert (X : exists l ls, (map (fun p => p ++ [92]) ps ++ [v]) ++ more = l :: ls /\ value (words l) ls = (concat ps ++ v, more)).
    { destruct ps as [|q ps]; cbn [map hd app tl concat] in IH |- *.
      - exists v, more. split; [reflexivity|]. rewrite (words_word v N W). exact IH.
      - inversion Fp; subst. eexists. eexists. split; [reflexivity|]. rewrite words_word; [exact IH| |apply word_slash; assumption]. destruct q; discriminate. }
    destruct X as (l & ls & E & V). rewrite E. cbn [value]. rewrite last_last. change (92 =? 92) with true. cbv iota. rewrite V, removelast_last, app_assoc. reflexivity.
Qed.
Lemma parse_entry k parts v fuel more raw : k <> [] -> word k -> hd 0 k <> 35 -> value_ok parts v ->
  parse (S fuel) (entry k parts v ++ more) raw = parse fuel more (match field_of k with Some f => fun g => if field_eq_dec g f then Some (concat parts ++ v) else raw g | None => raw end).
Proof.
  intros N W H O. pose proof (value_parts parts v more O) as V. destruct O as (Nv & Wv & Bv & Fv).
  assert (X : exists l ls, entry k parts v ++ more = l :: ls /\ words l = [k; hd v (map (fun p => p ++ [92]) parts)] /\ ls = tl (map (fun p => p ++ [92]) parts ++ [v]) ++ more).
  { unfold entry. destruct parts as [|p ps]; cbn [map hd app tl].
    - eexists. eexists. split; [reflexivity|]. split; [|reflexivity]. unfold words. rewrite (words_two k v N (word_space k W) []). cbn [rev app]. f_equal. apply (words_word v Nv Wv).
    - inversion Fv; subst. eexists. eexists. split; [reflexivity|]. split; [|reflexivity]. unfold words. rewrite (words_two k (p ++ [92]) N (word_space k W) []). cbn [rev app]. f_equal.
      apply (words_word (p ++ [92])); [destruct p; discriminate|apply word_slash; assumption]. }
  destruct X as (l & ls & E & WL & ->). rewrite E. cbn [parse]. rewrite WL. rewrite (proj2 (Z.eqb_neq _ _) H). rewrite V.
  assert (NE : exists c r, concat parts ++ v = c :: r) by (destruct (concat parts ++ v) as [|c r] eqn:C; [apply app_eq_nil in C; destruct C as [_ C]; contradiction|eauto]).
  destruct NE as (c & r & ->). reflexivity.
Qed.
Lemma find_none k : (forall f, k <> codes (key f)) -> field_of k = None.
Proof.
  intro N. unfold field_of. destruct (find _ fields) as [f|] eqn:E; [|reflexivity]. apply find_some in E. destruct E as (_ & E). unfold text_eqb in E.
  destruct (list_eq_dec Z.eq_dec k (codes (key f))); [exfalso; apply (N f); assumption|discriminate].
Qed.
Lemma parse_ok is : Forall item_ok is -> forall fuel raw f, (List.length (flat_map lines is) <= fuel)%nat -> parse fuel (flat_map lines is) raw f = last_value f is (raw f).
Proof.
  induction 1 as [|i is O F IH]; intros fuel raw f L; [destruct fuel; reflexivity|]. cbn [flat_map] in L |- *. rewrite app_length in L.
  assert (LL : (1 <= List.length (lines i))%nat) by (destruct i as [g [|p ps] v|k [|p ps] v|l]; cbn; lia).
  destruct fuel as [|fuel]; [lia|]. assert (L' : (List.length (flat_map lines is) <= fuel)%nat) by lia.
  destruct i as [g parts v|k parts v|l].
  - destruct (key_ok g) as (K1 & K2 & K3 & K4). cbn [lines last_value]. rewrite parse_entry; [|exact K1| |apply Z.eqb_neq; exact K3|exact O].
    + rewrite K4, IH by exact L'. reflexivity.
    + destruct g; repeat constructor; cbn; intuition discriminate.
  - destruct O as (O & K1 & K2 & K3 & K4). cbn [lines last_value]. rewrite parse_entry by assumption. rewrite (find_none k K4). apply IH. exact L'.
  - cbn [lines app parse last_value]. destruct O as [B|[c ->]].
    + rewrite (words_blank l B). apply IH. exact L'.
    + unfold words. cbn [words_from]. change (space 35) with false. cbv iota. destruct (words_begun c [35] ltac:(discriminate)) as (k & r & E). rewrite E. cbn [rev app hd].
      change (35 =? 35) with true. cbv iota. apply IH. exact L'.
Qed.
Lemma quoted_ok s : Forall (fun c => c <> 34) s -> quoted (s ++ [34]) = Some s /\ quoted s = Some s.
Proof. induction 1 as [|c s N F [IH1 IH2]]; [split; reflexivity|]. cbn [app quoted]. rewrite (proj2 (Z.eqb_neq c 34) N), IH1, IH2. split; reflexivity. Qed.
Lemma parse_str_ok s : Forall (fun c => c <> 34 /\ c <> 0) s -> parse_str (34 :: s ++ [34]) = Some s.
Proof.
  intro F. unfold parse_str. change (34 =? 34) with true. cbv iota. destruct (quoted_ok s) as [-> _]; [revert F; apply Forall_impl; tauto|].
  replace (existsb (Z.eqb 0) s) with false; [reflexivity|]. symmetry. apply not_true_iff_false. intro E. apply existsb_exists in E. destruct E as (x & I0 & E). apply Z.eqb_eq in E. subst x.
  rewrite Forall_forall in F. apply (F 0 I0). reflexivity.
Qed.
(* the numbers of a grouping *)
Definition dec (n : Z) : text := map (fun d => d + 48) (to_digits 10 n).
Lemma dec_all : forallb (fun k => match parse_int (dec (Z.of_nat k)) with Some n => n =? Z.of_nat k | None => false end && forallb (fun c => (48 <=? c) && (c <=? 57)) (dec (Z.of_nat k))) (seq 0 128) = true.
Proof. vm_compute. reflexivity. Qed.
Lemma dec_ok n : 0 <= n <= 127 -> parse_int (dec n) = Some n /\ Forall (fun c => 48 <= c <= 57) (dec n).
Proof.
  intro N. pose proof (proj1 (forallb_forall _ _) dec_all (Z.to_nat n)) as D. specialize (D ltac:(apply in_seq; lia)). cbv beta in D. rewrite (Z2Nat.id n) in D by lia.
  apply andb_prop in D. destruct D as [D1 D2]. split.
  - destruct (parse_int (dec n)) as [m|]; [|discriminate]. apply Z.eqb_eq in D1. subst. reflexivity.
  - apply Forall_forall. intros c C. pose proof (proj1 (forallb_forall _ _) D2 c C) as E. apply andb_prop in E. destruct E as [E1 E2]. apply Z.leb_le in E1. apply Z.leb_le in E2. lia.
Qed.
Lemma split_one a : Forall (fun c => c <> 59) a -> forall cur, split_at 59 cur a = [rev cur ++ a].
Proof. induction 1 as [|c a N F IH]; intro cur; cbn [split_at]; [rewrite app_nil_r; reflexivity|]. rewrite (proj2 (Z.eqb_neq c 59) N), IH. cbn [rev]. rewrite <- app_assoc. reflexivity. Qed.
Lemma split_more a b : Forall (fun c => c <> 59) a -> forall cur, split_at 59 cur (a ++ 59 :: b) = (rev cur ++ a) :: split_at 59 [] b.
Proof. induction 1 as [|c a N F IH]; intro cur; cbn [split_at app]; [rewrite app_nil_r; reflexivity|]. rewrite (proj2 (Z.eqb_neq c 59) N), IH. cbn [rev]. rewrite <- app_assoc. reflexivity. Qed.
Fixpoint semicolons (ns : list Z) : text := match ns with [] => [] | [n] => dec n | n :: ns => dec n ++ 59 :: semicolons ns end.
Lemma group_ok ns : ns <> [] -> Forall (fun n => 0 <= n <= 127) ns -> parse_int_group (semicolons ns) = ns.
Proof.
  induction ns as [|n ns IH]; intros N F; [contradiction|]. inversion F; subst. destruct (dec_ok n H1) as [D1 D2].
  assert (D3 : Forall (fun c => c <> 59) (dec n)) by (revert D2; apply Forall_impl; intros; lia).
  destruct ns as [|m ns].
  - unfold parse_int_group. cbn [semicolons]. rewrite (split_one _ D3 []). cbn [map rev app]. rewrite D1. reflexivity.
  - change (semicolons (n :: m :: ns)) with (dec n ++ 59 :: semicolons (m :: ns)). unfold parse_int_group in *. rewrite (split_more _ _ D3 []). cbn [map rev app]. rewrite D1. cbn [or_max]. f_equal. apply IH; [discriminate|assumption].
Qed.

Lemma set_nth_len l n v : List.length (set_nth l n v) = List.length l.
Proof. revert n. induction l as [|x l IH]; intros [|n]; cbn; try reflexivity. rewrite IH. reflexivity. Qed.
Lemma set_nth_same l n v : (n < List.length l)%nat -> nth_error (set_nth l n v) n = Some v.
Proof. revert n. induction l as [|x l IH]; intros [|n] L; cbn in *; try lia; [reflexivity|]. apply IH. lia. Qed.
Lemma set_nth_other l n v k : k <> n -> nth_error (set_nth l n v) k = nth_error l k.
Proof. revert n k. induction l as [|x l IH]; intros [|n] [|k] N; cbn; try reflexivity; try contradiction. apply IH. lia. Qed.
Lemma usize_small c : 0 <= c < 7 -> as_usize c = c.
Proof. intro C. unfold as_usize. apply Z.mod_small. lia. Qed.
Lemma number_nonneg ds : forall a, 0 <= a -> forallb digit ds = true -> 0 <= fold_left (fun a c => a * 10 + (c - 48)) ds a.
Proof.
  induction ds as [|d ds IH]; intros a A D; [exact A|]. cbn [fold_left]. cbn [forallb] in D. apply andb_prop in D. destruct D as [D1 D2]. apply IH; [|exact D2].
  unfold digit in D1. apply andb_prop in D1. destruct D1 as [D1 _]. apply Z.leb_le in D1. lia.
Qed.
Lemma int_range v : 0 <= or_max (parse_int v) <= 127.
Proof.
  assert (M : 0 <= or_max None <= 127) by (vm_compute; split; discriminate).
  assert (N : forall ds, 0 <= or_max (match match ds with [] => None | _ => if forallb digit ds then Some (fold_left (fun a c => a * 10 + (c - 48)) ds 0) else None end with Some n => if n <=? 127 then Some n else None | None => None end) <= 127).
  { intros [|d ds]; [exact M|]. destruct (forallb digit (d :: ds)) eqn:D; [|exact M]. destruct (Z.leb_spec (fold_left (fun a c => a * 10 + (c - 48)) (d :: ds) 0) 127); [|exact M].
    unfold or_max. split; [apply (number_nonneg _ 0 (Z.le_refl 0) D)|assumption]. }
  assert (Z0 : forall ds, 0 <= or_max (match match ds with [] => None | _ => if forallb digit ds then Some (fold_left (fun a c => a * 10 + (c - 48)) ds 0) else None end with Some 0 => Some 0 | _ => None end) <= 127).
  { intros ds. destruct (match ds with [] => None | _ => _ end) as [[|q|q]|]; try exact M. cbn. lia. }
  unfold parse_int. cbv zeta. destruct v as [|c ds]; [exact M|].
  destruct c as [|q|q]; [exact (N (0 :: ds))| |exact (N (Z.neg q :: ds))].
  repeat (first [exact (Z0 ds)|exact (N ds)|match goal with |- context [fold_left _ (?c :: ds)] => exact (N (c :: ds)) end|destruct q as [q|q|]]).
Qed.
Lemma quoted_rest s r : Forall (fun c => c <> 34) s -> r <> [] -> quoted (s ++ 34 :: r) = None.
Proof.
  induction 1 as [|c s C F IH]; intro N; cbn [app quoted].
  - change (34 =? 34) with true. destruct r; [contradiction|reflexivity].
  - rewrite (proj2 (Z.eqb_neq _ _) C), IH by exact N. reflexivity.
Qed.
