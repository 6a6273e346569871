(* Proofs about the resolver. *)
From Coq Require Import ZArith List Bool Lia Arith.
From Verif Require Import Base Grp_model Shadow_model Inet_model Dns_spec Dns_model.
Import ListNotations.
Open Scope Z_scope.

Definition byte (b : Z) : Prop := 0 <= b < 256.

Lemma skipn_cons : forall (d : list Z) i x r, skipn i d = x :: r -> nth_error d i = Some x /\ skipn (S i) d = r.
Proof.
  induction d as [|y d IH]; intros i x r H.
  - rewrite skipn_nil in H. discriminate.
  - destruct i; cbn in *.
    + inversion H. auto.
    + apply IH. exact H.
Qed.
Lemma at_cons : forall d i b l, at_ d i (b :: l) -> nth_error d i = Some b /\ at_ d (S i) l.
Proof.
  unfold at_. intros d i b l H. cbn [length firstn] in H.
  destruct (skipn i d) as [|x r] eqn:E; [discriminate|].
  apply skipn_cons in E. destruct E as (E1 & E2). cbn in H. inversion H; subst.
  split; [exact E1|]. rewrite H2. exact H2.
Qed.
Lemma at_nil : forall d i, at_ d i [].
Proof. reflexivity. Qed.
Lemma nth_lt : forall (d : list Z) i b, nth_error d i = Some b -> (i < length d)%nat.
Proof. intros d i b H. apply nth_error_Some. rewrite H. discriminate. Qed.

Lemma pop_u8_ok : forall d i b, nth_error d i = Some b -> pop_u8 d i = Ok (Some (b, (i + 1)%nat)).
Proof.
  intros d i b H. unfold pop_u8, index. pose proof (nth_lt _ _ _ H) as L.
  replace (length d <? i + 1)%nat with false by (symmetry; apply Nat.ltb_ge; lia). rewrite H. reflexivity.
Qed.
Lemma pop_n16_at : forall d i a b, at_ d i [a; b] -> pop_n16 d i = Ok (Some (256 * a + b, (i + 2)%nat)).
Proof.
  intros d i a b H. apply at_cons in H. destruct H as (H1 & H2). apply at_cons in H2. destruct H2 as (H2 & _).
  unfold pop_n16, index. pose proof (nth_lt _ _ _ H2) as L.
  replace (length d <? i + 2)%nat with false by (symmetry; apply Nat.ltb_ge; lia).
  rewrite H1. replace (i + 1)%nat with (S i) by lia. rewrite H2. reflexivity.
Qed.
Lemma pop_n16_ok : forall d i v, u16_at d i v -> pop_n16 d i = Ok (Some (v, (i + 2)%nat)).
Proof. intros d i v (a & b & H & E). subst. apply pop_n16_at. exact H. Qed.
Lemma pop_bytes_ok : forall d l i, at_ d i l -> pop_bytes d (length l) i = Ok (Some (l, (i + length l)%nat)).
Proof.
  intros d l. induction l as [|b l IH]; intros i H.
  - cbn. rewrite Nat.add_0_r. reflexivity.
  - apply at_cons in H. destruct H as (H1 & H2). cbn [length pop_bytes]. rewrite (pop_u8_ok _ _ _ H1). cbn [pbind].
    replace (i + 1)%nat with (S i) by lia. rewrite (IH _ H2). cbn [pbind].
    replace (S i + length l)%nat with (i + S (length l))%nat by lia. reflexivity.
Qed.

Lemma land_label : forall n, 0 <= n <= 63 -> (Z.land n 192 =? 192) = false.
Proof.
  intros n H.
  assert (K : forallb (fun k => negb (Z.land (Z.of_nat k) 192 =? 192)) (seq 0 64) = true) by reflexivity.
  rewrite forallb_forall in K. specialize (K (Z.to_nat n)). rewrite Z2Nat.id in K by lia.
  apply negb_true_iff, K, in_seq. lia.
Qed.
Lemma land_ptr : forall n, 192 <= n < 256 -> (Z.land n 192 =? 192) = true.
Proof.
  intros n H.
  assert (K : forallb (fun k => Z.land (Z.of_nat k) 192 =? 192) (seq 192 64) = true) by reflexivity.
  rewrite forallb_forall in K. specialize (K (Z.to_nat n)). rewrite Z2Nat.id in K by lia.
  apply K, in_seq. lia.
Qed.

Fixpoint ext (name : list Z) (ls : list label) : list Z :=
  match ls with [] => name | l :: r => ext (match name with [] => [] | _ => name ++ [46] end ++ l) r end.
Lemma chain_loop : forall d i ls e, Forall byte d -> chain d i ls e ->
  exists f0, forall f name, (f0 <= f)%nat -> name_loop f d i name = Ok (Some (ext name ls, e)).
Proof.
  intros d i ls e B H. induction H as [i H|i l ls e L H C (f0 & IH)|i hi lo ls e L H C (f0 & IH)].
  - exists 1%nat. intros f name F. destruct f as [|f]; [lia|]. cbn [name_loop].
    apply at_cons in H. destruct H as (H & _). rewrite (pop_u8_ok _ _ _ H). cbn.
    replace (i + 1)%nat with (S i) by lia. reflexivity.
  - exists (S f0). intros f name F. destruct f as [|f]; [lia|]. cbn [name_loop].
    apply at_cons in H. destruct H as (H1 & H2). rewrite (pop_u8_ok _ _ _ H1). cbn [pbind].
    rewrite land_label by lia. replace (Z.of_nat (length l) =? 0) with false by lia.
    rewrite Nat2Z.id. replace (i + 1)%nat with (S i) by lia. rewrite (pop_bytes_ok _ _ _ H2). cbn [pbind].
    cbn [ext]. apply IH. lia.
  - exists (S f0). intros f name F. destruct f as [|f]; [lia|]. cbn [name_loop].
    pose proof H as H0. apply at_cons in H. destruct H as (H1 & H2). rewrite (pop_u8_ok _ _ _ H1). cbn [pbind].
    rewrite land_ptr by lia. replace (i + 1 - 1)%nat with i by lia. rewrite (pop_n16_at _ _ _ _ H0). cbn [pbind].
    apply at_cons in H2. destruct H2 as (H2 & _).
    assert (BL : byte lo) by (rewrite Forall_forall in B; apply B, nth_error_In with (n := S i); exact H2). unfold byte in BL.
    replace ((256 * hi + lo - 49152) mod 65536) with ((hi - 192) * 256 + lo).
    + apply IH. lia.
    + rewrite Z.mod_small; lia.
Qed.
Lemma chain_labels : forall d i ls e, chain d i ls e -> Forall (fun l => l <> []) ls.
Proof.
  intros d i ls e H. induction H; [constructor|constructor; [destruct l; [cbn in *; lia|discriminate]|assumption]|assumption].
Qed.
Lemma ext_app : forall ls name, name <> [] -> Forall (fun l => l <> []) ls -> ext name ls = name ++ match ls with [] => [] | _ => 46 :: dotted ls end.
Proof.
  induction ls as [|l ls IH]; intros name N F; cbn [ext].
  - rewrite app_nil_r. reflexivity.
  - inversion F; subst. destruct name as [|c name]; [congruence|].
    rewrite IH; [|discriminate|assumption]. rewrite <- !app_assoc. cbn [app]. do 3 f_equal.
    destruct ls; cbn [dotted]; [apply app_nil_r|reflexivity].
Qed.
Lemma ext_dotted : forall ls, Forall (fun l => l <> []) ls -> ext [] ls = dotted ls.
Proof.
  destruct ls as [|l ls]; intros F; [reflexivity|]. inversion F; subst. cbn [ext app].
  rewrite ext_app by assumption. destruct ls; cbn [dotted]; [apply app_nil_r|reflexivity].
Qed.
Lemma plain_chain : forall d i ls j, plain_at d i ls j -> chain d i ls j /\ (i < j)%nat.
Proof.
  intros d i ls j H. induction H as [|i l ls j L H P (IH1 & IH2)].
  - split; [constructor; assumption|lia].
  - split; [econstructor; eassumption|lia].
Qed.
Lemma easy_name : forall d i ls j, easy_at d i ls j -> name_at d i ls j.
Proof.
  intros d i ls j [H|(hi & lo & e & L & H & C & E & J)].
  - induction H; econstructor; eassumption.
  - subst j. eapply NPtr; eassumption.
Qed.
Lemma easy_loop : forall d i ls j, Forall byte d -> easy_at d i ls j ->
  exists f0, forall f, (f0 <= f)%nat -> pop_name f d i = Ok (Some (dotted ls, j)).
Proof.
  intros d i ls j B [H|(hi & lo & e & L & H & C & E & J)].
  - apply plain_chain in H. destruct H as (C & L). destruct (chain_loop _ _ _ _ B C) as (f0 & K).
    exists f0. intros f F. unfold pop_name. rewrite (K f [] F). cbn [pbind]. rewrite (ext_dotted _ (chain_labels _ _ _ _ C)).
    replace (j <=? i)%nat with false by (symmetry; apply Nat.leb_gt; lia). reflexivity.
  - assert (C' : chain d i ls e) by (eapply CPtr; eassumption). destruct (chain_loop _ _ _ _ B C') as (f0 & K).
    exists f0. intros f F. unfold pop_name. rewrite (K f [] F). cbn [pbind]. rewrite (ext_dotted _ (chain_labels _ _ _ _ C)).
    replace (e <=? i)%nat with true by (symmetry; apply Nat.leb_le; lia). subst j. reflexivity.
Qed.

(* the program's view of a message *)
Definition conv_q (q : question) : query := DQ (dotted (q_name q)) (q_type q) (q_class q).
Definition conv_r (r : record) : answer := DA (dotted (r_name r)) (r_type r) (r_class r) (r_ttl_hi r) (r_ttl_lo r) (r_data r).
Definition conv (m : message) : dns := Dns (m_id m) (m_flags m) (map conv_q (m_questions m)) (map conv_r (m_answers m)).

Lemma queries_loop : forall d i qs j, Forall byte d -> questions_at easy_at d i qs j ->
  exists f0, forall f, (f0 <= f)%nat -> pop_queries f d (length qs) i = Ok (Some (map conv_q qs, j)).
Proof.
  intros d i qs j B H. induction H as [i|i q k r j N T C Q (f1 & IH)].
  - exists 0%nat. reflexivity.
  - destruct (easy_loop _ _ _ _ B N) as (f0 & K). exists (f0 + f1)%nat. intros f F. cbn [length pop_queries].
    rewrite K by lia. cbn [pbind]. rewrite (pop_n16_ok _ _ _ T). cbn [pbind]. rewrite (pop_n16_ok _ _ _ C). cbn [pbind].
    replace (k + 2 + 2)%nat with (k + 4)%nat by lia. rewrite IH by lia. reflexivity.
Qed.
Lemma answers_loop : forall d i rs j, Forall byte d -> records_at easy_at d i rs j ->
  exists f0, forall f, (f0 <= f)%nat -> pop_answers f d (length rs) i = Ok (Some (map conv_r rs, j)).
Proof.
  intros d i rs j B H. induction H as [i|i a k r j N T C TA TB DL DD Q (f1 & IH)].
  - exists 0%nat. reflexivity.
  - destruct (easy_loop _ _ _ _ B N) as (f0 & K). exists (f0 + f1)%nat. intros f F. cbn [length pop_answers].
    rewrite K by lia. cbn [pbind]. rewrite (pop_n16_ok _ _ _ T). cbn [pbind]. rewrite (pop_n16_ok _ _ _ C). cbn [pbind].
    replace (k + 2 + 2)%nat with (k + 4)%nat by lia. rewrite (pop_n16_ok _ _ _ TA). cbn [pbind].
    replace (k + 4 + 2)%nat with (k + 6)%nat by lia. rewrite (pop_n16_ok _ _ _ TB). cbn [pbind].
    replace (k + 6 + 2)%nat with (k + 8)%nat by lia. unfold pop_data at 1. rewrite (pop_n16_ok _ _ _ DL). cbn [pbind].
    replace (k + 8 + 2)%nat with (k + 10)%nat by lia. rewrite Nat2Z.id, (pop_bytes_ok _ _ _ DD). cbn [pbind].
    rewrite IH by lia. reflexivity.
Qed.
Lemma parse_ok : forall d m, Forall byte d -> message_at easy_at d m ->
  exists f0, forall f, (f0 <= f)%nat -> exists j, parse f d = Ok (Some (conv m, j)).
Proof.
  intros d m B (A & F & NQ & NA & (x & X) & (y & Y) & k & j & Q & R).
  destruct (queries_loop _ _ _ _ B Q) as (f0 & K0). destruct (answers_loop _ _ _ _ B R) as (f1 & K1).
  exists (f0 + f1)%nat. intros f L. exists j. unfold parse.
  rewrite (pop_n16_ok _ _ _ A). cbn [pbind Nat.add]. rewrite (pop_n16_ok _ _ _ F). cbn [pbind Nat.add].
  rewrite (pop_n16_ok _ _ _ NQ). cbn [pbind Nat.add]. rewrite (pop_n16_ok _ _ _ NA). cbn [pbind Nat.add].
  rewrite (pop_n16_ok _ _ _ X). cbn [pbind Nat.add]. rewrite (pop_n16_ok _ _ _ Y). cbn [pbind Nat.add].
  rewrite !Nat2Z.id. rewrite K0 by lia. cbn [pbind]. rewrite K1 by lia. reflexivity.
Qed.
Lemma answers_addresses : forall m, host_answers (conv m) = addresses m.
Proof.
  intros m. unfold host_answers, addresses, conv, len. cbn [d_answers].
  induction (m_answers m) as [|r l IH]; [reflexivity|]. cbn [map filter].
  cbn [conv_r da_type da_class da_data]. destruct ((r_type r =? 1) && (r_class r =? 1) && (Z.of_nat (length (r_data r)) =? 4)).
  - cbn [map da_data]. rewrite IH. reflexivity.
  - exact IH.
Qed.
Lemma lookup_ok : forall tid ask host m, parse_ipv4_string host = None -> let d := ask (host_query tid host) in
  Forall byte d -> message_at easy_at d m ->
  exists f0, forall f, (f0 <= f)%nat -> lookup_host f tid ask host = Ok (inl (addresses m)).
Proof.
  intros tid ask host m N d B M. destruct (parse_ok _ _ B M) as (f0 & K). exists f0. intros f F.
  destruct (K f F) as (j & E). unfold lookup_host. rewrite N. fold d. rewrite E. cbn [bind].
  rewrite answers_addresses. reflexivity.
Qed.

(* no response makes it panic *)
Definition calm {A} (x : popped A) : Prop := match x with Ok _ | OutOfFuel => True | _ => False end.
Lemma bind_calm : forall A B (x : popped A) (f : A -> nat -> popped B), calm x -> (forall a i, calm (f a i)) -> calm (pbind x f).
Proof. intros A B x f H K. destruct x as [[(a & i)|]| | |]; cbn in *; auto. Qed.
Lemma u8_calm : forall d i, calm (pop_u8 d i).
Proof.
  intros d i. unfold pop_u8, index. destruct (length d <? i + 1)%nat eqn:E; [exact I|]. apply Nat.ltb_ge in E.
  destruct (nth_error d i) eqn:N; [exact I|]. apply nth_error_None in N. lia.
Qed.
Lemma n16_calm : forall d i, calm (pop_n16 d i).
Proof.
  intros d i. unfold pop_n16, index. destruct (length d <? i + 2)%nat eqn:E; [exact I|]. apply Nat.ltb_ge in E.
  destruct (nth_error d i) eqn:N; [|apply nth_error_None in N; lia]. cbn.
  destruct (nth_error d (i + 1)) eqn:N2; [exact I|apply nth_error_None in N2; lia].
Qed.
Lemma bytes_calm : forall d n i, calm (pop_bytes d n i).
Proof.
  intros d n. induction n as [|n IH]; intros i; [exact I|]. cbn. apply bind_calm; [apply u8_calm|]. intros b j.
  apply bind_calm; [apply IH|]. intros; exact I.
Qed.
Lemma name_calm : forall f d i name, calm (name_loop f d i name).
Proof.
  induction f as [|f IH]; intros d i name; [exact I|]. cbn [name_loop]. apply bind_calm; [apply u8_calm|]. intros n j.
  destruct (Z.land n 192 =? 192).
  - apply bind_calm; [apply n16_calm|]. intros; apply IH.
  - destruct (n =? 0); [exact I|]. apply bind_calm; [apply bytes_calm|]. intros; apply IH.
Qed.
Ltac calm := repeat first [exact I | apply n16_calm | apply bytes_calm | apply name_calm | apply bind_calm; [|intros]].
Lemma queries_calm : forall f d n i, calm (pop_queries f d n i).
Proof. intros f d n. induction n as [|n IH]; intros i; [exact I|]. cbn. unfold pop_name. calm. apply IH. Qed.
Lemma answers_calm : forall f d n i, calm (pop_answers f d n i).
Proof. intros f d n. induction n as [|n IH]; intros i; [exact I|]. cbn. unfold pop_name, pop_data. calm. apply IH. Qed.
Lemma parse_calm : forall f d, parse f d <> Panic /\ parse f d <> Fault.
Proof.
  intros f d. assert (H : calm (parse f d)).
  { unfold parse. calm; first [apply queries_calm|apply answers_calm]. }
  destruct (parse f d); try contradiction; split; discriminate.
Qed.

(* the query *)
Lemma at_app : forall pre l post, at_ (pre ++ l ++ post) (length pre) l.
Proof.
  intros pre l post. unfold at_. rewrite skipn_app, skipn_all, Nat.sub_diag. cbn [skipn app].
  rewrite firstn_app, Nat.sub_diag, firstn_all. cbn [firstn]. apply app_nil_r.
Qed.
Lemma at_app' : forall d pre l post i, d = pre ++ l ++ post -> i = length pre -> at_ d i l.
Proof. intros; subst; apply at_app. Qed.
Lemma split_dotted : forall ls, ls <> [] -> Forall (fun l => Forall (fun c => c <> 46) l) ls -> split_at 46 [] (dotted ls) = ls.
Proof.
  assert (G : forall l cur r, Forall (fun c => c <> 46) l -> split_at 46 cur (l ++ r) = split_at 46 (rev l ++ cur) r).
  { induction l as [|c l IH]; intros cur r F; [reflexivity|]. inversion F; subst. cbn [app split_at].
    replace (c =? 46) with false by lia. rewrite IH by assumption. cbn [rev]. rewrite <- app_assoc. reflexivity. }
  induction ls as [|l ls IH]; intros N F; [congruence|]. inversion F; subst. destruct ls as [|k ls].
  - cbn [dotted]. specialize (G l [] [] H1). rewrite app_nil_r in G. rewrite G. cbn. rewrite app_nil_r, rev_involutive. reflexivity.
  - change (dotted (l :: k :: ls)) with (l ++ 46 :: dotted (k :: ls)). rewrite G by assumption. cbn [split_at].
    change (46 =? 46) with true. cbn iota. rewrite IH by (assumption || discriminate). rewrite app_nil_r, rev_involutive. reflexivity.
Qed.
Definition enc (ls : list label) : list Z := concat (map (fun l => Z.of_nat (length l) :: l) ls).
Lemma plain_enc : forall ls pre post, Forall (fun l => 1 <= Z.of_nat (length l) <= 63) ls ->
  plain_at (pre ++ enc ls ++ 0 :: post) (length pre) ls (length pre + length (enc ls) + 1)%nat.
Proof.
  induction ls as [|l ls IH]; intros pre post F.
  - unfold enc. cbn [map concat app length]. replace (length pre + 0 + 1)%nat with (S (length pre)) by lia. constructor.
    apply (at_app' _ pre [0] post); reflexivity.
  - inversion F; subst. unfold enc. cbn [map concat]. fold (enc ls). constructor; [assumption| |].
    + apply (at_app' _ pre (Z.of_nat (length l) :: l) (enc ls ++ 0 :: post)); [rewrite <- !app_assoc; reflexivity|reflexivity].
    + specialize (IH (pre ++ Z.of_nat (length l) :: l) post H2).
      replace ((pre ++ Z.of_nat (length l) :: l) ++ enc ls ++ 0 :: post) with (pre ++ (Z.of_nat (length l) :: l ++ enc ls) ++ 0 :: post) in IH
        by (rewrite <- !app_assoc; cbn; rewrite <- !app_assoc; reflexivity).
      rewrite app_length in IH. rewrite app_length. cbn [length] in *.
      replace (length pre + S (length l))%nat with (S (length pre) + length l)%nat in IH by lia.
      replace (length pre + (S (length l) + length (enc ls)) + 1)%nat with (S (length pre) + length l + length (enc ls) + 1)%nat by lia. exact IH.
Qed.
Lemma n16_u16 : forall v pre post, 0 <= v < 65536 -> u16_at (pre ++ n16 v ++ post) (length pre) v.
Proof.
  intros v pre post V. exists (v / 256 mod 256), (v mod 256). split; [apply at_app|].
  assert (0 <= v / 256 < 256) by (split; [apply Z.div_pos; lia|apply Z.div_lt_upper_bound; lia]).
  rewrite (Z.mod_small (v / 256)) by lia. pose proof (Z.div_mod v 256 ltac:(lia)). lia.
Qed.
Lemma n16_u16' : forall v d pre post i, d = pre ++ n16 v ++ post -> i = length pre -> 0 <= v < 65536 -> u16_at d i v.
Proof. intros; subst; apply n16_u16; assumption. Qed.
Lemma enc_split : forall ls, Forall (fun l => 1 <= Z.of_nat (length l) <= 63) ls -> concat (map (fun part => (len part mod 256) :: part) ls) = enc ls.
Proof.
  intros ls F. unfold enc. f_equal. apply map_ext_in. intros l I. rewrite Forall_forall in F. specialize (F l I). unfold len.
  rewrite Z.mod_small by lia. reflexivity.
Qed.
Lemma query_ok : forall tid ls ty, 0 <= tid < 65536 -> 0 <= ty < 65536 -> ls <> [] -> Forall host_label ls ->
  message_at plain_at (compile (Dns tid 256 [DQ (dotted ls) ty 1] [])) (Msg tid 256 [Q ls ty 1] []).
Proof.
  intros tid ls ty T TY N F.
  assert (F1 : Forall (fun l => 1 <= Z.of_nat (length l) <= 63) ls) by (eapply Forall_impl; [|exact F]; intros l (A & _); exact A).
  assert (F2 : Forall (fun l => Forall (fun c => c <> 46) l) ls).
  { eapply Forall_impl; [|exact F]. intros l (_ & A). eapply Forall_impl; [|exact A]. intros c (_ & B). exact B. }
  assert (E : compile (Dns tid 256 [DQ (dotted ls) ty 1] []) =
    n16 tid ++ n16 256 ++ n16 1 ++ n16 0 ++ n16 0 ++ n16 0 ++ enc ls ++ 0 :: n16 ty ++ n16 1 ++ []).
  { unfold compile, compile_query. cbn [d_id d_flags d_queries d_answers dq_name dq_type dq_class map concat].
    rewrite split_dotted, enc_split by assumption. change (len [DQ (dotted ls) ty 1] mod 65536) with 1.
    change (len (@nil answer) mod 65536) with 0. rewrite !app_nil_r. rewrite <- ?app_assoc. reflexivity. }
  rewrite E. clear E. set (h := n16 tid ++ n16 256 ++ n16 1 ++ n16 0 ++ n16 0 ++ n16 0).
  unfold message_at. cbn [m_id m_flags m_questions m_answers length].
  repeat split.
  - apply (n16_u16' tid _ [] (n16 256 ++ n16 1 ++ n16 0 ++ n16 0 ++ n16 0 ++ enc ls ++ 0 :: n16 ty ++ n16 1 ++ [])); [reflexivity|reflexivity|lia].
  - apply (n16_u16' 256 _ (n16 tid) (n16 1 ++ n16 0 ++ n16 0 ++ n16 0 ++ enc ls ++ 0 :: n16 ty ++ n16 1 ++ [])); [reflexivity|reflexivity|lia].
  - apply (n16_u16' 1 _ (n16 tid ++ n16 256) (n16 0 ++ n16 0 ++ n16 0 ++ enc ls ++ 0 :: n16 ty ++ n16 1 ++ [])); [reflexivity|reflexivity|lia].
  - apply (n16_u16' 0 _ (n16 tid ++ n16 256 ++ n16 1) (n16 0 ++ n16 0 ++ enc ls ++ 0 :: n16 ty ++ n16 1 ++ [])); [reflexivity|reflexivity|lia].
  - exists 0. apply (n16_u16' 0 _ (n16 tid ++ n16 256 ++ n16 1 ++ n16 0) (n16 0 ++ enc ls ++ 0 :: n16 ty ++ n16 1 ++ [])); [reflexivity|reflexivity|lia].
  - exists 0. apply (n16_u16' 0 _ (n16 tid ++ n16 256 ++ n16 1 ++ n16 0 ++ n16 0) (enc ls ++ 0 :: n16 ty ++ n16 1 ++ [])); [reflexivity|reflexivity|lia].
  - replace (n16 tid ++ n16 256 ++ n16 1 ++ n16 0 ++ n16 0 ++ n16 0 ++ enc ls ++ 0 :: n16 ty ++ n16 1 ++ []) with (h ++ enc ls ++ 0 :: n16 ty ++ n16 1 ++ [])
      by (unfold h; rewrite <- !app_assoc; reflexivity).
    pose proof (plain_enc ls h (n16 ty ++ n16 1 ++ []) F1) as P. change (length h) with 12%nat in P.
    exists (12 + length (enc ls) + 1 + 4)%nat, (12 + length (enc ls) + 1 + 4)%nat. split; [|constructor].
    econstructor; cbn [q_name q_type q_class]; [exact P| | |constructor].
    + apply (n16_u16' ty _ (h ++ enc ls ++ [0]) (n16 1 ++ [])); [rewrite <- !app_assoc; reflexivity|rewrite !app_length; cbn; lia|lia].
    + apply (n16_u16' 1 _ (h ++ enc ls ++ [0] ++ n16 ty) []); [rewrite <- !app_assoc; reflexivity|rewrite !app_length; cbn; lia|lia].
Qed.
Lemma plain_name : forall d i ls j, plain_at d i ls j -> name_at d i ls j.
Proof. intros. apply easy_name. left. assumption. Qed.
Lemma questions_mono : forall (N N' : list Z -> nat -> list label -> nat -> Prop) d, (forall i ls j, N d i ls j -> N' d i ls j) ->
  forall i qs j, questions_at N d i qs j -> questions_at N' d i qs j.
Proof. intros N N' d H i qs j Q. induction Q; econstructor; eauto. Qed.
Lemma records_mono : forall (N N' : list Z -> nat -> list label -> nat -> Prop) d, (forall i ls j, N d i ls j -> N' d i ls j) ->
  forall i qs j, records_at N d i qs j -> records_at N' d i qs j.
Proof. intros N N' d H i qs j Q. induction Q; econstructor; eauto. Qed.
Lemma message_mono : forall (N N' : list Z -> nat -> list label -> nat -> Prop) d m, (forall i ls j, N d i ls j -> N' d i ls j) ->
  message_at N d m -> message_at N' d m.
Proof.
  intros N N' d m H (A & B & C & D & E & F & k & j & Q & R). repeat (split; [assumption|]). exists k, j. split.
  - eapply questions_mono; eassumption.
  - eapply records_mono; eassumption.
Qed.

(* numeric addresses *)
Lemma octet_dec : forall b, byte b -> octet (dec b) = b /\ Forall (fun c => 48 <= c <= 57) (dec b) /\ 1 <= Z.of_nat (length (dec b)) <= 3.
Proof.
  intros b B. unfold byte in B.
  assert (K : forallb (fun k => let b := Z.of_nat k in (octet (dec b) =? b) && forallb (fun c => (48 <=? c) && (c <=? 57)) (dec b) &&
    ((1 <=? Z.of_nat (length (dec b))) && (Z.of_nat (length (dec b)) <=? 3))) (seq 0 256) = true) by (vm_compute; reflexivity).
  rewrite forallb_forall in K. specialize (K (Z.to_nat b)). cbv zeta in K. rewrite Z2Nat.id in K by lia.
  specialize (K ltac:(apply in_seq; lia)). apply andb_prop in K. destruct K as (K & K3). apply andb_prop in K. destruct K as (K1 & K2).
  apply andb_prop in K3. destruct K3 as (K3 & K4). repeat split; try lia.
  rewrite forallb_forall in K2. apply Forall_forall. intros c I. specialize (K2 c I). lia.
Qed.
Lemma trim_id : forall l, (forall c, In c l -> space c = false) -> trim l = l.
Proof.
  intros l H. unfold trim.
  assert (D : forall k, (forall c, In c k -> space c = false) -> drop_space k = k).
  { intros [|c k] G; [reflexivity|]. cbn. rewrite G by (left; reflexivity). reflexivity. }
  rewrite (D l H). rewrite D by (intros c I; apply H, in_rev; exact I). apply rev_involutive.
Qed.
Lemma numeric_ok : forall a b c d, byte a -> byte b -> byte c -> byte d ->
  parse_ipv4_string (dotted [dec a; dec b; dec c; dec d]) = Some [a; b; c; d].
Proof.
  intros a b c d A B C D. destruct (octet_dec a A) as (A1 & A2 & _). destruct (octet_dec b B) as (B1 & B2 & _).
  destruct (octet_dec c C) as (C1 & C2 & _). destruct (octet_dec d D) as (D1 & D2 & _).
  unfold parse_ipv4_string.
  assert (N : forall x, Forall (fun c => 48 <= c <= 57) x -> Forall (fun c => c <> 46) x).
  { intros x F. eapply Forall_impl; [|exact F]. intros z G. cbv beta in *. lia. }
  rewrite trim_id.
  - rewrite split_dotted; [|discriminate|repeat constructor; apply N; assumption].
    cbn [map]. rewrite A1, B1, C1, D1. reflexivity.
  - assert (S : forall x c, Forall (fun c => 48 <= c <= 57) x -> In c x -> space c = false).
    { intros x e F I. rewrite Forall_forall in F. specialize (F e I). unfold space. lia. }
    cbn [dotted]. intros e I. repeat (apply in_app_or in I; destruct I as [I|I]; [eapply S; [|exact I]; assumption|]; try (destruct I as [I|I]; [subst e; reflexivity|])).
    eapply S; [|exact I]; assumption.
Qed.

(* names of addresses *)
Lemma reverse_labels : forall a, reverse_name a = dotted (map dec (rev a) ++ [[105; 110; 45; 97; 100; 100; 114]; [97; 114; 112; 97]]).
Proof.
  intros a. unfold reverse_name. induction (rev a) as [|b l IH]; [reflexivity|]. cbn [map concat app]. unfold dot at 1.
  rewrite <- !app_assoc. rewrite IH. cbn [app].
  destruct (map dec l ++ [[105; 110; 45; 97; 100; 100; 114]; [97; 114; 112; 97]]) as [|x y] eqn:E; [destruct l; discriminate|]. reflexivity.
Qed.
Lemma addr_query_ok : forall tid a, 0 <= tid < 65536 -> Forall byte a ->
  message_at plain_at (addr_query tid a) (Msg tid 256 [Q (map dec (rev a) ++ [[105; 110; 45; 97; 100; 100; 114]; [97; 114; 112; 97]]) 12 1] []).
Proof.
  intros tid a T A. unfold addr_query. rewrite reverse_labels. apply query_ok; [lia|lia| |].
  - destruct (map dec (rev a)); discriminate.
  - apply Forall_app. split.
    + apply Forall_forall. intros l I. apply in_map_iff in I. destruct I as (b & E & I). subst l. apply in_rev in I.
      rewrite Forall_forall in A. destruct (octet_dec b (A b I)) as (_ & D & L). split; [lia|].
      eapply Forall_impl; [|exact D]. intros z G. cbv beta in *. lia.
    + repeat constructor; cbn; try lia.
Qed.

Lemma set_nth_app : forall a x b v, set_nth (a ++ x :: b) (length a) v = a ++ v :: b.
Proof. induction a as [|y a IH]; intros; cbn; [reflexivity|]. f_equal. apply IH. Qed.
Definition dots (ls : list label) : list Z := concat (map (fun l => l ++ [46]) ls).
Lemma dots_len : forall ls, length (dots ls) = length (enc ls).
Proof. induction ls as [|l ls IH]; [reflexivity|]. unfold dots, enc in *. cbn [map concat]. rewrite !app_length. cbn [length]. rewrite IH. lia. Qed.
Lemma dots_dotted : forall ls, ls <> [] -> dots ls = dotted ls ++ [46].
Proof.
  induction ls as [|l ls IH]; intros N; [congruence|]. unfold dots in *. cbn [map concat]. destruct ls as [|k ls].
  - cbn. rewrite app_nil_r. reflexivity.
  - rewrite IH by discriminate. change (dotted (l :: k :: ls)) with (l ++ 46 :: dotted (k :: ls)). rewrite <- !app_assoc. reflexivity.
Qed.
Lemma enc_app : forall a b, enc (a ++ b) = enc a ++ enc b.
Proof. intros. unfold enc. rewrite map_app, concat_app. reflexivity. Qed.
Lemma dots_app : forall a b, dots (a ++ b) = dots a ++ dots b.
Proof. intros. unfold dots. rewrite map_app, concat_app. reflexivity. Qed.
Lemma rev_ok : forall todo done f, Forall (fun l => 1 <= Z.of_nat (length l) <= 63) (done ++ todo) -> done ++ todo <> [] -> (length (enc todo) < f)%nat ->
  let d := enc (done ++ todo) ++ [0] in
  rev_loop f d (dots done ++ skipn (S (length (enc done))) d) (length (enc done)) (length (enc done)) = Ok (dotted (done ++ todo) ++ [0]).
Proof.
  induction todo as [|l todo IH]; intros done f F N L d.
  - destruct f as [|f]; [lia|]. cbn [rev_loop]. subst d. rewrite app_nil_r in *.
    rewrite app_length. cbn [length].
    replace (length (enc done) <? length (enc done) + 1 - 1)%nat with false by (symmetry; apply Nat.ltb_ge; lia).
    rewrite skipn_all2 by (rewrite app_length; cbn; lia). rewrite app_nil_r, dots_dotted by assumption.
    destruct (dotted done ++ [46]) eqn:E; [destruct (dotted done); discriminate|]. rewrite <- E, removelast_last. reflexivity.
  - destruct f as [|f]; [lia|]. cbn [rev_loop].
    assert (D : d = enc done ++ (Z.of_nat (length l) :: l) ++ enc todo ++ [0]).
    { subst d. rewrite enc_app. unfold enc at 2. cbn [map concat]. fold (enc todo). rewrite <- !app_assoc. reflexivity. }
    assert (Ll : 1 <= Z.of_nat (length l) <= 63).
    { apply Forall_app in F. destruct F as (_ & F). inversion F. assumption. }
    assert (LD : length d = (length (enc done) + 1 + length l + length (enc todo) + 1)%nat).
    { rewrite D, !app_length. cbn [length]. lia. }
    replace (length (enc done) <? length d - 1)%nat with true by (symmetry; apply Nat.ltb_lt; lia).
    unfold index. assert (NE : nth_error d (length (enc done)) = Some (Z.of_nat (length l))).
    { rewrite D, nth_error_app2, Nat.sub_diag by lia. reflexivity. }
    rewrite NE. cbn [bind]. unfold len. replace (Z.of_nat (length d) - 1 <? Z.of_nat (length l)) with false by lia.
    rewrite Nat2Z.id.
    assert (SK : exists x, skipn (S (length (enc done))) d = l ++ x :: skipn (S (length (enc (done ++ [l])))) d).
    { assert (T : exists x r, enc todo ++ [0] = x :: r) by (destruct (enc todo) as [|y z]; [exists 0, []|exists y, (z ++ [0])]; reflexivity).
      destruct T as (x & r & T). exists x.
      assert (LE : length (enc (done ++ [l])) = (length (enc done) + 1 + length l)%nat).
      { rewrite enc_app, app_length. unfold enc at 2. cbn. rewrite app_nil_r. lia. }
      assert (SS : forall (p q : list Z) n, n = length p -> skipn n (p ++ q) = q).
      { intros p q n ->. rewrite skipn_app, skipn_all, Nat.sub_diag. reflexivity. }
      rewrite LE, D, T.
      replace (enc done ++ (Z.of_nat (length l) :: l) ++ x :: r) with ((enc done ++ [Z.of_nat (length l)]) ++ l ++ x :: r) at 1
        by (rewrite <- app_assoc; reflexivity).
      rewrite SS by (rewrite app_length; cbn; lia).
      replace (enc done ++ (Z.of_nat (length l) :: l) ++ x :: r) with ((enc done ++ (Z.of_nat (length l) :: l) ++ [x]) ++ r)
        by (cbn [app]; rewrite <- ?app_assoc; cbn [app]; rewrite <- ?app_assoc; reflexivity).
      rewrite SS by (rewrite !app_length; cbn; lia). reflexivity. }
    destruct SK as (x & SK). rewrite SK.
    assert (DL := dots_len done).
    replace (length (enc done) + length l + 1 - 1)%nat with (length (dots done ++ l)) by (rewrite app_length; lia).
    replace (dots done ++ l ++ x :: skipn (S (length (enc (done ++ [l])))) d) with ((dots done ++ l) ++ x :: skipn (S (length (enc (done ++ [l])))) d)
      by (rewrite <- app_assoc; reflexivity).
    replace (length (dots done ++ l) <? length ((dots done ++ l) ++ x :: skipn (S (length (enc (done ++ [l])))) d))%nat with true
      by (symmetry; apply Nat.ltb_lt; rewrite (app_length (dots done ++ l)); cbn; lia).
    rewrite set_nth_app.
    assert (A1 : done ++ l :: todo = (done ++ [l]) ++ todo) by (rewrite <- app_assoc; reflexivity).
    assert (E1 : (dots done ++ l) ++ 46 :: skipn (S (length (enc (done ++ [l])))) d = dots (done ++ [l]) ++ skipn (S (length (enc (done ++ [l])))) d).
    { rewrite dots_app. unfold dots at 3. cbn. rewrite app_nil_r, <- !app_assoc. reflexivity. }
    rewrite E1.
    assert (LE : (length (enc done) + length l + 1)%nat = length (enc (done ++ [l]))).
    { symmetry. rewrite enc_app, app_length. unfold enc at 2. cbn. rewrite app_nil_r. lia. }
    rewrite LE. subst d. rewrite A1. apply IH.
    + rewrite <- A1. exact F.
    + rewrite <- A1. exact N.
    + unfold enc in L at 1. cbn [map concat] in L. fold (enc todo) in L. rewrite app_length in L. cbn [length] in L. lia.
Qed.
Lemma revdns_ok : forall ls, ls <> [] -> Forall (fun l => 1 <= Z.of_nat (length l) <= 63) ls -> parse_revdns (enc ls ++ [0]) = Ok (dotted ls ++ [0]).
Proof.
  intros ls N F. pose proof (rev_ok ls [] (S (length (enc ls ++ [0]))) F N ltac:(rewrite app_length; lia)) as H.
  cbn [app] in H. cbv zeta in H. change (length (enc [])) with 0%nat in H. change (dots []) with (@nil Z) in H. cbn [app] in H.
  unfold parse_revdns, label in *. destruct (enc ls ++ [0]) as [|c r] eqn:E; [destruct (enc ls); discriminate|].
  destruct ls as [|l ls]; [congruence|]. inversion F; subst. unfold enc in E. cbn [map concat app] in E. inversion E; subst c.
  replace (Z.of_nat (length l) =? 0) with false by lia. rewrite H4. exact H.
Qed.

Definition is_ptr (r : record) : bool := (r_type r =? 12) && (r_class r =? 1).
Lemma all_names_ok : forall l nss, map r_data (filter is_ptr l) = map (fun ls => enc ls ++ [0]) nss ->
  Forall (fun ls => ls <> [] /\ Forall (fun l => 1 <= Z.of_nat (length l) <= 63) ls) nss ->
  all_names (map conv_r l) = Ok (map (fun ls => dotted ls ++ [0]) nss).
Proof.
  induction l as [|r l IH]; intros nss E F; cbn [map filter all_names] in *.
  - destruct nss; [reflexivity|discriminate].
  - cbn [conv_r da_type da_class da_data]. unfold is_ptr at 1 in E. destruct ((r_type r =? 12) && (r_class r =? 1)).
    + cbn [map] in E. destruct nss as [|ls nss]; [discriminate|]. cbn [map] in E. inversion E as [[E1 E2]]. inversion F as [|x y (N & G) F']; subst.
      rewrite E1, (revdns_ok ls N G). cbn [bind]. rewrite (IH nss E2 F'). reflexivity.
    + apply IH; assumption.
Qed.
Lemma lookup_addr_ok : forall tid ask a m nss, let d := ask (addr_query tid a) in
  Forall byte d -> message_at easy_at d m -> map r_data (filter is_ptr (m_answers m)) = map (fun ls => enc ls ++ [0]) nss ->
  Forall (fun ls => ls <> [] /\ Forall (fun l => 1 <= Z.of_nat (length l) <= 63) ls) nss ->
  exists f0, forall f, (f0 <= f)%nat -> lookup_addr f tid ask a = Ok (inl (map (fun ls => dotted ls ++ [0]) nss)).
Proof.
  intros tid ask a m nss d B M E F. destruct (parse_ok _ _ B M) as (f0 & K). exists f0. intros f L. destruct (K f L) as (j & P).
  unfold lookup_addr. fold d. rewrite P. cbn [bind]. cbn [conv d_answers]. rewrite (all_names_ok _ _ E F). reflexivity.
Qed.
