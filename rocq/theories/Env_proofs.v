From Verif Require Import Base String_model String_proofs Env_model Env_spec.

Lemma leqb_spec a b : reflect (a = b) (leqb a b).
Proof. unfold leqb. destruct (list_eq_dec Z.eq_dec a b); constructor; assumption. Qed.
Lemma leqb_refl a : leqb a a = true.
Proof. destruct (leqb_spec a a); [reflexivity|contradiction]. Qed.

(** A query: a name terminated by NUL or '=' *)
Definition query (m : mem) (p : Z) (k : list Z) : Prop :=
  Forall (fun c => is_char c /\ c <> 61) k /\ bytes_at m p k /\ (m (p + len k) = Some 0 \/ m (p + len k) = Some 61).

Lemma match_item_ok m n : forall k v fuel item search,
  Forall (fun c => is_char c /\ c <> 61) n -> bytes_at m item (entry n v) -> query m search k ->
  (length k < fuel)%nat ->
  match_item fuel m item search = Ok (if leqb k n then Some (item + len n + 1) else None).
Proof.
  induction n as [|c n IH]; intros k v fuel item search Fn B [Fk [Bk Ek]] Hf; destruct fuel as [|fuel]; try lia; cbn [match_item].
  - cbn [entry app] in B. destruct B as [B _]. destruct k as [|d k].
    + rewrite len_nil, Z.add_0_r in *. destruct Ek as [Ek|Ek]; rewrite (ld_ok _ _ _ Ek); cbn [bind Z.eqb orb Pos.eqb]; rewrite (ld_ok _ _ _ B); reflexivity.
    + destruct Bk as [Bd Bk]. rewrite (ld_ok _ _ _ Bd). cbn [bind]. rewrite (ld_ok _ _ _ B). cbn [bind Z.eqb orb Pos.eqb].
      apply Forall_cons_iff in Fk. destruct Fk as [[Fd Fd'] Fk]. unfold is_char in Fd.
      destruct (Z.eqb_spec d 0); [lia|]. destruct (Z.eqb_spec d 61); [lia|]. cbn [orb andb].
      destruct (leqb_spec (d :: k) []); [discriminate|reflexivity].
  - cbn [entry app] in B. destruct B as [B0 B]. apply Forall_cons_iff in Fn. destruct Fn as [[Fc Fc'] Fn]. unfold is_char in Fc.
    destruct k as [|d k].
    + rewrite len_nil, Z.add_0_r in *.
      destruct Ek as [Ek|Ek]; rewrite (ld_ok _ _ _ Ek); cbn [bind Z.eqb orb Pos.eqb]; rewrite (ld_ok _ _ _ B0); cbn [bind];
        destruct (Z.eqb_spec c 0); try lia; destruct (Z.eqb_spec c 61); try lia; reflexivity.
    + destruct Bk as [Bd Bk]. rewrite (ld_ok _ _ _ Bd). cbn [bind]. rewrite (ld_ok _ _ _ B0). cbn [bind].
      apply Forall_cons_iff in Fk. destruct Fk as [[Fd Fd'] Fk]. unfold is_char in Fd.
      destruct (Z.eqb_spec d 0); [lia|]. destruct (Z.eqb_spec d 61); [lia|].
      destruct (Z.eqb_spec c 0); [lia|]. destruct (Z.eqb_spec c 61); [lia|]. cbn [orb].
      destruct (Z.eqb_spec c d) as [->|N]; cbn [negb].
      * rewrite (IH k v); auto.
        -- replace (item + 1 + len n + 1) with (item + len (d :: n) + 1) by (rewrite len_cons; lia).
           destruct (leqb_spec k n) as [E0|E0]; destruct (leqb_spec (d :: k) (d :: n)) as [E|E]; try reflexivity; congruence.
        -- split; [exact Fk|]. split; [exact Bk|]. rewrite len_cons in Ek.
           replace (search + 1 + len k) with (search + (len k + 1)) by lia. exact Ek.
        -- cbn in Hf. lia.
      * destruct (leqb_spec (d :: k) (c :: n)) as [E|E]; [congruence|reflexivity].
Qed.

(** index and address of the value of the first entry named k *)
Fixpoint find_at (ps : list Z) (es : list (list Z * list Z)) (k : list Z) (i : nat) : option (nat * Z) :=
  match ps, es with
  | p :: ps', (n, v) :: es' => if leqb k n then Some (i, p + len n + 1) else find_at ps' es' k (S i)
  | _, _ => None
  end.

Lemma find_env_ok cap m fuel search k : query m search k -> (length k < fuel)%nat -> forall ps es i,
  Forall2 (fun p kv => name_ok (fst kv) /\ value_ok (snd kv) /\ 0 < p /\
                     len (entry (fst kv) (snd kv)) < cap p /\
                     cstr m p (entry (fst kv) (snd kv))) ps es ->
  find_env fuel m ps search i = Ok (find_at ps es k i).
Proof.
  intros Q Hf. induction ps as [|p ps IH]; intros es i F; destruct es as [|[n v] es]; inversion F; subst; cbn [find_env find_at]; [reflexivity|].
  cbn [fst snd] in *. destruct H2 as [[Fn _] [_ [_ [_ C]]]].
  rewrite (match_item_ok m n k v fuel p search Fn (cstr_bytes _ _ _ C) Q Hf). cbn [bind].
  destruct (leqb k n); [reflexivity|]. apply IH. assumption.
Qed.

Lemma find_at_some ps es k : forall i j a, find_at ps es k i = Some (j, a) -> length ps = length es ->
  exists ps1 p ps2 es1 v es2, ps = ps1 ++ p :: ps2 /\ es = es1 ++ (k, v) :: es2 /\ length ps1 = length es1 /\
    (j = i + length ps1)%nat /\ a = p + len k + 1 /\ (forall kv, In kv es1 -> fst kv <> k).
Proof.
  revert es; induction ps as [|p ps IH]; intros [|[n v] es] i j a H L; try discriminate. cbn [find_at] in H.
  destruct (leqb_spec k n) as [->|N].
  - injection H as <- <-. exists [], p, ps, [], v, es. repeat split; auto; try (cbn; lia); try (intros kv []).
  - destruct (IH es (S i) j a H) as [ps1 [q [ps2 [es1 [v' [es2 [-> [-> [L1 [-> [-> F]]]]]]]]]]]; [cbn in L; lia|].
    exists (p :: ps1), q, ps2, ((n, v) :: es1), v', es2. repeat split; auto; cbn; try lia.
    intros kv [<-|I]; [cbn; congruence|auto].
Qed.
Lemma find_at_none ps es k : forall i, find_at ps es k i = None -> length ps = length es -> forall kv, In kv es -> fst kv <> k.
Proof.
  revert es; induction ps as [|p ps IH]; intros [|[n v] es] i H L kv I; try discriminate; [destruct I|]. cbn [find_at] in H.
  destruct (leqb_spec k n) as [->|N]; [discriminate|]. destruct I as [<-|I]; [cbn; congruence|]. eapply IH; eauto.
Qed.

(** lookup facts *)
Lemma lookup_none es k : (forall kv, In kv es -> fst kv <> k) -> lookup es k = None.
Proof.
  induction es as [|[n v] es IH]; intros H; cbn [lookup]; [reflexivity|].
  destruct (leqb_spec k n) as [->|N]; [exfalso; apply (H (n, v)); [left; reflexivity|reflexivity]|].
  apply IH. intros kv I. apply H. right. exact I.
Qed.
Lemma lookup_app es1 es2 k : lookup (es1 ++ es2) k = match lookup es1 k with Some v => Some v | None => lookup es2 k end.
Proof. induction es1 as [|[n v] es IH]; cbn [app lookup]; [reflexivity|]. destruct (leqb k n); auto. Qed.
Lemma lookup_in es k v : NoDup (map fst es) -> In (k, v) es -> lookup es k = Some v.
Proof.
  induction es as [|[n w] es IH]; intros D I; [destruct I|]. cbn [map fst] in D. apply NoDup_cons_iff in D. destruct D as [D1 D].
  cbn [lookup]. destruct I as [[= -> ->]|I]; [rewrite leqb_refl; reflexivity|].
  destruct (leqb_spec k n) as [->|N]; [|auto]. exfalso. apply D1. apply (in_map fst) in I. exact I.
Qed.

Lemma copy_nonov_ok m src dst l : bytes_at m src l -> mapped m dst (len l) -> disjoint src (len l) dst (len l) ->
  exists m', copy_nonoverlapping m src dst (len l) = Ok m' /\ stored m m' dst l.
Proof.
  intros B M D. unfold copy_nonoverlapping, disjoint in *. pose proof (len_nonneg l).
  destruct ((0 <? len l) && (src <? dst + len l) && (dst <? src + len l)) eqn:G; [lia|].
  unfold len at 1. rewrite Nat2Z.id. apply copy_fwd_ok; auto. lia.
Qed.

Lemma copy_kv_ok m a pk pv k v n : bytes_at m pk k -> bytes_at m pv v -> n = len k + 1 + len v + 1 ->
  mapped m a n -> disjoint a n pk (len k) -> disjoint a n pv (len v) ->
  exists m', copy_kv m a pk pv (len k) (len v) = Ok m' /\ stored m m' a (entry k v ++ [0]).
Proof.
  intros Bk Bv -> M Dk Dv. unfold copy_kv, disjoint in *. pose proof (len_nonneg k). pose proof (len_nonneg v).
  destruct (copy_nonov_ok m pk a k Bk) as [m1 [E1 S1]]; [eapply mapped_sub; [exact M|lia|lia]|unfold disjoint; lia|].
  rewrite E1. cbn [bind].
  assert (M1 : mapped m1 a (len k + 1 + len v + 1)) by (eapply stored_mapped; eauto).
  rewrite st_ok by (apply M1; lia). cbn [bind].
  pose proof (stored_snoc _ _ _ _ 61 _ S1 eq_refl) as S2. set (m2 := upd m1 (a + len k) 61) in *.
  assert (M2 : mapped m2 a (len k + 1 + len v + 1)) by (eapply stored_mapped; eauto).
  destruct (copy_nonov_ok m2 pv (a + len k + 1) v) as [m3 [E3 S3]].
  { eapply stored_frame; [exact S2| |exact Bv]. rewrite len_app, len_cons, len_nil. unfold disjoint. lia. }
  { eapply mapped_sub; [exact M2|lia|lia]. }
  { unfold disjoint. lia. }
  rewrite E3. cbn [bind].
  assert (M3 : mapped m3 a (len k + 1 + len v + 1)) by (eapply stored_mapped; [exact S3|exact M2]).
  rewrite st_ok by (apply M3; lia). eexists. split; [reflexivity|].
  assert (S3' : stored m2 m3 (a + len (k ++ [61])) v).
  { rewrite len_app, len_cons, len_nil. replace (a + (len k + (0 + 1))) with (a + len k + 1) by lia. exact S3. }
  pose proof (stored_app _ _ _ _ _ _ S2 S3') as S4.
  replace (entry k v ++ [0]) with (((k ++ [61]) ++ v) ++ [0]) by (unfold entry; rewrite <- !app_assoc; reflexivity).
  eapply stored_snoc; [exact S4|]. rewrite !len_app, len_cons, len_nil.
  replace (a + (len k + (0 + 1) + len v)) with (a + len k + 1 + len v) by lia. reflexivity.
Qed.

(** entries are unaffected by changes outside their blocks *)
Definition slot_ok (cap : Z -> Z) (m : mem) (p : Z) (kv : list Z * list Z) : Prop :=
  name_ok (fst kv) /\ value_ok (snd kv) /\ 0 < p /\
  len (entry (fst kv) (snd kv)) < cap p /\ cstr m p (entry (fst kv) (snd kv)).
Lemma slot_ext cap m m' p kv : (forall x, p <= x < p + cap p -> m' x = m x) -> slot_ok cap m p kv -> slot_ok cap m' p kv.
Proof.
  intros H [A [B [C [D E]]]]. repeat (split; [assumption|]). eapply cstr_ext; [|exact E]. intros x Hx. apply H. lia.
Qed.
Lemma Forall2_slot_ext cap m m' ps es : (forall p x, In p ps -> p <= x < p + cap p -> m' x = m x) ->
  Forall2 (slot_ok cap m) ps es -> Forall2 (slot_ok cap m') ps es.
Proof.
  intros H F. induction F as [|p kv ps es S F IH]; constructor.
  - eapply slot_ext; [|exact S]. intros x Hx. apply (H p); [left; reflexivity|exact Hx].
  - apply IH. intros q x I Hx. apply (H q); [right; exact I|exact Hx].
Qed.

(** Client writes outside the blocks keep the environment. *)
Lemma holds_ext cap m m' ps es : (forall x, owned cap ps x -> m' x = m x) -> holds cap m ps es -> holds cap m' ps es.
Proof.
  intros H [A B C D]. constructor; auto.
  - apply (Forall2_slot_ext cap m); [|exact A]. intros p x I Hx. apply H. exists p. auto.
  - intros p I x Hx. rewrite H; [apply (B p I x Hx)|exists p; auto].
Qed.

Lemma entry_len k v : len (entry k v) = len k + 1 + len v.
Proof. unfold entry. rewrite len_app, len_cons. lia. Qed.
Lemma entry_chars k v : name_ok k -> value_ok v -> Forall is_char (entry k v).
Proof.
  intros [A _] B. unfold entry. apply Forall_app. split; [eapply Forall_impl; [|exact A]; cbn; intros; tauto|].
  constructor; [unfold is_char; lia|exact B].
Qed.

Lemma FOP_app (R : Z -> Z -> Prop) l k : ForallOrdPairs R (l ++ k) <->
  ForallOrdPairs R l /\ ForallOrdPairs R k /\ forall a b, In a l -> In b k -> R a b.
Proof.
  induction l as [|x l IH]; cbn [app].
  - split; [intros H; split; [constructor|split; [exact H|intros a b []]]|tauto].
  - split.
    + intros H. inversion H; subst. apply IH in H3. destruct H3 as [A [B C]]. apply Forall_app in H2. destruct H2 as [F1 F2].
      split; [constructor; assumption|]. split; [exact B|]. intros a b [<-|I] J; [rewrite Forall_forall in F2; auto|auto].
    + intros [A [B C]]. inversion A; subst. constructor.
      * apply Forall_app. split; [assumption|]. apply Forall_forall. intros b J. apply C; [left; reflexivity|exact J].
      * apply IH. split; [assumption|]. split; [assumption|]. intros a b I J. apply C; [right; exact I|exact J].
Qed.

Lemma lookup_mid es1 k v es2 n : (forall kv, In kv es1 -> fst kv <> k) ->
  lookup (es1 ++ (k, v) :: es2) n = if leqb n k then Some v else lookup (es1 ++ es2) n.
Proof.
  intros H. rewrite !lookup_app. cbn [lookup]. destruct (leqb_spec n k) as [->|N]; [|reflexivity].
  rewrite lookup_none by exact H. reflexivity.
Qed.

Lemma NoDup_mid {A} (l1 l2 : list A) x : NoDup (l1 ++ x :: l2) -> NoDup (l1 ++ l2) /\ ~ In x (l1 ++ l2).
Proof. intros H. split; [eapply NoDup_remove_1; eauto|eapply NoDup_remove_2; eauto]. Qed.

Lemma Forall2_split {A B} (R : A -> B -> Prop) l1 l2 k1 k2 : Forall2 R (l1 ++ l2) (k1 ++ k2) -> length l1 = length k1 ->
  Forall2 R l1 k1 /\ Forall2 R l2 k2.
Proof.
  revert k1; induction l1 as [|a l1 IH]; intros [|b k1] F L; try discriminate; cbn [app] in F; [split; [constructor|exact F]|].
  inversion F; subst. destruct (IH k1 H4) as [A1 A2]; [cbn in L; lia|]. split; [constructor; assumption|assumption].
Qed.
Lemma disjoint_sym a n b k : disjoint a n b k -> disjoint b k a n.
Proof. unfold disjoint. lia. Qed.
Lemma NoDup_snoc {A} (l : list A) x : NoDup l -> ~ In x l -> NoDup (l ++ [x]).
Proof.
  induction l as [|y l IH]; intros D N; cbn [app]; [constructor; [intros []|constructor]|].
  apply NoDup_cons_iff in D. destruct D as [D1 D]. constructor.
  - intros I. apply in_app_or in I. destruct I as [I|[<-|[]]]; [auto|]. apply N. left. reflexivity.
  - apply IH; [exact D|]. intros I. apply N. right. exact I.
Qed.

(** The slot at position |ps1| is replaced by (or keeps) p' whose block now holds k=v. *)
Lemma holds_replace cap m m' ps1 p ps2 es1 k v es2 p' v' :
  holds cap m (ps1 ++ p :: ps2) (es1 ++ (k, v) :: es2) -> length ps1 = length es1 ->
  (forall x, ~ (p' <= x < p' + cap p') -> m' x = m x) -> mapped m' p' (cap p') ->
  p' = p \/ (apart cap (ps1 ++ p :: ps2) p' (cap p')) ->
  slot_ok cap m' p' (k, v') ->
  holds cap m' (ps1 ++ p' :: ps2) (es1 ++ (k, v') :: es2).
Proof.
  intros [A B C D] L O M P S. change (Forall2 (slot_ok cap m) (ps1 ++ p :: ps2) (es1 ++ (k, v) :: es2)) in A.
  destruct (Forall2_split _ _ _ _ _ A L) as [A1 A2]. inversion A2; subst; clear A2.
  apply FOP_app in C. destruct C as [C1 [C2 C3]]. inversion C2; subst; clear C2.
  assert (P1 : forall q, In q ps1 -> disjoint q (cap q) p' (cap p')).
  { intros q I. destruct P as [->|P]; [apply C3; [exact I|left; reflexivity]|apply P, in_or_app; left; exact I]. }
  assert (P2 : forall q, In q ps2 -> disjoint p' (cap p') q (cap q)).
  { intros q I. destruct P as [->|P]; [rewrite Forall_forall in H1; auto|apply disjoint_sym, P, in_or_app; right; right; exact I]. }
  constructor.
  - change (Forall2 (slot_ok cap m') (ps1 ++ p' :: ps2) (es1 ++ (k, v') :: es2)). apply Forall2_app.
    + apply (Forall2_slot_ext cap m); [|exact A1]. intros q x I Hx. apply O. specialize (P1 q I). unfold disjoint in P1. lia.
    + constructor; [exact S|]. apply (Forall2_slot_ext cap m); [|assumption].
      intros q x I Hx. apply O. specialize (P2 q I). unfold disjoint in P2. lia.
  - intros q I. apply in_app_or in I. destruct I as [I|[<-|I]]; [| exact M |].
    + intros x Hx. rewrite O; [apply (B q); [apply in_or_app; left; exact I|exact Hx]|].
      specialize (P1 q I). unfold disjoint in P1. lia.
    + intros x Hx. rewrite O; [apply (B q); [apply in_or_app; right; right; exact I|exact Hx]|].
      specialize (P2 q I). unfold disjoint in P2. lia.
  - apply FOP_app. split; [exact C1|]. split.
    + constructor; [apply Forall_forall; exact P2|assumption].
    + intros a b I [<-|J]; [apply P1; exact I|apply C3; [exact I|right; exact J]].
  - rewrite map_app in *. exact D.
Qed.

Lemma holds_snoc cap m m' ps es p k v :
  holds cap m ps es -> (forall kv, In kv es -> fst kv <> k) ->
  (forall x, ~ (p <= x < p + cap p) -> m' x = m x) -> mapped m' p (cap p) ->
  apart cap ps p (cap p) -> slot_ok cap m' p (k, v) ->
  holds cap m' (ps ++ [p]) (es ++ [(k, v)]).
Proof.
  intros [A B C D] N O M P S. constructor.
  - change (Forall2 (slot_ok cap m') (ps ++ [p]) (es ++ [(k, v)])). apply Forall2_app; [|constructor; [exact S|constructor]].
    apply (Forall2_slot_ext cap m); [|exact A]. intros q x I Hx. apply O. specialize (P q I). unfold disjoint in P. lia.
  - intros q I. apply in_app_or in I. destruct I as [I|[<-|[]]]; [|exact M].
    intros x Hx. rewrite O; [apply (B q I x Hx)|]. specialize (P q I). unfold disjoint in P. lia.
  - apply FOP_app. split; [exact C|]. split; [constructor; constructor|]. intros a b I [<-|[]]. apply P. exact I.
  - rewrite map_app. cbn [map fst]. apply NoDup_snoc; [exact D|]. intros I. apply in_map_iff in I. destruct I as [kv [E I]]. apply (N kv I E).
Qed.

Lemma holds_remove cap m ps1 p ps2 es1 kv es2 :
  holds cap m (ps1 ++ p :: ps2) (es1 ++ kv :: es2) -> length ps1 = length es1 -> holds cap m (ps1 ++ ps2) (es1 ++ es2).
Proof.
  intros [A B C D] L. destruct (Forall2_split _ _ _ _ _ A L) as [A1 A2]. inversion A2; subst; clear A2.
  apply FOP_app in C. destruct C as [C1 [C2 C3]]. inversion C2; subst; clear C2. constructor.
  - apply Forall2_app; assumption.
  - intros q I. apply B. apply in_app_or in I. apply in_or_app. destruct I; [left|right; right]; assumption.
  - apply FOP_app. split; [assumption|]. split; [assumption|]. intros a b I J. apply C3; [assumption|right; assumption].
  - rewrite map_app in *. cbn [map] in D. eapply NoDup_remove_1; eauto.
Qed.

Lemma write_slot_ok ps1 p ps2 p' : write_slot (ps1 ++ p :: ps2) (0 + length ps1) p' = ps1 ++ p' :: ps2.
Proof.
  unfold write_slot. cbn [Nat.add]. rewrite firstn_app, Nat.sub_diag, firstn_all, firstn_O, app_nil_r.
  rewrite skipn_app, skipn_all2 by lia. replace (S (length ps1) - length ps1)%nat with 1%nat by lia. reflexivity.
Qed.
Lemma remove_slot_ok (ps1 : list Z) p ps2 :
  firstn (0 + length ps1) (ps1 ++ p :: ps2) ++ skipn (S (0 + length ps1)) (ps1 ++ p :: ps2) = ps1 ++ ps2.
Proof.
  cbn [Nat.add]. rewrite firstn_app, Nat.sub_diag, firstn_all, firstn_O, app_nil_r.
  rewrite skipn_app, skipn_all2 by lia. replace (S (length ps1) - length ps1)%nat with 1%nat by lia. reflexivity.
Qed.

Lemma F2len {A B} (R : A -> B -> Prop) l k : Forall2 R l k -> length l = length k.
Proof. induction 1; cbn; lia. Qed.
Lemma holds_len cap m ps es : holds cap m ps es -> length ps = length es.
Proof. intros H. eapply F2len, (h_str _ _ _ _ H). Qed.

Lemma cstr_query m p k : name_ok k -> cstr m p k -> query m p k.
Proof.
  intros [F _] C. split; [exact F|]. split; [apply cstr_bytes, C|]. left. destruct C as [_ B]. apply bytes_at_app in B. apply B.
Qed.
Lemma entry_query m p k v : name_ok k -> cstr m p (entry k v) -> query m p k.
Proof.
  intros [F _] C. split; [exact F|]. apply cstr_bytes in C. unfold entry in C. apply bytes_at_app in C. destruct C as [B [C _]].
  split; [exact B|]. right. exact C.
Qed.

Lemma stored_slot cap m m' a k v : name_ok k -> value_ok v -> 0 < a -> cap a = len k + 1 + len v + 1 ->
  stored m m' a (entry k v ++ [0]) -> slot_ok cap m' a (k, v).
Proof.
  intros Nk Vv Na Hc [B _]. split; [exact Nk|]. split; [exact Vv|]. split; [exact Na|]. cbn [fst snd]. rewrite entry_len.
  split; [lia|]. split; [apply entry_chars; assumption|exact B].
Qed.

Lemma lookup_find cap m ps es k : holds cap m ps es -> forall j a, find_at ps es k 0 = Some (j, a) -> lookup es k <> None.
Proof.
  intros H j a E. destruct (find_at_some _ _ _ _ _ _ E (holds_len _ _ _ _ H)) as [ps1 [p [ps2 [es1 [v [es2 [_ [-> [_ [_ [_ N]]]]]]]]]]].
  rewrite lookup_mid by exact N. rewrite leqb_refl. discriminate.
Qed.

(** One legal call: it completes, the environment stays well formed and denotes the
    updated map; memory changes only inside environment blocks. *)
Lemma exec_ok cap fuel m ps es ev : holds cap m ps es -> legal cap m ps ev -> fuel_ok fuel cap ps ev ->
  exists m' ps' es', exec fuel m ps ev = Ok (m', ps') /\ holds cap m' ps' es' /\
    (forall n, lookup es' n = apply_event (lookup es) ev n) /\
    (forall x, ~ owned cap ps x -> ~ owned cap ps' x -> m' x = m x).
Proof.
  intros H Lg [Ff Fe]. pose proof (holds_len _ _ _ _ H) as HL. pose proof (h_str _ _ _ _ H) as HS.
  destruct ev as [k v ow pk pv a|k v p|k pk]; cbn [legal exec] in *.
  - destruct Lg as [Nk [Vv [Pk [Pv [Ck [Cv [Ak [Av [Na [Hc [Ma [Aa [Dk Dv]]]]]]]]]]]]]. destruct Fe as [Fk Fv].
    unfold setenv. rewrite (strlen_ok k) by (assumption || unfold NULL; lia). cbn [bind]. rewrite (strlen_ok v) by (assumption || unfold NULL; lia). cbn [bind].
    rewrite (find_env_ok cap m fuel pk k (cstr_query _ _ _ Nk Ck) Fk ps es 0 HS). cbn [bind].
    pose proof (len_nonneg k). pose proof (len_nonneg v).
    assert (CK : exists m', copy_kv m a pk pv (len k) (len v) = Ok m' /\ stored m m' a (entry k v ++ [0])).
    { apply (copy_kv_ok m a pk pv k v (cap a)); auto; try apply cstr_bytes; auto; unfold disjoint in *; lia. }
    assert (LE : len (entry k v ++ [0]) = cap a) by (rewrite len_app, entry_len, len_cons, len_nil; lia).
    destruct (find_at ps es k 0) as [[j ex]|] eqn:Fd.
    + destruct (find_at_some _ _ _ _ _ _ Fd HL) as [ps1 [p [ps2 [es1 [v0 [es2 [-> [-> [L1 [-> [-> N1]]]]]]]]]]].
      destruct (Z.eqb_spec ow 0) as [->|Ow].
      * eexists _, _, _. split; [reflexivity|]. split; [exact H|]. split; [|reflexivity].
        intros n. cbn [apply_event Z.eqb]. rewrite (lookup_mid es1 k v0 es2 k N1), leqb_refl. reflexivity.
      * assert (AE : forall w n, lookup (es1 ++ (k, w) :: es2) n =
            apply_event (lookup (es1 ++ (k, v0) :: es2)) (Set_ k w ow pk pv a) n).
        { intros w n. cbn [apply_event]. destruct (Z.eqb_spec ow 0); [lia|]. unfold bind_name.
          rewrite !(lookup_mid es1) by exact N1. destruct (leqb n k); reflexivity. }
        destruct (Forall2_split _ _ _ _ _ HS L1) as [_ HS2]. inversion HS2; subst; clear HS2. cbn [fst snd] in H5.
        destruct H5 as [_ [V0 [Np [Cp Sp]]]]. rewrite entry_len in Cp.
        assert (Sv0 : cstr m (p + len k + 1) v0).
        { split; [exact V0|]. destruct Sp as [_ B]. unfold entry in B. rewrite <- app_assoc in B. apply bytes_at_app in B.
          destruct B as [_ [_ B]]. exact B. }
        pose proof (len_nonneg v0).
        rewrite (strlen_ok v0); [|unfold NULL; lia|assumption|].
        2:{ specialize (Ff p ltac:(apply in_or_app; right; left; reflexivity)). unfold len in *. lia. }
        cbn [bind]. destruct (Z.leb_spec (len v) (len v0)) as [Le|Gt].
        -- assert (Dpv : disjoint p (cap p) pv (len v + 1)) by (apply Av, in_or_app; right; left; reflexivity).
           unfold disjoint in Dpv.
           destruct (copy_nonov_ok m pv (p + len k + 1) v) as [m1 [E1 S1]].
           { apply cstr_bytes, Cv. }
           { eapply mapped_sub; [apply (h_map _ _ _ _ H p), in_or_app; right; left; reflexivity|lia|lia]. }
           { unfold disjoint. lia. }
           rewrite E1. cbn [bind].
           assert (Mp : mapped m p (cap p)) by (apply (h_map _ _ _ _ H p), in_or_app; right; left; reflexivity).
           assert (Mp1 : mapped m1 p (cap p)) by (eapply stored_mapped; eauto).
           rewrite st_ok by (apply Mp1; lia). cbn [bind].
           pose proof (stored_snoc _ _ _ _ 0 _ S1 eq_refl) as S2. set (m2 := upd m1 (p + len k + 1 + len v) 0) in *.
           assert (Mp2 : mapped m2 p (cap p)) by (eapply stored_mapped; eauto).
           destruct S2 as [S2b S2f]. rewrite len_app, len_cons, len_nil in S2f.
           eexists _, _, _. split; [reflexivity|]. split.
           { eapply holds_replace; [exact H|exact L1| |exact Mp2|left; reflexivity|].
             - intros x Hx. apply S2f. lia.
             - split; [exact Nk|]. split; [exact Vv|]. split; [exact Np|]. cbn [fst snd]. rewrite entry_len. split; [lia|].
               split; [apply entry_chars; assumption|]. unfold entry. rewrite <- app_assoc. apply bytes_at_app. split.
               + eapply bytes_at_ext; [|apply (proj1 (proj1 (bytes_at_app m p k (61 :: v0)) (cstr_bytes _ _ _ Sp)))].
                 intros x Hx. apply S2f. lia.
               + cbn [app bytes_at]. split; [|exact S2b]. rewrite S2f by lia.
                 apply (proj2 (proj1 (bytes_at_app m p k (61 :: v0)) (cstr_bytes _ _ _ Sp))). }
           split; [intros n; apply AE|]. intros x Hx _. apply S2f. intros Hx'. apply Hx. exists p.
           split; [apply in_or_app; right; left; reflexivity|lia].
        -- destruct CK as [m' [E' S']]. rewrite E'. cbn [bind]. rewrite write_slot_ok.
           eexists _, _, _. split; [reflexivity|]. split.
           { eapply holds_replace; [exact H|exact L1| | |right; exact Aa|].
             - intros x Hx. apply (proj2 S'). rewrite LE. exact Hx.
             - eapply stored_mapped; eauto.
             - exact (stored_slot cap m m' a k v Nk Vv Na Hc S'). }
           split; [intros n; apply AE|]. intros x _ Hx. apply (proj2 S'). rewrite LE. intros Hx'. apply Hx. exists a.
           split; [apply in_or_app; right; left; reflexivity|exact Hx'].
    + pose proof (find_at_none _ _ _ _ Fd HL) as N1. destruct CK as [m' [E' S']]. rewrite E'. cbn [bind].
      eexists _, _, _. split; [reflexivity|]. split.
      { eapply holds_snoc; [exact H|exact N1| | |exact Aa|].
        - intros x Hx. apply (proj2 S'). rewrite LE. exact Hx.
        - eapply stored_mapped; eauto.
        - exact (stored_slot cap m m' a k v Nk Vv Na Hc S'). }
      split.
      * intros n. rewrite lookup_app. cbn [lookup apply_event]. rewrite (lookup_none es k N1).
        assert (G : match lookup es n with Some v1 => Some v1 | None => if leqb n k then Some v else None end = bind_name (lookup es) k v n).
        { unfold bind_name. destruct (leqb_spec n k) as [->|]; [rewrite (lookup_none es k N1); reflexivity|]. destruct (lookup es n); reflexivity. }
        destruct (ow =? 0); exact G.
      * intros x _ Hx. apply (proj2 S'). rewrite LE. intros Hx'. apply Hx. exists a. split; [apply in_or_app; right; left; reflexivity|exact Hx'].
  - destruct Lg as [Nk [Vv [Cp [Np [Hc [Mp Ap]]]]]]. unfold putenv. destruct (Z.eqb_spec p NULL) as [Z0|_]; [unfold NULL in *; lia|].
    rewrite (find_env_ok cap m fuel p k (entry_query _ _ _ _ Nk Cp) Fe ps es 0 HS). cbn [bind].
    assert (SO : slot_ok cap m p (k, v)) by (split; [exact Nk|split; [exact Vv|split; [exact Np|split; [exact Hc|exact Cp]]]]).
    destruct (find_at ps es k 0) as [[j ex]|] eqn:Fd.
    + destruct (find_at_some _ _ _ _ _ _ Fd HL) as [ps1 [q [ps2 [es1 [v0 [es2 [-> [-> [L1 [-> [-> N1]]]]]]]]]]].
      rewrite write_slot_ok. eexists _, _, _. split; [reflexivity|]. split.
      { eapply holds_replace; [exact H|exact L1|reflexivity|exact Mp|right; exact Ap|exact SO]. }
      split; [|reflexivity]. intros n. cbn [apply_event]. unfold bind_name. rewrite !(lookup_mid es1) by exact N1. destruct (leqb n k); reflexivity.
    + pose proof (find_at_none _ _ _ _ Fd HL) as N1. eexists _, _, _. split; [reflexivity|]. split.
      { eapply holds_snoc; [exact H|exact N1|reflexivity|exact Mp|exact Ap|exact SO]. }
      split; [|reflexivity]. intros n. rewrite lookup_app. cbn [lookup apply_event]. unfold bind_name.
      destruct (leqb_spec n k) as [->|]; [rewrite (lookup_none es k N1); reflexivity|]. destruct (lookup es n); reflexivity.
  - destruct Lg as [Nk [Ck Ak]]. unfold unsetenv.
    rewrite (find_env_ok cap m fuel pk k (cstr_query _ _ _ Nk Ck) Fe ps es 0 HS). cbn [bind].
    destruct (find_at ps es k 0) as [[j ex]|] eqn:Fd.
    + destruct (find_at_some _ _ _ _ _ _ Fd HL) as [ps1 [q [ps2 [es1 [v0 [es2 [-> [-> [L1 [-> [-> N1]]]]]]]]]]].
      rewrite remove_slot_ok. eexists _, _, _. split; [reflexivity|]. split; [eapply holds_remove; eauto|].
      split; [|reflexivity]. intros n. cbn [apply_event]. rewrite (lookup_mid es1) by exact N1.
      destruct (leqb_spec n k) as [->|]; [|reflexivity]. apply lookup_none. intros kv I E.
      pose proof (h_names _ _ _ _ H) as D. rewrite map_app in D. cbn [map fst] in D. apply NoDup_remove_2 in D. apply D.
      rewrite <- map_app. rewrite <- E. apply in_map. exact I.
    + pose proof (find_at_none _ _ _ _ Fd HL) as N1. eexists _, _, _. split; [reflexivity|]. split; [exact H|].
      split; [|reflexivity]. intros n. cbn [apply_event]. destruct (leqb_spec n k) as [->|]; [apply lookup_none; exact N1|reflexivity].
Qed.

(** getenv: NULL exactly when the name is unbound, else the address of the value. *)
Lemma getenv_ok cap fuel m ps es pk k : holds cap m ps es -> name_ok k -> cstr m pk k -> (length k < fuel)%nat ->
  exists r, getenv fuel m ps pk = Ok r /\
    match lookup es k with Some v => r <> NULL /\ cstr m r v | None => r = NULL end.
Proof.
  intros H Nk Ck Hf. unfold getenv.
  rewrite (find_env_ok cap m fuel pk k (cstr_query _ _ _ Nk Ck) Hf ps es 0 (h_str _ _ _ _ H)). cbn [bind].
  pose proof (holds_len _ _ _ _ H) as HL. eexists. split; [reflexivity|].
  destruct (find_at ps es k 0) as [[j ex]|] eqn:Fd.
  - destruct (find_at_some _ _ _ _ _ _ Fd HL) as [ps1 [p [ps2 [es1 [v0 [es2 [-> [-> [L1 [-> [-> N1]]]]]]]]]]].
    rewrite lookup_mid by exact N1. rewrite leqb_refl.
    destruct (Forall2_split _ _ _ _ _ (h_str _ _ _ _ H) L1) as [_ HS2]. inversion HS2; subst; clear HS2. cbn [fst snd] in *.
    destruct H3 as [_ [V0 [Np [Cp Sp]]]]. pose proof (len_nonneg k). unfold NULL. split; [lia|].
    split; [exact V0|]. destruct Sp as [_ B]. unfold entry in B. rewrite <- app_assoc in B. apply bytes_at_app in B.
    destruct B as [_ [_ B]]. exact B.
  - rewrite (lookup_none es k); [reflexivity|]. eapply find_at_none; eauto.
Qed.

Lemma holds_cap cap cap' m ps es : (forall p, In p ps -> cap' p = cap p) -> holds cap m ps es -> holds cap' m ps es.
Proof.
  intros E [A B C D]. constructor; auto.
  - clear B C D. induction A as [|p kv ps es S A IH]; constructor.
    + rewrite E by (left; reflexivity). exact S.
    + apply IH. intros q I. apply E. right. exact I.
  - intros p I. rewrite E by exact I. auto.
  - clear A B D. induction C as [|p ps F C IH]; constructor.
    + rewrite Forall_forall in *. intros q I. rewrite !E; [auto|right; exact I|left; reflexivity].
    + apply IH. intros q I. apply E. right. exact I.
Qed.

Lemma apply_event_ext e e' ev : (forall n, e n = e' n) -> forall n, apply_event e ev n = apply_event e' ev n.
Proof.
  intros H n. destruct ev; cbn [apply_event]; unfold bind_name; rewrite ?H.
  - destruct (overwrite =? 0); [destruct (e' k); [apply H|]|]; rewrite H; reflexivity.
  - reflexivity.
  - reflexivity.
Qed.
Lemma fold_ext evs : forall e e', (forall n, e n = e' n) -> forall n, fold_left apply_event evs e n = fold_left apply_event evs e' n.
Proof. induction evs as [|ev evs IH]; intros e e' H n; cbn [fold_left]; [apply H|]. apply IH. apply apply_event_ext. exact H. Qed.

Lemma run_holds cap m ps evs cap' m' ps' : run cap m ps evs cap' m' ps' -> forall es, holds cap m ps es ->
  exists es', holds cap' m' ps' es' /\ forall n, lookup es' n = fold_left apply_event evs (lookup es) n.
Proof.
  induction 1 as [cap m ps|cap m ps evs cap1 m1 cap2 m2 ps2 Ec Em R IH|cap fuel m ps ev m1 ps1 evs cap2 m2 ps2 Lg Fo Ex R IH]; intros es H.
  - exists es. split; [exact H|reflexivity].
  - apply IH. apply (holds_cap cap); [exact Ec|]. eapply holds_ext; eauto.
  - destruct (exec_ok cap fuel m ps es ev H Lg Fo) as [m' [ps' [es' [E [H' [L _]]]]]]. rewrite Ex in E. injection E as <- <-.
    destruct (IH es' H') as [es2 [H2 L2]]. exists es2. split; [exact H2|]. intros n. rewrite L2. cbn [fold_left]. apply fold_ext. exact L.
Qed.

Lemma env_history cap m ps es evs cap' m' ps' fuel pk k :
  holds cap m ps es -> run cap m ps evs cap' m' ps' ->
  name_ok k -> cstr m' pk k -> (length k < fuel)%nat ->
  exists r, getenv fuel m' ps' pk = Ok r /\
    match fold_left apply_event evs (lookup es) k with Some v => r <> NULL /\ cstr m' r v | None => r = NULL end.
Proof.
  intros H R Nk Ck Hf. destruct (run_holds _ _ _ _ _ _ _ R es H) as [es' [H' L]]. rewrite <- L. eapply getenv_ok; eauto.
Qed.
Lemma env_progress cap m ps es evs cap' m' ps' fuel ev :
  holds cap m ps es -> run cap m ps evs cap' m' ps' -> legal cap' m' ps' ev -> fuel_ok fuel cap' ps' ev ->
  exists m2 ps2, exec fuel m' ps' ev = Ok (m2, ps2) /\ (forall x, ~ owned cap' ps' x -> ~ owned cap' ps2 x -> m2 x = m' x).
Proof.
  intros H R L F. destruct (run_holds _ _ _ _ _ _ _ R es H) as [es' [H' _]].
  destruct (exec_ok _ _ _ _ _ _ H' L F) as [m2 [ps2 [es2 [E [_ [_ O]]]]]]. exists m2, ps2. split; [exact E|exact O].
Qed.
