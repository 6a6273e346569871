From Coq Require Import ZArith String List Bool Lia.
From Verif Require Import Base Ctype_spec Fmtmsg_model Fmtmsg_spec.
Import ListNotations.
Open Scope string_scope.
Open Scope list_scope.
Open Scope Z_scope.

Definition ends (t : list Z) : Prop := t = [] \/ exists r, t = 58 :: r.
Lemma strcolcmp_inv : forall l b, strcolcmp l b = false -> exists t, b = l ++ t /\ ends t.
Proof.
  induction l as [|x l IH]; intros b; cbn [strcolcmp].
  - destruct b as [|y b]; [exists []; split; [reflexivity|left; reflexivity]|]. intros E. apply negb_false_iff in E. apply Z.eqb_eq in E. subst y.
    exists (58 :: b). split; [reflexivity|right; eauto].
  - destruct b as [|y b]; [discriminate|]. destruct (Z.eqb_spec x y); [|discriminate]. subst y. intros E. destruct (IH b E) as (t & -> & T). exists t. auto.
Qed.
Lemma strcolcmp_refl : forall l t, ends t -> strcolcmp l (l ++ t) = false.
Proof.
  induction l as [|x l IH]; intros t T; cbn [app strcolcmp]; [destruct T as [->|[r ->]]; reflexivity|]. rewrite Z.eqb_refl. apply IH. exact T.
Qed.
Definition key (i : Z) (k : list Z) : Prop :=
  (i = 0 /\ k = codes "label") \/ (i = 1 /\ k = codes "severity") \/ (i = 2 /\ k = codes "text") \/ (i = 3 /\ k = codes "action") \/ (i = 4 /\ k = codes "tag").
Lemma key_in i k : key i k -> In k keywords.
Proof. unfold key, keywords. cbn [In]. intuition congruence. Qed.
Lemma in_key k : In k keywords -> exists i, key i k.
Proof. unfold key, keywords. cbn [In]. intros [<-|[<-|[<-|[<-|[<-|[]]]]]]; [exists 0|exists 1|exists 2|exists 3|exists 4]; tauto. Qed.
Lemma key_inj i j k : key i k -> key j k -> i = j.
Proof. unfold key. intuition (subst; try reflexivity; try discriminate). Qed.
Lemma key_fun i j k : key i j -> key i k -> j = k.
Proof. unfold key. intuition (subst; try reflexivity; try discriminate). Qed.
Lemma key_range i k : key i k -> 0 <= i < 5.
Proof. unfold key. intuition lia. Qed.
Lemma find_key i k t : key i k -> ends t -> find_msg 0 msgs (k ++ t) = Some i.
Proof.
  intros K [->|[r ->]]; unfold key in K;
    destruct K as [[-> ->]|[[-> ->]|[[-> ->]|[[-> ->]|[-> ->]]]]]; reflexivity.
Qed.
Lemma find_inv i s : find_msg 0 msgs s = Some i -> exists k t, key i k /\ s = k ++ t /\ ends t.
Proof.
  unfold msgs. cbn [find_msg].
  repeat (match goal with |- context[strcolcmp ?k s] => destruct (strcolcmp k s) eqn:?E end); try discriminate;
    intros X; injection X as <-;
    match goal with H : strcolcmp ?k s = false |- _ => apply strcolcmp_inv in H; destruct H as (t & -> & T); exists k, t; split; [unfold key; tauto|split; [reflexivity|exact T]] end.
Qed.
Lemma key_colon i k : key i k -> ~ In 58 k /\ k <> [].
Proof.
  intros K. unfold key in K. destruct K as [[-> ->]|[[-> ->]|[[-> ->]|[[-> ->]|[-> ->]]]]]; (split; [|discriminate]);
    cbn; intuition discriminate.
Qed.
Lemma after_colon_app k r : ~ In 58 k -> after_colon (k ++ 58 :: r) = Some r.
Proof.
  induction k as [|c k IH]; intros N; cbn [app after_colon]; [reflexivity|]. destruct (Z.eqb_spec c 58); [subst; exfalso; apply N; left; reflexivity|].
  apply IH. intros I0. apply N. right. exact I0.
Qed.
Lemma after_colon_none k : ~ In 58 k -> after_colon k = None.
Proof.
  induction k as [|c k IH]; intros N; [reflexivity|]. cbn [after_colon]. destruct (Z.eqb_spec c 58); [subst; exfalso; apply N; left; reflexivity|].
  apply IH. intros I0. apply N. right. exact I0.
Qed.
Lemma colon_split : forall k k' r r', ~ In 58 k -> ~ In 58 k' -> k ++ 58 :: r = k' ++ 58 :: r' -> k = k' /\ r = r'.
Proof.
  induction k as [|c k IH]; intros [|c' k'] r r' N N' E; cbn [app] in E.
  - injection E as ->. auto.
  - injection E as <- _. exfalso. apply N'. left. reflexivity.
  - injection E as -> _. exfalso. apply N. left. reflexivity.
  - injection E as <- E. destruct (IH k' r r') as [-> ->]; [intros I0; apply N; right; exact I0|intros I0; apply N'; right; exact I0|exact E|auto].
Qed.
Lemma joined_cons k ks : ks <> [] -> joined (k :: ks) = k ++ 58 :: joined ks.
Proof. destruct ks; [congruence|reflexivity]. Qed.
Lemma verbs_some n s verb : s <> [] -> verbs (S n) (Some s) verb =
  match find_msg 0 msgs s with None => Ok 255 | Some i => verbs n (after_colon s) (Z.lor verb (Z.shiftl 1 i)) end.
Proof. destruct s; [congruence|reflexivity]. Qed.
Lemma bit_add verb i j : 0 <= i -> 0 <= j -> Z.testbit (Z.lor verb (Z.shiftl 1 i)) j = Z.testbit verb j || (i =? j).
Proof. intros I0 J. rewrite Z.lor_spec, Z.shiftl_1_l, Z.pow2_bits_eqb by lia. reflexivity. Qed.

Definition listed (ks : list (list Z)) (k : list Z) : bool := if in_dec (list_eq_dec Z.eq_dec) k ks then true else false.
Lemma listed_cons k ks j : listed (k :: ks) j = listed ks j || (if list_eq_dec Z.eq_dec k j then true else false).
Proof.
  unfold listed. destruct (in_dec _ j (k :: ks)) as [X|X], (in_dec _ j ks) as [Y|Y], (list_eq_dec Z.eq_dec k j) as [Z|Z]; try reflexivity; exfalso; cbn in X; tauto.
Qed.
Lemma verbs_list : forall ks, ks <> [] -> Forall (fun k => In k keywords) ks -> forall fuel verb, (length (joined ks) < fuel)%nat ->
  exists v, verbs fuel (Some (joined ks)) verb = Ok v /\ forall i k, key i k -> Z.testbit v i = Z.testbit verb i || listed ks k.
Proof.
  induction ks as [|k ks IH]; intros NE F fuel verb FU; [congruence|]. inversion F as [|? ? K F']; subst.
  destruct (in_key k K) as [i KI]. destruct (key_colon i k KI) as [NC NK]. destruct fuel as [|n]; [lia|].
  assert (BIT : forall j kj, key j kj -> Z.testbit (Z.lor verb (Z.shiftl 1 i)) j = Z.testbit verb j || (if list_eq_dec Z.eq_dec k kj then true else false)).
  { intros j kj KJ. pose proof (key_range _ _ KI). pose proof (key_range _ _ KJ). rewrite bit_add by lia. f_equal.
    destruct (Z.eqb_spec i j), (list_eq_dec Z.eq_dec k kj); try reflexivity; exfalso.
    - subst j. apply n0. eapply key_fun; eassumption.
    - subst kj. apply n0. eapply key_inj; eassumption. }
  destruct ks as [|k2 ks].
  - cbn [joined] in *. rewrite verbs_some by exact NK. replace (find_msg 0 msgs k) with (Some i) by (rewrite <- (find_key i k [] KI (or_introl eq_refl)), app_nil_r; reflexivity).
    rewrite after_colon_none by exact NC. destruct n as [|n]; [destruct k; [congruence|cbn in FU; lia]|]. cbn [verbs]. eexists. split; [reflexivity|].
    intros j kj KJ. rewrite (BIT j kj KJ), listed_cons. reflexivity.
  - rewrite joined_cons in * by discriminate. rewrite verbs_some by (destruct k; discriminate). rewrite (find_key i k _ KI) by (right; eauto).
    rewrite after_colon_app by exact NC. destruct (IH ltac:(discriminate) F' n (Z.lor verb (Z.shiftl 1 i))) as (v & E & B).
    { rewrite app_length in FU. cbn [length] in FU. lia. }
    exists v. split; [exact E|]. intros j kj KJ. rewrite (B j kj KJ), (BIT j kj KJ), (listed_cons k).
    rewrite <- !orb_assoc. f_equal. apply orb_comm.
Qed.
Lemma verbs_cases : forall n s, (length s < n)%nat -> s <> [] ->
  (exists ks, a_list s ks) \/ (exists w ks, a_list w ks /\ s = w ++ [58]) \/
  ((forall ks, ~ a_list s ks) /\ forall fuel verb, (length s < fuel)%nat -> verbs fuel (Some s) verb = Ok 255).
Proof.
  induction n as [|n IH]; intros s L NE; [lia|].
  destruct (find_msg 0 msgs s) as [i|] eqn:FM.
  - destruct (find_inv i s FM) as (k & t & K & -> & [->|[r ->]]).
    + left. exists [k]. split; [discriminate|]. split; [constructor; [eapply key_in; exact K|constructor]|]. cbn. apply app_nil_r.
    + destruct (key_colon i k K) as [NC NK]. destruct r as [|c r].
      * right. left. exists k, [k]. split; [|reflexivity]. split; [discriminate|]. split; [constructor; [eapply key_in; exact K|constructor]|reflexivity].
      * destruct (IH (c :: r)) as [(ks & A1 & A2 & A3)|[(w & ks & (A1 & A2 & A3) & A4)|[NO V]]]; [rewrite app_length in L; cbn [length] in *; lia|discriminate| | |].
        -- left. exists (k :: ks). split; [discriminate|]. split; [constructor; [eapply key_in; exact K|exact A2]|]. rewrite joined_cons by exact A1. rewrite A3. reflexivity.
        -- right. left. exists (k ++ 58 :: w), (k :: ks). split; [|rewrite A4, <- app_assoc; reflexivity]. split; [discriminate|]. split; [constructor; [eapply key_in; exact K|exact A2]|]. rewrite joined_cons by exact A1. rewrite A3. reflexivity.
        -- right. right. split.
           ++ intros [|k' ks] (B1 & B2 & B3); [congruence|]. inversion B2 as [|? ? K' B2']; subst. destruct (in_key k' K') as [i' KI']. destruct (key_colon i' k' KI') as [NC' _].
              destruct ks as [|k2 ks].
              ** cbn [joined] in B3. apply NC'. rewrite <- B3. apply in_or_app. right. left. reflexivity.
              ** rewrite joined_cons in B3 by discriminate. destruct (colon_split _ _ _ _ NC NC' B3) as [<- E]. apply (NO (k2 :: ks)). split; [discriminate|]. split; [exact B2'|exact E].
           ++ intros fuel verb FU. destruct fuel as [|f]; [lia|]. rewrite verbs_some by exact NE. rewrite FM, after_colon_app by exact NC. apply V. rewrite app_length in FU. cbn [length] in *. lia.
  - right. right. split.
    + intros [|k ks] (B1 & B2 & B3); [congruence|]. inversion B2 as [|? ? K B2']; subst. destruct (in_key k K) as [i KI].
      assert (E : exists t, joined (k :: ks) = k ++ t /\ ends t).
      { destruct ks as [|k2 ks]; [exists []; rewrite app_nil_r; split; [reflexivity|left; reflexivity]|]. rewrite joined_cons by discriminate. eexists. split; [reflexivity|right; eauto]. }
      destruct E as (t & E & T). rewrite E, (find_key i k t KI T) in FM. discriminate.
    + intros fuel verb FU. destruct fuel as [|f]; [lia|]. rewrite verbs_some by exact NE. rewrite FM. reflexivity.
Qed.

Definition no_trailing (msgverb : option (list Z)) : Prop :=
  match msgverb with Some v => forall w ks, a_list w ks -> v <> w ++ [58] | None => True end.
Definition chosen (verb : Z) (sel : list Z -> bool) : Prop := forall i k, key i k -> Z.testbit verb i = sel k.
Lemma all_chosen sel : (forall k, In k keywords -> sel k = true) -> chosen 255 sel.
Proof.
  intros A i k K. rewrite (A k) by (eapply key_in; exact K). pose proof (key_range _ _ K).
  assert (i = 0 \/ i = 1 \/ i = 2 \/ i = 3 \/ i = 4) as [->|[->|[->|[->| ->]]]] by lia; reflexivity.
Qed.
Lemma verbs_ok fuel msgverb sel : (forall k, In k keywords -> sel k = true <-> selected msgverb k) -> no_trailing msgverb ->
  (match msgverb with Some v => length v < fuel | None => 0 < fuel end)%nat ->
  exists v, verbs fuel msgverb 0 = Ok v /\ chosen (if v =? 0 then 255 else v) sel.
Proof.
  intros SE NT FU. destruct msgverb as [s|].
  - destruct s as [|c s].
    + destruct fuel as [|n]; [cbn in FU; lia|]. exists 0. split; [reflexivity|]. apply all_chosen. intros k K. apply SE; [exact K|].
      intros [|k' ks] (A1 & A2 & A3); [congruence|]. inversion A2 as [|? ? K' _]; subst. destruct (in_key k' K') as [i KI]. destruct (key_colon i k' KI) as [_ NK].
      destruct ks; [cbn in A3; congruence|]. rewrite joined_cons in A3 by discriminate. destruct k'; [congruence|discriminate A3].
    + destruct (verbs_cases _ (c :: s) (Nat.lt_succ_diag_r _) ltac:(discriminate)) as [(ks & A1 & A2 & A3)|[(w & ks & A & E)|[NO V]]].
      * destruct (verbs_list ks A1 A2 fuel 0) as (v & E & B); [rewrite <- A3; exact FU|]. rewrite A3. exists v. split; [exact E|].
        assert (SL : forall k, In k keywords -> sel k = listed ks k).
        { intros k K. specialize (SE k K). unfold listed. destruct (in_dec (list_eq_dec Z.eq_dec) k ks) as [I0|NI].
          - apply SE. intros ks' (B1 & B2 & B3).
            (* the keywords of a value are determined *)
            assert (U : forall ks ks', ks <> [] -> ks' <> [] -> Forall (fun k => In k keywords) ks -> Forall (fun k => In k keywords) ks' -> joined ks = joined ks' -> ks = ks').
            { clear. induction ks as [|k ks IH]; intros [|k' ks'] N N' F F' J; try congruence. inversion F as [|? ? K F2]; inversion F' as [|? ? K' F2']; subst.
              destruct (in_key k K) as [i KI], (in_key k' K') as [i' KI']. destruct (key_colon _ _ KI) as [C _], (key_colon _ _ KI') as [C' _].
              destruct ks as [|k2 ks], ks' as [|k2' ks'].
              - cbn in J. congruence.
              - rewrite (joined_cons k' (k2' :: ks')) in J by discriminate. cbn [joined] in J. exfalso. apply C. rewrite J. apply in_or_app. right. left. reflexivity.
              - rewrite (joined_cons k (k2 :: ks)) in J by discriminate. cbn [joined] in J. exfalso. apply C'. rewrite <- J. apply in_or_app. right. left. reflexivity.
              - rewrite !joined_cons in J by discriminate. destruct (colon_split _ _ _ _ C C' J) as [<- J']. f_equal. apply IH; try assumption; discriminate. }
            rewrite <- (U ks ks' A1 B1 A2 B2 ltac:(congruence)). exact I0.
          - destruct (sel k); [|reflexivity]. exfalso. apply NI. apply (proj1 SE eq_refl). split; [exact A1|split; [exact A2|exact A3]]. }
        destruct (Z.eqb_spec v 0) as [->|_].
        -- exfalso. destruct ks as [|k ks]; [congruence|]. inversion A2 as [|? ? K _]; subst. destruct (in_key k K) as [i KI]. specialize (B i k KI).
           rewrite listed_cons in B. destruct (list_eq_dec Z.eq_dec k k); [|congruence]. rewrite !Z.bits_0, !orb_true_r in B. discriminate.
        -- intros i k KI. rewrite (B i k KI), Z.bits_0. symmetry. apply SL. eapply key_in; exact KI.
      * exfalso. exact (NT w ks A E).
      * exists 255. split; [apply V; exact FU|]. apply all_chosen. intros k K. apply SE; [exact K|]. intros ks A. exfalso. exact (NO ks A).
  - destruct fuel as [|n]; [lia|]. exists 0. split; [reflexivity|]. apply all_chosen. intros k K. apply SE; [exact K|exact I].
Qed.
Lemma message_ok verb sel label severity text action tag : chosen verb sel -> 0 <= severity <= 4 ->
  message verb label severity text action tag = the_message sel label severity text action tag.
Proof.
  intros C SV. unfold message, the_message.
  rewrite (C 0 (codes "label")), (C 1 (codes "severity")), (C 2 (codes "text")), (C 3 (codes "action")), (C 4 (codes "tag")) by (unfold key; tauto).
  assert (SEV : (if sel (codes "severity") && negb (severity =? 0) then shown (errstring severity) else []) = if sel (codes "severity") then severity_text severity else []).
  { assert (severity = 0 \/ severity = 1 \/ severity = 2 \/ severity = 3 \/ severity = 4) as [->|[->|[->|[->| ->]]]] by lia; destruct (sel (codes "severity")); reflexivity. }
  rewrite SEV. clear SEV.
  destruct (sel (codes "label")), label as [l|]; cbn [given shown andb app]; rewrite <- ?app_assoc; do 1 f_equal;
  destruct (sel (codes "text")), text as [t|]; cbn [given shown andb app]; rewrite ?app_nil_r, <- ?app_assoc; try reflexivity;
  destruct (sel (codes "action")), action as [a|]; cbn [given shown andb app]; rewrite ?app_nil_r, <- ?app_assoc; try reflexivity;
  destruct (sel (codes "tag")), tag as [g|]; cbn [given shown andb app]; rewrite ?app_nil_r, <- ?app_assoc; reflexivity.
Qed.
