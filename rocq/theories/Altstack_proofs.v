(* Lemmas for C165. *)
From Verif Require Import Base Altstack_model Altstack_spec.

Lemma get_ok s a sp : is_area s a -> get_sigaltstack a sp = match s with None => Disabled | Some (b, n) => Enabled (on s sp) b n end.
Proof.
  destruct s as [[b n]|]; cbn [is_area]; [|intros ->; reflexivity]. intros (-> & B & N & M). unfold get_sigaltstack. cbn [bottom top on]. replace (b =? 0) with false by (symmetry; apply Z.eqb_neq; lia). cbn [andb].
  replace (b + n - b) with n by lia. rewrite Z.mod_small by (unfold MAX in *; lia). reflexivity.
Qed.
Lemma convert_ok s : convert s = match asks (Some s) with Use b n => inl (Enabled false b n) | Disable => inl Disabled | _ => inr 22 end.
Proof.
  unfold convert, asks. destruct (ss_flags s <? 0) eqn:N.
  - apply Z.ltb_lt in N. replace (ss_flags s =? 0) with false by (symmetry; apply Z.eqb_neq; lia). replace (ss_flags s =? 1) with false by (symmetry; apply Z.eqb_neq; lia).
    replace (ss_flags s =? 2) with false by (symmetry; apply Z.eqb_neq; lia). replace (ss_flags s =? 3) with false by (symmetry; apply Z.eqb_neq; lia). reflexivity.
  - apply Z.ltb_ge in N. change (Z.lor SS_DISABLE SS_ONSTACK) with (Z.ones 2). rewrite Z.land_ones by lia. change (2 ^ 2) with 4.
    destruct (Z.lt_ge_cases (ss_flags s) 4) as [L|L].
    + assert (E : ss_flags s = 0 \/ ss_flags s = 1 \/ ss_flags s = 2 \/ ss_flags s = 3) by lia. destruct E as [E|[E|[E|E]]]; rewrite E; reflexivity.
    + pose proof (Z.mod_pos_bound (ss_flags s) 4 ltac:(lia)). replace (ss_flags s =? ss_flags s mod 4) with false by (symmetry; apply Z.eqb_neq; lia). cbn [negb].
      replace (ss_flags s =? 0) with false by (symmetry; apply Z.eqb_neq; lia). replace (ss_flags s =? 1) with false by (symmetry; apply Z.eqb_neq; lia).
      replace (ss_flags s =? 2) with false by (symmetry; apply Z.eqb_neq; lia). replace (ss_flags s =? 3) with false by (symmetry; apply Z.eqb_neq; lia). reflexivity.
Qed.
Lemma report_ok s a sp : is_area s a -> of_altstack (get_sigaltstack a sp) = report s sp.
Proof. intro A. rewrite (get_ok s a sp A). destruct s as [[b n]|]; reflexivity. Qed.
Lemma same_off o b n b' n' : same (Enabled false b n) (Enabled true b' n') = o -> o = false. Proof. intros <-. reflexivity. Qed.
Lemma call_ok s a sp ss old : is_area s a -> sensible ss -> exists a', sigaltstack a sp ss old =
    (a', match old with None => None | Some o => Some (if snd (effect s sp (asks ss)) =? 0 then report s sp else o) end, snd (effect s sp (asks ss))) /\ is_area (fst (effect s sp (asks ss))) a'.
Proof.
  intros A S. pose proof (report_ok s a sp A) as R. pose proof (get_ok s a sp A) as G. unfold sigaltstack. destruct ss as [x|].
  2:{ unfold rt_sigaltstack. rewrite andb_false_r. exists a. cbn [asks effect fst snd]. split; [rewrite R; destruct old; reflexivity|exact A]. }
  rewrite convert_ok. remember (asks (Some x)) as q eqn:Q. destruct q as [| | |b n]; cbn [effect].
  - unfold asks in Q. destruct (_ || _); [discriminate|destruct (_ || _); discriminate].
  - exists a. split; [destruct old; reflexivity|exact A].
  - unfold rt_sigaltstack. rewrite R || idtac. destruct (on s sp) eqn:O.
    + try rewrite O in G. rewrite G. destruct s as [[b n]|]; [|discriminate O]. cbn. exists a. split; [destruct old; reflexivity|exact A].
    + replace ((match get_sigaltstack a sp with Enabled true _ _ => true | _ => false end)) with false by (rewrite G; destruct s as [[b n]|]; [try rewrite O|]; reflexivity). cbn [andb].
      exists (Area MAX 0). rewrite R. split; [destruct old; reflexivity|reflexivity].
  - assert (X : b = ss_sp x /\ n = ss_size x) by (unfold asks in Q; destruct (_ || _); [injection Q as -> ->; split; reflexivity|destruct (_ || _); discriminate]). destruct X as [-> ->].
    destruct S as (S1 & S2 & S3). unfold rt_sigaltstack. destruct (on s sp) eqn:O.
    + try rewrite O in G. rewrite G. destruct s as [[b n]|]; [|discriminate O]. cbn [same Bool.eqb andb negb]. exists a. split; [destruct old; reflexivity|exact A].
    + replace ((match get_sigaltstack a sp with Enabled true _ _ => true | _ => false end)) with false by (rewrite G; destruct s as [[b n]|]; [try rewrite O|]; reflexivity). cbn [andb].
      unfold MIN_SIGALTSTACK_SIZE. destruct (ss_size x <? 2048) eqn:L; [exists a; split; [destruct old; reflexivity|exact A]|]. apply Z.ltb_ge in L.
      exists (Area (ss_sp x + ss_size x) (ss_sp x)). rewrite R. rewrite Z.mod_small by (unfold MAX in *; lia). split; [destruct old; reflexivity|]. cbn [fst is_area]. repeat split; lia.
Qed.
Lemma history_ok : forall l s a, is_area s a -> Forall (fun c => sensible (snd (fst c))) l -> results a l = expected s l.
Proof.
  induction l as [|[[sp ss] old] l IH]; intros s a A F; [reflexivity|]. inversion F as [|? ? F1 F2]; subst. cbn [fst snd] in F1. destruct (call_ok s a sp ss old A F1) as (a' & E & A').
  cbn [results expected]. rewrite E. destruct (effect s sp (asks ss)) as [s' r]. cbn [fst snd] in *. f_equal. apply IH; assumption.
Qed.
Lemma below sp : sp - 128 - 16 < (sp - 128) / 16 * 16 <= sp - 128 /\ ((sp - 128) / 16 * 16) mod 16 = 0.
Proof. pose proof (Z.div_mod (sp - 128) 16 ltac:(lia)). pose proof (Z.mod_pos_bound (sp - 128) 16 ltac:(lia)). split; [lia|]. apply Z.mod_mul. lia. Qed.
Lemma deliver_switch b n a sp : is_area (Some (b, n)) a -> sp <= b \/ b + n + 144 <= sp -> delivered a true sp = b + n.
Proof.
  intros (-> & B & N & M) S. unfold delivered. cbn [top bottom]. destruct (below sp) as [[P1 P2] _]. destruct (Z.ltb_spec (b + n) ((sp - 128) / 16 * 16)).
  - replace (b + n <=? b) with false by (symmetry; apply Z.leb_gt; lia). reflexivity.
  - destruct S as [S|S]; [|lia]. replace ((sp - 128) / 16 * 16 <=? b) with true by (symmetry; apply Z.leb_le; lia). reflexivity.
Qed.
Lemma deliver_stay s a f sp : is_area s a -> sp <= MAX -> 144 <= sp -> (f = false \/ s = None \/ exists b n, s = Some (b, n) /\ b + 144 <= sp <= b + n) ->
  let p := delivered a f sp in sp - 144 < p <= sp - 128 /\ p mod 16 = 0.
Proof.
  intros A M L C. cbv zeta. destruct (below sp) as [[P1 P2] P3]. assert (E : delivered a f sp = (sp - 128) / 16 * 16); [|rewrite E; split; [lia|exact P3]].
  unfold delivered. destruct f; [|reflexivity]. destruct C as [C|[->|(b & n & -> & C)]]; [discriminate| |].
  - cbn [is_area] in A. subst a. cbn [top bottom initial]. replace (MAX <? (sp - 128) / 16 * 16) with false by (symmetry; apply Z.ltb_ge; lia). replace ((sp - 128) / 16 * 16 <=? 0) with false by (symmetry; apply Z.leb_gt; lia). reflexivity.
  - destruct A as (-> & B & N & T). cbn [top bottom]. replace (b + n <? (sp - 128) / 16 * 16) with false by (symmetry; apply Z.ltb_ge; lia). replace ((sp - 128) / 16 * 16 <=? b) with false by (symmetry; apply Z.leb_gt; lia). reflexivity.
Qed.
