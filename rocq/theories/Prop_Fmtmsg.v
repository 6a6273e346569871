(* C133: fmtmsg. *)
From Coq Require Import ZArith String List Bool Lia.
From Verif Require Import Base Ctype_spec Fmtmsg_model Fmtmsg_spec Fmtmsg_proofs.
Import ListNotations.
Open Scope string_scope.
Open Scope list_scope.
Open Scope Z_scope.

(* C133 full: fmtmsg sends the message to standard error with the components MSGVERB selects (all when it is unset or not
   a list of keywords), to the console with all of them, as the classification asks, and its result says which of the
   two did not get it.  Missing: a value of MSGVERB with a colon at its end (refuted); severities above 4. *)
Definition asked (classification place : Z) : bool := negb (Z.land classification place =? 0).
Theorem C133_message_partial : forall con_opens con_ok err_ok fuel msgverb sel classification label severity text action tag,
  (forall k, In k keywords -> sel k = true <-> selected msgverb k) -> no_trailing msgverb -> 0 <= severity <= 4 ->
  (match msgverb with Some v => length v < fuel | None => 0 < fuel end)%nat ->
  fmtmsg con_opens con_ok err_ok fuel msgverb classification label severity text action tag =
  Ok ((if asked classification 512 && con_opens then [(Console, the_message (fun _ => true) label severity text action tag)] else []) ++
      (if asked classification 256 then [(Stderr, the_message sel label severity text action tag)] else []),
      the_result (asked classification 512 && negb (con_opens && con_ok)) (asked classification 256 && negb err_ok)).
Proof.
  intros con_opens con_ok err_ok fuel msgverb sel cl label severity text action tag SE NT SV FU.
  destruct (verbs_ok fuel msgverb sel SE NT FU) as (v & E & C). unfold fmtmsg, asked. rewrite E. cbn [bind].
  rewrite (message_ok 255 (fun _ => true)) by (first [exact SV|apply all_chosen; reflexivity]).
  rewrite (message_ok _ sel label severity text action tag C SV).
  destruct (Z.land cl 512 =? 0), (Z.land cl 256 =? 0), con_opens, con_ok, err_ok; reflexivity.
Qed.
Print Assumptions C133_message_partial.
(* MSGVERB=severity:text *)
Example C133_message_case :
  let sel k := listed [codes "severity"; codes "text"] k in
  (forall k, In k keywords -> sel k = true <-> selected (Some (codes "severity:text")) k) /\ no_trailing (Some (codes "severity:text")) /\
  fmtmsg true true false 20 (Some (codes "severity:text")) 768 (Some (codes "UX:cat")) 2 (Some (codes "bad")) (Some (codes "stop")) (Some (codes "UX:cat:001")) =
  Ok ([(Console, codes "UX:cat: ERROR: bad" ++ [10] ++ codes "TO FIX: stop UX:cat:001" ++ [10]); (Stderr, codes "ERROR: bad" ++ [10])], 1).
Proof.
  split; [|split; [|reflexivity]].
  - intros k K. split.
    + intros L ks (A1 & A2 & A3). destruct ks as [|k1 [|k2 [|k3 ks]]]; [congruence| | |].
      * exfalso. inversion A2 as [|? ? K1 _]; subst. cbn [joined] in A3. destruct (in_key _ K1) as [i KI]. apply (proj1 (key_colon _ _ KI)). rewrite <- A3. vm_compute. tauto.
      * inversion A2 as [|? ? K1 A2']; subst. inversion A2' as [|? ? K2 _]; subst.
        destruct (in_key _ K1) as [i KI], (in_key _ K2) as [j KJ]. destruct (colon_split (codes "severity") k1 (codes "text") k2) as [<- <-];
          [vm_compute; intuition discriminate|exact (proj1 (key_colon _ _ KI))|exact A3|].
        unfold listed in L. destruct (in_dec _ k _) as [X|X]; [exact X|discriminate].
      * exfalso. inversion A2 as [|? ? K1 A2']; subst. inversion A2' as [|? ? K2 A2'']; subst. destruct (in_key _ K1) as [i KI].
        destruct (colon_split (codes "severity") k1 (codes "text") (k2 ++ 58 :: joined (k3 :: ks))) as [_ Q];
          [vm_compute; intuition discriminate|exact (proj1 (key_colon _ _ KI))|exact A3|].
        assert (X : In 58 (codes "text")) by (rewrite Q; apply in_or_app; right; left; reflexivity). vm_compute in X. intuition discriminate.
    + intros SE. assert (A : a_list (codes "severity:text") [codes "severity"; codes "text"]).
      { split; [discriminate|]. split; [repeat constructor; vm_compute; tauto|reflexivity]. }
      specialize (SE _ A). unfold listed. destruct (in_dec _ k _) as [X|X]; [reflexivity|contradiction].
  - intros w ks _ E. change (codes "severity:text") with (codes "severity:tex" ++ [116]) in E. apply app_inj_tail in E. destruct E as [_ E]. discriminate E.
Qed.

(* "label:" is not a list of keywords, and yet selects the label alone *)
Theorem C133_trailing_refuted : ~ (forall fuel msgverb sel classification label severity text action tag,
  (forall k, In k keywords -> sel k = true <-> selected msgverb k) -> 0 <= severity <= 4 -> (match msgverb with Some v => length v < fuel | None => 0 < fuel end)%nat ->
  exists r, fmtmsg true true true fuel msgverb classification label severity text action tag =
  Ok ((if asked classification 512 then [(Console, the_message (fun _ => true) label severity text action tag)] else []) ++
      (if asked classification 256 then [(Stderr, the_message sel label severity text action tag)] else []), r)).
Proof.
  intros H. destruct (H 10%nat (Some (codes "label:")) (fun _ => true) 256 None 1 None None None) as [r E].
  - intros k K. split; [|reflexivity]. intros _ ks (A1 & A2 & A3). exfalso. destruct ks as [|k1 ks]; [congruence|].
    inversion A2 as [|? ? K1 A2']; subst. destruct (in_key _ K1) as [i KI]. destruct (key_colon _ _ KI) as [NC _]. destruct ks as [|k2 ks].
    + cbn [joined] in A3. apply NC. rewrite <- A3. vm_compute. tauto.
    + rewrite joined_cons in A3 by discriminate. destruct (colon_split (codes "label") k1 [] (joined (k2 :: ks))) as [_ Q]; [vm_compute; intuition discriminate|exact NC|exact A3|].
      inversion A2' as [|? ? K2 _]; subst. destruct (in_key _ K2) as [j KJ]. destruct (key_colon _ _ KJ) as [_ NK].
      destruct ks; [cbn in Q; congruence|]. rewrite joined_cons in Q by discriminate. destruct k2; [congruence|discriminate Q].
  - lia.
  - cbn. lia.
  - vm_compute in E. discriminate E.
Qed.
Print Assumptions C133_trailing_refuted.
