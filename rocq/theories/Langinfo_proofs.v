(* Lemmas for C157. *)
From Coq Require Import String.
From Verif Require Import Base Numeral Ctype_spec Writer_model Writer_proofs Time_model Time_spec Time_proofs Time_proofs2 Time_proofs3 Langinfo_model Langinfo_spec.
Open Scope string_scope.
Open Scope list_scope.
Open Scope Z_scope.

Lemma name_printed mk c t v : tm_ok t -> In c (codes "aAbBhp") -> conv_out t c v -> len v < 2 ^ 64 -> prints mk [37; c] t v.
Proof.
  intros T C H L. assert (X : expands (agrees t) t [37; c] (v ++ [])).
  { apply (ex_conv (agrees t) t c v [] []); [|exact H|constructor]. left.
    repeat (destruct C as [<-|C]; [vm_compute; tauto|]). destruct C. }
  rewrite app_nil_r in X. intros m s n. apply (strftime_std mk _ t v T X L).
Qed.
Lemma digits_len b : forall fuel n acc, len (to_digits_aux fuel b n acc) <= Z.of_nat fuel + len acc.
Proof.
  induction fuel as [|f IH]; intros n acc; [cbn [to_digits_aux]; lia|]. rewrite to_digits_aux_S. cbv zeta.
  pose proof (IH (n / b) (n mod b :: acc)) as K. unfold len in *. cbn [List.length] in K.
  destruct (n / b =? 0); cbn [List.length]; lia.
Qed.
Lemma year_len t : tm_ok t -> len (dec (year t)) <= 40.
Proof.
  intros (_ & _ & _ & _ & _ & Y & _). unfold year. assert (L : len (to_digits 10 (Z.abs (tm_year t + 1900))) <= 33).
  { unfold to_digits. pose proof (digits_len 10 (S (Z.to_nat (Z.log2 (Z.abs (tm_year t + 1900))))) (Z.abs (tm_year t + 1900)) []) as K. change (len []) with 0 in K.
    assert (Z.log2 (Z.abs (tm_year t + 1900)) <= Z.log2 4294967295) as H by (apply Z.log2_le_mono; lia). change (Z.log2 4294967295) with 31 in H.
    pose proof (Z.log2_nonneg (Z.abs (tm_year t + 1900))). lia. }
  unfold dec. unfold len in *. destruct (tm_year t + 1900 <? 0); cbn [List.length]; rewrite ?map_length; lia.
Qed.
Lemma dd_len v : len (dd v) = 2. Proof. reflexivity. Qed.
Lemma abbrev_len l : len (abbrev l) <= 3.
Proof. unfold abbrev, len. rewrite firstn_length. lia. Qed.
Lemma ampm_len t : len (ampm t) = 2.
Proof. unfold ampm. destruct (tm_hour t <? 12); reflexivity. Qed.
Lemma padded_len v : len (space_padded v) = 2.
Proof. unfold space_padded. destruct (v <? 10); reflexivity. Qed.
Lemma app_len (a b : list Z) : len (a ++ b) = len a + len b.
Proof. unfold len. rewrite app_length. lia. Qed.
Lemma lit P t c f o : c <> 37 -> c <> 0 -> expands P t f o -> expands P t (c :: f) ([c] ++ o).
Proof. intros A B E. apply ex_lit; assumption. Qed.
Lemma conv1 t c o1 f o : In c (codes "aAbBhpdeHIMSYm") -> conv_out t c o1 -> expands (agrees t) t f o -> expands (agrees t) t (37 :: c :: f) (o1 ++ o).
Proof.
  intros I E X. apply (ex_conv (agrees t) t c o1 f o); [|exact E|exact X]. left. repeat (destruct I as [<-|I]; [vm_compute; tauto|]). destruct I.
Qed.
Ltac inl := vm_compute; tauto.
Lemma formats_printed mk t c item : tm_ok t -> stands_for c item -> (c = ch "x" -> 0 <= tm_year t) -> exists o, conv_out t c o /\ prints mk (nl_langinfo item) t o.
Proof.
  intros T H Y. pose proof (year_len t T) as YL.
  assert (K : exists o, conv_out t c o /\ len o <= 100 /\ expands (agrees t) t (nl_langinfo item) (o ++ [])).
  { destruct H.
    - eexists. split; [exact (co_c t _ (decimal_dec _))|]. split.
      + unfold hms. rewrite !app_len, !dd_len, padded_len. pose proof (abbrev_len (weekday t)). pose proof (abbrev_len (month t)). change (len [32]) with 1. change (len [58]) with 1. lia.
      + change (nl_langinfo D_T_FMT) with [37;97;32;37;98;32;37;101;32;37;72;58;37;77;58;37;83;32;37;89]. unfold hms. rewrite <- !app_assoc.
        apply conv1; [inl|apply co_a|]. apply lit; [lia|lia|]. apply conv1; [inl|apply co_b|]. apply lit; [lia|lia|]. apply conv1; [inl|apply co_e|]. apply lit; [lia|lia|].
        apply conv1; [inl|apply co_H|]. apply lit; [lia|lia|]. apply conv1; [inl|apply co_M|]. apply lit; [lia|lia|]. apply conv1; [inl|apply co_S|]. apply lit; [lia|lia|].
        apply conv1; [inl|apply co_Y; apply decimal_dec|]. constructor.
    - eexists. split; [exact (co_x t)|]. split; [unfold mdy; rewrite !app_len, !dd_len; change (len [47]) with 1; lia|].
      change (nl_langinfo D_FMT) with [37;109;47;37;100;47;37;121]. unfold mdy. rewrite <- !app_assoc.
      apply conv1; [inl|apply co_m|]. apply lit; [lia|lia|]. apply conv1; [inl|apply co_d|]. apply lit; [lia|lia|].
      apply (ex_conv (agrees t) t 121); [|apply co_y|constructor]. right. left. split; [inl|apply Y; reflexivity].
    - eexists. split; [exact (co_X t)|]. split; [unfold hms; rewrite !app_len, !dd_len; change (len [58]) with 1; lia|].
      change (nl_langinfo T_FMT) with [37;72;58;37;77;58;37;83]. unfold hms. rewrite <- !app_assoc.
      apply conv1; [inl|apply co_H|]. apply lit; [lia|lia|]. apply conv1; [inl|apply co_M|]. apply lit; [lia|lia|]. apply conv1; [inl|apply co_S|]. constructor.
    - eexists. split; [exact (co_r t)|]. split; [rewrite !app_len, !dd_len, ampm_len; change (len [58]) with 1; change (len [32]) with 1; lia|].
      change (nl_langinfo T_FMT_AMPM) with [37;73;58;37;77;58;37;83;32;37;112]. rewrite <- !app_assoc.
      apply conv1; [inl|apply co_I|]. apply lit; [lia|lia|]. apply conv1; [inl|apply co_M|]. apply lit; [lia|lia|]. apply conv1; [inl|apply co_S|]. apply lit; [lia|lia|].
      apply conv1; [inl|apply co_p|]. constructor. }
  destruct K as (o & C & L & X). rewrite app_nil_r in X. exists o. split; [exact C|]. intros m s n. apply (strftime_std mk _ t o T X). change WRAP with (2 ^ 64). lia.
Qed.
