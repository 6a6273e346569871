(* Lemmas about Falloc_model. *)
From Verif Require Import Base Falloc_spec Falloc_model.

Lemma resized_up l n : len l <= n -> grown l (resized l n) n.
Proof.
  intros L. unfold resized, grown. rewrite firstn_all2 by (unfold len in L; lia). split.
  - eexists. split; [reflexivity|]. apply Forall_forall. intros x Hx. apply repeat_spec in Hx. auto.
  - rewrite len_app. unfold len at 2. rewrite repeat_length. unfold len in *. lia.
Qed.
Lemma fallocate_ok f offset length fstat others ftruncate :
  len f < 9223372036854775808 -> -9223372036854775808 <= offset < 9223372036854775808 -> -9223372036854775808 <= length < 9223372036854775808 ->
  (forall l, len (others l) = len l) -> (forall n e, ftruncate n = Some e -> 0 < e) -> (forall e, fstat = Some e -> 0 < e) ->
  let r := posix_fallocate f offset length fstat others ftruncate in
  (snd r = 0 -> 0 <= offset /\ 0 < length /\ grown (others f) (fst r) (offset + length))
  /\ (snd r <> 0 -> fst r = f \/ fst r = others f)
  /\ (offset < 0 \/ length <= 0 -> r = (f, 22))
  /\ (0 <= offset -> 0 < length -> fstat = None -> ftruncate (offset + length) = None -> snd r = 0).
Proof.
  intros LF LO LL OT FT FS. cbv zeta. unfold posix_fallocate, sys_fallocate.
  destruct (Z.ltb_spec offset 0). { cbn [fst snd]. split; [|split; [|split]]; auto; try lia; try discriminate. }
  destruct (Z.leb_spec length 0). { cbn [fst snd]. split; [|split; [|split]]; auto; try lia; try discriminate. }
  destruct (Z.leb_spec 18446744073709551616 (offset + length)); [lia|].
  destruct fstat as [e|]. { specialize (FS e eq_refl). cbn [fst snd]. split; [|split; [|split]]; auto; try lia; try discriminate. }
  destruct (Z.leb_spec (len f) (offset + length)).
  - replace (len f + (offset + length - len f)) with (offset + length) by lia. destruct (Z.ltb_spec (offset + length) 18446744073709551616); [|lia].
    destruct (ftruncate (offset + length)) as [e|] eqn:E; cbn [fst snd].
    + specialize (FT _ _ E). split; [|split; [|split]]; auto; try lia; try discriminate.
    + split; [|split; [|split]]; auto; try lia. intros _. split; [lia|]. split; [lia|]. apply resized_up. rewrite OT. lia.
  - cbn [fst snd]. split; [|split; [|split]]; auto; try lia; try congruence. intros _. split; [lia|]. split; [lia|]. split.
    + exists []. split; [rewrite (app_nil_r (others f)); reflexivity|constructor].
    + rewrite OT. lia.
Qed.
