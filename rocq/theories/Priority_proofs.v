From Verif Require Import Base Priority_model.

(* the nice value nearest to the one asked for, from -20 to 19 *)
Definition nearest (n v : Z) : Prop := -20 <= v <= 19 /\ forall u, -20 <= u <= 19 -> Z.abs (n - v) <= Z.abs (n - u).
Definition is_int (x : Z) : Prop := - 2 ^ 31 <= x < 2 ^ 31.
Lemma clamp_nearest n : nearest n (clamp n).
Proof. unfold nearest, clamp. split; [lia|]. intros u U. lia. Qed.
Lemma nearest_clamp n v : nearest n v -> v = clamp n.
Proof.
  intros (A & B). destruct (clamp_nearest n) as (C & D). specialize (B _ C). specialize (D _ A). unfold clamp in *. lia.
Qed.
Lemma i32_id x : is_int x -> i32 x = x.
Proof. unfold is_int, i32. intro H. rewrite Z.mod_small by lia. lia. Qed.
Lemma get_stored k who v : -20 <= v <= 19 -> prio k who = inl (20 + v) -> sys_getpriority k 0 who = inl (20 - v) /\ getpriority k 0 who = (v, None).
Proof.
  intros V P. assert (S : sys_getpriority k 0 who = inl (20 - v)).
  { unfold sys_getpriority, posix_getpriority. cbn [Z.eqb negb]. rewrite P. rewrite (Z.mod_small (20 + v)) by lia.
    rewrite (i32_id (20 + v)) by (unfold is_int; lia). rewrite i32_id by (unfold is_int; lia). f_equal. lia. }
  split; [exact S|]. unfold getpriority. rewrite S. cbn [minus_one]. destruct (Z.ltb_spec (20 - v) 0); [lia|]. rewrite i32_id by (unfold is_int; lia). f_equal. lia.
Qed.
Lemma set_stored k who n : set_error k who = None -> prio (fst (setpriority k 0 who n)) who = inl (20 + clamp n) /\ setpriority k 0 who n = (put k who (20 + clamp n), (0, None)).
Proof.
  intro E. assert (X : setpriority k 0 who n = (put k who (20 + clamp n), (0, None))).
  { unfold setpriority, sys_setpriority, posix_setpriority. cbn [Z.eqb negb]. rewrite E. rewrite Z.mod_small by (unfold clamp; lia). reflexivity. }
  split; [|exact X]. rewrite X. cbn. rewrite Z.eqb_refl. reflexivity.
Qed.
