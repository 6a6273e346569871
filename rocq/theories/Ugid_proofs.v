(* Lemmas for C160. *)
From Verif Require Import Base Ugid_model Ugid_spec.

Lemma cvt_ok v : int v -> cvt_uid v = (if v <? -1 then inr EINVAL else inl (if v =? -1 then None else Some v)).
Proof.
  unfold int, cvt_uid. intro H. destruct (Z.eqb_spec v (-1)) as [->|N]; [reflexivity|]. destruct (Z.ltb_spec v (-1)); destruct (Z.ltb_spec v 0); try lia; reflexivity.
Qed.
Lemma keep_given v old : -1 <= v < 2 ^ 31 -> keep (num v) old = given old v.
Proof.
  intro H. unfold keep, given, num. destruct (Z.eqb_spec v (-1)); [reflexivity|]. unfold U32_MAX. rewrite (proj2 (Z.eqb_neq v 4294967295)) by lia. reflexivity.
Qed.
Lemma unwrap_given v old : unwrap_or (if v =? -1 then None else Some v) old = given old v.
Proof. unfold given. destruct (v =? -1); reflexivity. Qed.
Lemma given_small v old : -1 <= v < 2 ^ 31 -> 0 <= old < 2 ^ 31 -> 0 <= given old v < 2 ^ 31.
Proof. intros. unfold given. destruct (Z.eqb_spec v (-1)); lia. Qed.
Lemma as_int_small v : 0 <= v < 2 ^ 31 -> as_int v = v.
Proof. intro. unfold as_int. rewrite (proj2 (Z.ltb_lt v 2147483648)) by lia. reflexivity. Qed.
Lemma unwrap_num v : unwrap_or (if v =? -1 then None else Some v) U32_MAX = num v.
Proof. unfold num. destruct (v =? -1); reflexivity. Qed.
(* the outcome of asking for three ids *)
Definition outcome (p : policy) (s : state) (r e v : Z) (u : bool) (s' : state) (o : option Z) : Prop :=
  match o with
  | Some x => s' = s /\ (x = EINVAL /\ (r < -1 \/ e < -1 \/ v < -1) \/ p (manager s) (six u r e v) = Some x)
  | None => p (manager s) (six u r e v) = None /\ -1 <= r /\ -1 <= e /\ -1 <= v /\ wf s' /\ let i := manager s in
      manager s' = if u then Ids (given (ruid i) r) (given (euid i) e) (given (suid i) v) (rgid i) (egid i) (sgid i)
                   else Ids (ruid i) (euid i) (suid i) (given (rgid i) r) (given (egid i) e) (given (sgid i) v)
  end.
Ltac cases v H := rewrite (cvt_ok v H); destruct (Z.ltb_spec v (-1)); [split; [reflexivity|]; left; split; [reflexivity|lia]|].
Lemma users p s r e v : wf s -> int r -> int e -> int v -> outcome p s r e v true (fst (sys_setresuid p s r e v)) (snd (sys_setresuid p s r e v)).
Proof.
  intros (C & M) R E V. unfold sys_setresuid, outcome. cases r R. cases e E. cases v V. unfold int in *.
  unfold posix_setresugid. cbn [a_ruid a_euid a_suid a_rgid a_egid a_sgid]. cbv zeta.
  match goal with |- context [p (manager s) ?l] => match l with _ :: _ => replace l with (six true r e v) by (rewrite !unwrap_num; reflexivity) end end.
  destruct (p (manager s) (six true r e v)) as [x|] eqn:P; cbn [fst snd].
  - split; [reflexivity|]. right. reflexivity.
  - split; [reflexivity|]. split; [lia|]. split; [lia|]. split; [lia|]. cbn [manager]. unfold accept, six. rewrite !keep_given by lia.
    split; [|reflexivity]. rewrite C. rewrite !unwrap_given. split; [reflexivity|]. cbn [manager].
    unfold small in *. cbn [ruid euid suid rgid egid sgid]. repeat match goal with H : Forall _ (_ :: _) |- _ => inversion H; subst; clear H end.
    repeat (apply Forall_cons; [first [assumption|apply given_small; [lia|assumption]]|]). apply Forall_nil.
Qed.
Lemma groups p s r e v : wf s -> int r -> int e -> int v -> outcome p s r e v false (fst (sys_setresgid p s r e v)) (snd (sys_setresgid p s r e v)).
Proof.
  intros (C & M) R E V. unfold sys_setresgid, outcome. cases r R. cases e E. cases v V. unfold int in *.
  unfold posix_setresugid. cbn [a_ruid a_euid a_suid a_rgid a_egid a_sgid]. cbv zeta.
  match goal with |- context [p (manager s) ?l] => match l with _ :: _ => replace l with (six false r e v) by (rewrite !unwrap_num; reflexivity) end end.
  destruct (p (manager s) (six false r e v)) as [x|] eqn:P; cbn [fst snd].
  - split; [reflexivity|]. right. reflexivity.
  - split; [reflexivity|]. split; [lia|]. split; [lia|]. split; [lia|]. cbn [manager]. unfold accept, six. rewrite !keep_given by lia.
    split; [|reflexivity]. rewrite C. rewrite !unwrap_given. split; [reflexivity|]. cbn [manager].
    unfold small in *. cbn [ruid euid suid rgid egid sgid]. repeat match goal with H : Forall _ (_ :: _) |- _ => inversion H; subst; clear H end.
    repeat (apply Forall_cons; [first [assumption|apply given_small; [lia|assumption]]|]). apply Forall_nil.
Qed.
Lemma minus_one_int : int (-1). Proof. unfold int. lia. Qed.
Definition real_args (c : call) : Z * Z * Z * bool :=
  match c with
  | Setresuid r e v => (r, e, v, true) | Setreuid r e => (r, e, -1, true) | Seteuid u => (-1, u, -1, true) | Setuid u => (u, u, -1, true)
  | Setresgid r e v => (r, e, v, false) | Setregid r e => (r, e, -1, false) | Setegid u => (-1, u, -1, false) | Setgid u => (u, u, -1, false)
  end.
Lemma perform_ok p s c : wf s -> ints c -> exists s' o, perform p s c = (s', match o with None => 0 | Some _ => -1 end, o) /\ let '(r, e, v, u) := real_args c in outcome p s r e v u s' o.
Proof.
  intros W A. unfold ints in A. pose proof minus_one_int as MI.
  assert (U : forall r e v, int r -> int e -> int v -> exists s' o, or_minus_one (sys_setresuid p s r e v) = (s', match o with None => 0 | Some _ => -1 end, o) /\ outcome p s r e v true s' o).
  { intros r e v R E V. pose proof (users p s r e v W R E V) as H. destruct (sys_setresuid p s r e v) as [s' o]. exists s', o. split; [destruct o; reflexivity|exact H]. }
  assert (G : forall r e v, int r -> int e -> int v -> exists s' o, or_minus_one (sys_setresgid p s r e v) = (s', match o with None => 0 | Some _ => -1 end, o) /\ outcome p s r e v false s' o).
  { intros r e v R E V. pose proof (groups p s r e v W R E V) as H. destruct (sys_setresgid p s r e v) as [s' o]. exists s', o. split; [destruct o; reflexivity|exact H]. }
  destruct c; cbn [args] in A; repeat match goal with H : Forall _ (_ :: _) |- _ => inversion H; subst; clear H end; cbn [real_args perform];
    first [apply U; assumption|apply G; assumption].
Qed.
