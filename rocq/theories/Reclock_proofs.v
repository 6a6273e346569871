From Coq Require Import ZArith List Bool Lia.
From Verif Require Import Base Reclock_spec Reclock_model.
Import ListNotations.
Open Scope Z_scope.

(* the range two words of a call mean to the file system: 63 bits each, a length of 0
   reaching to the end *)
Definition fs_range (a b : Z) (x : Z) : Prop :=
  let s := Z.land a (top - 1) in let n := Z.land b (top - 1) in
  if n =? 0 then s <= x else s <= x < s + n.
Definition whence_of (w : whence) : Z := match w with Set_ => SEEK_SET | Cur => SEEK_CUR | End_ => SEEK_END end.
Definition off_t (x : Z) : Prop := - 2 ^ 63 <= x < 2 ^ 63.

Lemma i64_id : forall x, off_t x -> i64 x = x.
Proof.
  intros x H. unfold i64, off_t in *. destruct (Z_lt_dec x 0).
  - rewrite <- (Z.mod_add x 1 (2 ^ 64)), Z.mod_small by lia. destruct (Z.ltb_spec (x + 1 * 2 ^ 64) (2 ^ 63)); lia.
  - rewrite Z.mod_small by lia. destruct (Z.ltb_spec x (2 ^ 63)); lia.
Qed.
Lemma i64_low : forall x, - 2 ^ 64 <= x < - 2 ^ 63 -> 0 <= i64 x.
Proof.
  intros x H. unfold i64. rewrite <- (Z.mod_add x 1 (2 ^ 64)), Z.mod_small by lia. destruct (Z.ltb_spec (x + 1 * 2 ^ 64) (2 ^ 63)); lia.
Qed.
Lemma low_lor : forall x b, 0 <= x < 2 ^ 63 -> Z.land (Z.lor (u64 x) (if (b : bool) then top else 0)) (top - 1) = x.
Proof.
  intros x b H. unfold u64, top. rewrite Z.mod_small by lia. change (2 ^ 63 - 1) with (Z.ones 63). rewrite Z.land_lor_distr_l.
  rewrite (Z.land_ones x) by lia. rewrite Z.mod_small by lia. destruct b; [|rewrite Z.land_0_l; apply Z.lor_0_r].
  change (Z.land (2 ^ 63) (Z.ones 63)) with 0. apply Z.lor_0_r.
Qed.
Lemma high_lor : forall x b, 0 <= x < 2 ^ 63 -> Z.testbit (Z.lor (u64 x) (if (b : bool) then top else 0)) 63 = b.
Proof.
  intros x b H. unfold u64, top. rewrite Z.mod_small by lia. rewrite Z.lor_spec.
  assert (B : Z.testbit x 63 = false).
  { destruct (Z.eq_dec x 0) as [->|]; [reflexivity|]. apply Z.bits_above_log2; [lia|]. apply Z.log2_lt_pow2; lia. }
  rewrite B. destruct b; reflexivity.
Qed.

Lemma absolute_ok : forall start len, off_t start -> off_t len -> - 2 ^ 63 <= start + (if len <? 0 then len else 0) ->
  len <> - 2 ^ 63 ->
  let f := first Set_ start len 0 0 in
  absolute SEEK_SET start len = Ok (if f <? 0 then inr EINVAL else inl (f, Z.abs len)).
Proof.
  intros start len S L O NM f. unfold f, first, base, absolute. change (SEEK_SET =? SEEK_SET) with true. cbv iota. cbv zeta.
  destruct (Z.ltb_spec len 0).
  - rewrite !i64_id by (unfold off_t in *; lia). rewrite Z.add_0_l. destruct (Z.ltb_spec (start + len) 0); [reflexivity|]. destruct (Z.ltb_spec (- len) 0); [lia|].
    rewrite Z.abs_neq by lia. reflexivity.
  - rewrite Z.add_0_l, Z.add_0_r. destruct (Z.ltb_spec start 0); [reflexivity|]. destruct (Z.ltb_spec len 0); [lia|]. rewrite Z.abs_eq by lia. reflexivity.
Qed.
Lemma first_range : forall start len, off_t start -> off_t len -> 0 <= first Set_ start len 0 0 -> 0 <= first Set_ start len 0 0 < 2 ^ 63.
Proof. intros start len S L F. unfold first, base, off_t in *. destruct (Z.ltb_spec len 0); lia. Qed.
Lemma range_ok : forall start len pos size b c, off_t start -> off_t len -> len <> - 2 ^ 63 -> 0 <= first Set_ start len pos size ->
  forall x, fs_range (Z.lor (u64 (first Set_ start len 0 0)) (if (b : bool) then top else 0)) (Z.lor (u64 (Z.abs len)) (if (c : bool) then top else 0)) x
    <-> section Set_ start len pos size x.
Proof.
  intros start len pos size b c S L NM F x. unfold fs_range, off_t in *. pose proof (first_range start len S L F) as FR. rewrite !low_lor by lia.
  unfold section, first, base in *. destruct (Z.ltb_spec len 0); destruct (Z.eqb_spec (Z.abs len) 0); destruct (Z.eqb_spec len 0); try lia.
Qed.

(* what a call should be *)
Definition locks (ofd excl : bool) (c : fscall) (r : Z -> Prop) : Prop :=
  exists a b, c = Lock a b /\ Z.testbit a 63 = ofd /\ Z.testbit b 63 = excl /\ forall x, fs_range a b x <-> r x.
Definition unlocks (ofd : bool) (c : fscall) (r : Z -> Prop) : Prop :=
  exists a b, c = Unlock a b /\ Z.testbit a 63 = ofd /\ forall x, fs_range a b x <-> r x.

Lemma setlk_ok : forall ofd ty start len pid pos size, off_t start -> off_t len -> - 2 ^ 63 <= start + (if len <? 0 then len else 0) -> len <> - 2 ^ 63 ->
  let r := Fl ty SEEK_SET start len pid in let sec := section Set_ start len pos size in
  if first Set_ start len pos size <? 0 then setlk ofd r = Ok (inr EINVAL)
  else if ty =? F_UNLCK then exists c, setlk ofd r = Ok (inl c) /\ unlocks ofd c sec
  else if (ty =? F_RDLCK) || (ty =? F_WRLCK) then exists c, setlk ofd r = Ok (inl c) /\ locks ofd (ty =? F_WRLCK) c sec
  else setlk ofd r = Ok (inr EINVAL).
Proof.
  intros ofd ty start len pid pos size S L O NM r sec. subst sec. unfold setlk, r. cbn [l_whence l_start l_len l_type]. rewrite absolute_ok by assumption. cbn [bind].
  change (first Set_ start len pos size) with (first Set_ start len 0 0). destruct (Z.ltb_spec (first Set_ start len 0 0) 0) as [|F]; [reflexivity|].
  pose proof (first_range _ _ S L F) as FR. assert (A : 0 <= Z.abs len < 2 ^ 63) by (unfold off_t in *; lia).
  destruct (ty =? F_UNLCK).
  - eexists. split; [reflexivity|]. eexists. eexists. split; [reflexivity|]. split; [apply high_lor, FR|]. intro x.
    rewrite <- (range_ok start len pos size ofd false S L NM F x). cbv iota. rewrite Z.lor_0_r. reflexivity.
  - destruct ((ty =? F_RDLCK) || (ty =? F_WRLCK)); [|reflexivity]. eexists. split; [reflexivity|]. eexists. eexists. split; [reflexivity|].
    split; [apply high_lor, FR|]. split; [apply high_lor, A|]. intro x. apply range_ok; assumption.
Qed.
Lemma getlk_ok : forall ty start len pid pos size ask, off_t start -> off_t len -> - 2 ^ 63 <= start + (if len <? 0 then len else 0) -> len <> - 2 ^ 63 ->
  0 <= first Set_ start len pos size ->
  let r := Fl ty SEEK_SET start len pid in
  exists a b, Z.testbit a 63 = false /\ Z.testbit b 63 = (ty =? F_WRLCK) /\ (forall x, fs_range a b x <-> section Set_ start len pos size x) /\
    match ask a b with
    | inr e => getlk false ask r = Ok (if e =? ESRCH then (Fl F_UNLCK SEEK_SET start len pid, inl 0) else (r, inr e))
    | inl (owner, s, n) => Z.land s (top - 1) = Z.land a (top - 1) ->
        exists f, getlk false ask r = Ok (f, inl 0) /\ l_pid f = owner /\ l_type f = (if Z.testbit n 63 then F_WRLCK else F_RDLCK) /\
          l_whence f = SEEK_SET /\ l_start f = Z.land s (top - 1) /\ l_len f = Z.land n (top - 1)
    end.
Proof.
  intros ty start len pid pos size ask S L O NM F r. unfold getlk, r. cbn [l_whence l_start l_len l_type andb l_pid]. rewrite absolute_ok by assumption. cbn [bind].
  change (first Set_ start len pos size) with (first Set_ start len 0 0) in *. destruct (Z.ltb_spec (first Set_ start len 0 0) 0); [lia|].
  pose proof (first_range _ _ S L F) as FR. assert (A : 0 <= Z.abs len < 2 ^ 63) by (unfold off_t in *; lia).
  exists (Z.lor (u64 (first Set_ start len 0 0)) (if false then top else 0)), (Z.lor (u64 (Z.abs len)) (if ty =? F_WRLCK then top else 0)).
  split; [apply (high_lor _ false), FR|]. split; [apply high_lor, A|]. split; [intro x; apply (range_ok start len pos size false); assumption|]. cbv zeta.
  destruct (ask _ _) as [((owner, s), n)|e].
  - intro E. rewrite (low_lor _ false) in E by exact FR. eexists. split; [reflexivity|]. cbn [l_pid l_type l_whence l_start l_len]. repeat split.
    + rewrite E. rewrite Z.lor_0_r. unfold u64. rewrite Z.mod_small by lia. apply i64_id. unfold off_t. lia.
    + apply i64_id. unfold off_t. change (top - 1) with (Z.ones 63). rewrite Z.land_ones by lia. pose proof (Z.mod_pos_bound n (2 ^ 63)). lia.
  - destruct (e =? ESRCH); reflexivity.
Qed.
