From Verif Require Import Base Filetimes_model Filetimes_spec.
Open Scope Z_scope.

Lemma as_int_id n : int n -> as_int n = n.
Proof. unfold int, as_int. intro H. change (2 ^ 31) with 2147483648. change (2 ^ 32) with 4294967296. rewrite Z.mod_small by lia. lia. Qed.
Lemma as_int_range n : int (as_int n).
Proof. unfold int, as_int. change (2 ^ 31) with 2147483648. change (2 ^ 32) with 4294967296. pose proof (Z.mod_pos_bound (n + 2147483648) 4294967296 ltac:(lia)). lia. Qed.
Lemma valid_int t : valid t -> int (nsec t).
Proof. unfold valid, int, UTIME_NOW, UTIME_OMIT. lia. Qed.
Lemma from_id t : int (nsec t) -> from_timespec t = t.
Proof. destruct t as [x n]. unfold from_timespec. cbn [sec nsec]. intro V. rewrite as_int_id by exact V. reflexivity. Qed.
Lemma apply_valid n old t : valid t -> apply n old t = Some (wanted n old t).
Proof.
  unfold valid, apply, wanted. intro V. destruct (Z.eqb_spec (nsec t) UTIME_NOW); [destruct (Z.eq_dec (nsec t) UTIME_NOW); [reflexivity|contradiction]|].
  destruct (Z.eq_dec (nsec t) UTIME_NOW); [contradiction|]. destruct (Z.eqb_spec (nsec t) UTIME_OMIT); [destruct (Z.eq_dec (nsec t) UTIME_OMIT); [reflexivity|contradiction]|].
  destruct (Z.eq_dec (nsec t) UTIME_OMIT); [contradiction|]. rewrite (proj2 (Z.leb_le 0 (nsec t))), (proj2 (Z.ltb_lt (nsec t) 1000000000)) by lia. reflexivity.
Qed.
Lemma apply_invalid n old t : ~ valid t -> apply n old t = None.
Proof.
  unfold valid, apply. intro V. destruct (Z.eqb_spec (nsec t) UTIME_NOW); [tauto|]. destruct (Z.eqb_spec (nsec t) UTIME_OMIT); [tauto|].
  destruct (Z.leb_spec 0 (nsec t)); [|reflexivity]. destruct (Z.ltb_spec (nsec t) 1000000000); [|reflexivity]. exfalso. apply V. lia.
Qed.
Lemma set_same {A} (f : Z -> A) i v : set f i v i = v.
Proof. unfold set. rewrite Z.eqb_refl. reflexivity. Qed.
Lemma set_other {A} (f : Z -> A) i v j : j <> i -> set f i v j = f j.
Proof. unfold set. intro H. rewrite (proj2 (Z.eqb_neq _ _) H). reflexivity. Qed.

(* on an open descriptor *)
Lemma lib_ok s w fd f times : fds w fd = Some f -> valid_times times -> outcome s w f times (or_minus_one (lib_futimens s w fd times)).
Proof.
  intros F V. unfold lib_futimens. rewrite F.
  assert (X : forall a m, valid a -> valid m -> change s w f a m = match refuses s f with Some e => (w, Some e) | None => (World (set (atime w) f (wanted (now s) (atime w f) a)) (set (mtime w) f (wanted (now s) (mtime w f) m)) (fds w), None) end).
  { intros a m A M. unfold change. rewrite !apply_valid by assumption. reflexivity. }
  assert (N : valid (T 0 UTIME_NOW)) by (left; reflexivity).
  unfold outcome. destruct times as [[a m]|].
  - destruct V as [A M]. rewrite !from_id by (apply valid_int; assumption). rewrite X by assumption. destruct (refuses s f) as [e|].
    + exists w. split; [reflexivity|]. split; auto.
    + eexists. split; [reflexivity|]. unfold touched. cbn [atime mtime fds]. split; [rewrite !set_same; auto|]. split; [|auto]. intros g G. rewrite !set_other by exact G. auto.
  - rewrite X by assumption. destruct (refuses s f) as [e|].
    + exists w. split; [reflexivity|]. split; auto.
    + eexists. split; [reflexivity|]. unfold touched. cbn [atime mtime fds]. split; [rewrite !set_same; auto|]. split; [|auto]. intros g G. rewrite !set_other by exact G. auto.
Qed.
Lemma lib_bad s w fd f a m : fds w fd = Some f -> int (nsec a) -> int (nsec m) -> ~ valid a \/ ~ valid m -> lib_futimens s w fd (Some (a, m)) = (w, Some EINVAL).
Proof.
  intros F A M V. unfold lib_futimens. rewrite F, !from_id by assumption. unfold change. destruct V as [V|V]; rewrite (apply_invalid _ _ _ V).
  - destruct (apply (now s) (mtime w f) m); reflexivity.
  - destruct (apply (now s) (atime w f) a); reflexivity.
Qed.
(* opening and closing leave the descriptors as they were *)
Lemma reopen s w f times r w1 : picks s w -> w1 = World (atime w) (mtime w) (set (fds w) (pick s (fds w)) (Some f)) -> outcome s w1 f times r ->
  outcome s w f times (let '(w2, x, e) := r in (close w2 (pick s (fds w)), x, e)).
Proof.
  intros (_ & P) -> O. unfold outcome, fails in *. destruct (refuses s f) as [e|].
  - destruct O as (w' & -> & (S1 & S2)). eexists. split; [reflexivity|]. split; [exact S1|]. intro g. cbn [close fds]. cbn [fds] in S2. destruct (Z.eq_dec g (pick s (fds w))) as [E|E]; [rewrite E, set_same; auto|]. rewrite set_other by exact E. rewrite S2. apply set_other; exact E.
  - destruct O as (w' & -> & (S1 & S2 & S3)). eexists. split; [reflexivity|]. split; [exact S1|]. split; [exact S2|].
    intro g. cbn [close fds]. cbn [fds] in S3. destruct (Z.eq_dec g (pick s (fds w))) as [E|E]; [rewrite E, set_same; auto|]. rewrite set_other by exact E. rewrite S3. apply set_other; exact E.
Qed.
Lemma set_idem_fails s w f e : picks s w ->
  fails w (let '(w2, x, r) := or_minus_one (World (atime w) (mtime w) (set (fds w) (pick s (fds w)) (Some f)), Some e) in (close w2 (pick s (fds w)), x, r)) e.
Proof.
  intros (_ & P). cbn [or_minus_one]. eexists. split; [reflexivity|]. split; [auto|]. intro g. cbn [close fds]. destruct (Z.eq_dec g (pick s (fds w))) as [E|E]; [rewrite E, set_same; auto|]. rewrite set_other by exact E. apply set_other; exact E.
Qed.
Lemma openat_ok s w d p flags : p <> [] -> Z.testbit (Z.land (flags mod 2 ^ 64) 4294901760) 31 = false ->
  openat s w d p flags = match find s d p false with inr e => (w, inr e) | inl f => (World (atime w) (mtime w) (set (fds w) (pick s (fds w)) (Some f)), inl (pick s (fds w))) end.
Proof. intros P B. unfold openat. destruct p; [contradiction|]. rewrite B. reflexivity. Qed.
Lemma sys_futimens_eq s w fd times : fd <> AT_FDCWD -> sys_futimens s w fd times = lib_futimens s w fd times.
Proof. intro F. unfold sys_futimens, sys_utimensat. change (Z.land AT_EMPTY_PATH AT_EMPTY_PATH =? AT_EMPTY_PATH) with true. cbv iota. rewrite (proj2 (Z.eqb_neq _ _) F). reflexivity. Qed.

Lemma same_refl w : same w w.
Proof. split; auto. Qed.
Lemma nofollow_clear flag : Z.land flag AT_SYMLINK_NOFOLLOW = 0 -> Z.testbit (Z.land (Z.land flag AT_SYMLINK_NOFOLLOW mod 2 ^ 64) 4294901760) 31 = false.
Proof. intros ->. reflexivity. Qed.

Lemma utimensat_ok s w d p times flag : p <> [] -> picks s w -> Z.land flag AT_SYMLINK_NOFOLLOW = 0 -> valid_times times ->
  on_file s w (find s d p false) times (utimensat s w d p times flag).
Proof.
  intros P K B V. unfold utimensat. rewrite openat_ok; [|exact P|apply nofollow_clear; exact B]. unfold on_file. destruct (find s d p false) as [f|e].
  - rewrite sys_futimens_eq by (destruct K; unfold AT_FDCWD; lia).
    apply (reopen s w f times _ _ K eq_refl). apply lib_ok; [|exact V]. cbn [fds]. apply set_same.
  - exists w. split; [reflexivity|apply same_refl].
Qed.
Lemma utimensat_bad s w d p a m flag f : p <> [] -> picks s w -> Z.land flag AT_SYMLINK_NOFOLLOW = 0 -> find s d p false = inl f ->
  int (nsec a) -> int (nsec m) -> ~ valid a \/ ~ valid m -> fails w (utimensat s w d p (Some (a, m)) flag) EINVAL.
Proof.
  intros P K B F A M V. unfold utimensat. rewrite openat_ok; [|exact P|apply nofollow_clear; exact B]. rewrite F.
  rewrite sys_futimens_eq by (destruct K; unfold AT_FDCWD; lia). rewrite (lib_bad s _ _ f a m); [|cbn [fds]; apply set_same|assumption|assumption|assumption].
  apply set_idem_fails. exact K.
Qed.
Lemma utimens_eq s w p times : p <> [] -> or_minus_one (sys_utimens s w p times) =
  match find s AT_FDCWD p false with
  | inr e => (w, -1, Some e)
  | inl f => let '(w2, x, e) := or_minus_one (lib_futimens s (World (atime w) (mtime w) (set (fds w) (pick s (fds w)) (Some f))) (pick s (fds w)) times) in (close w2 (pick s (fds w)), x, e)
  end.
Proof.
  intro P. unfold sys_utimens, sys_utimensat. destruct p as [|c p]; [contradiction|]. rewrite openat_ok; [|discriminate|reflexivity].
  destruct (find s AT_FDCWD (c :: p) false) as [f|e]; [|reflexivity]. destruct (lib_futimens s _ _ times) as [w2 [e|]]; reflexivity.
Qed.
Lemma utimens_ok s w p times : p <> [] -> picks s w -> valid_times times -> on_file s w (find s AT_FDCWD p false) times (or_minus_one (sys_utimens s w p times)).
Proof.
  intros P K V. rewrite utimens_eq by exact P. unfold on_file. destruct (find s AT_FDCWD p false) as [f|e].
  - apply (reopen s w f times _ _ K eq_refl). apply lib_ok; [|exact V]. cbn [fds]. apply set_same.
  - exists w. split; [reflexivity|apply same_refl].
Qed.
Lemma utimens_bad s w p a m f : p <> [] -> picks s w -> find s AT_FDCWD p false = inl f -> int (nsec a) -> int (nsec m) -> ~ valid a \/ ~ valid m ->
  fails w (or_minus_one (sys_utimens s w p (Some (a, m)))) EINVAL.
Proof.
  intros P K F A M V. rewrite utimens_eq by exact P. rewrite F. rewrite (lib_bad s _ _ f a m); [|cbn [fds]; apply set_same|assumption|assumption|assumption].
  apply set_idem_fails. exact K.
Qed.
(* no number of microseconds becomes one of the two words *)
Lemma no_word u : as_int (u * 1000) <> UTIME_NOW /\ as_int (u * 1000) <> UTIME_OMIT.
Proof.
  unfold as_int, UTIME_NOW, UTIME_OMIT. change (2 ^ 31) with 2147483648. change (2 ^ 32) with 4294967296.
  pose proof (Z.div_mod (u * 1000 + 2147483648) 4294967296 ltac:(lia)). split; intro E; lia.
Qed.
Lemma apply_given n old x u t : apply n old (from_timespec (T x (u * 1000))) = Some t -> sec t = x /\ 0 <= nsec t <= 999999999.
Proof.
  unfold apply, from_timespec. cbn [nsec sec]. destruct (no_word u) as [N1 N2]. rewrite (proj2 (Z.eqb_neq _ _) N1), (proj2 (Z.eqb_neq _ _) N2).
  destruct (Z.leb_spec 0 (as_int (u * 1000))); [|discriminate]. destruct (Z.ltb_spec (as_int (u * 1000)) 1000000000); [|discriminate]. intro E. injection E as <-. cbn [sec nsec]. lia.
Qed.
