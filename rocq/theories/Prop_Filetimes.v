(* C154: file times and the time of day. *)
From Verif Require Import Base Filetimes_model Filetimes_spec Filetimes_proofs.
Open Scope Z_scope.

(* the file 5 is at "f"; "l" is a link, 6, to it; descriptor 3 is the file 5 *)
Definition sys0 : system := System (fun d p nofollow => match p with [102] => inl 5 | [108] => if nofollow then inl 6 else inl 5 | [46] => inl 7 | [103] => inl 8 | _ => inr 2 end)
  (fun f => if f =? 8 then Some 1 else None) (T 1000 7) (fun _ => 4).
Definition w0 : world := World (fun f => T f 1) (fun f => T f 2) (fun fd => if fd =? 3 then Some 5 else None).

Theorem C154_utimensat_partial : forall s w d p times flag, p <> [] -> picks s w -> Z.land flag AT_SYMLINK_NOFOLLOW = 0 -> valid_times times ->
  on_file s w (find s d p false) times (utimensat s w d p times flag).
Proof. exact utimensat_ok. Qed.
Print Assumptions C154_utimensat_partial.
Example C154_utimensat_case : exists w', utimensat sys0 w0 3 [108] (Some (T 0 UTIME_OMIT, T 77 999999999)) 0 = (w', 0, None) /\ atime w' 5 = T 5 1 /\ mtime w' 5 = T 77 999999999.
Proof.
  pose proof (C154_utimensat_partial sys0 w0 3 [108] (Some (T 0 UTIME_OMIT, T 77 999999999)) 0 ltac:(discriminate) ltac:(split; [cbn; lia|reflexivity]) eq_refl
    ltac:(split; [right; left; reflexivity|right; right; cbn [nsec]; lia])) as H.
  cbn [find sys0 on_file outcome refuses Z.eqb Pos.eqb] in H. destruct H as (w' & E & (A & M) & _). exists w'. split; [exact E|]. split; [exact A|exact M].
Qed.
Theorem C154_invalid_partial : forall s w d p a m flag f, p <> [] -> picks s w -> Z.land flag AT_SYMLINK_NOFOLLOW = 0 -> find s d p false = inl f ->
  int (nsec a) -> int (nsec m) -> ~ valid a \/ ~ valid m -> fails w (utimensat s w d p (Some (a, m)) flag) EINVAL.
Proof. exact utimensat_bad. Qed.
Print Assumptions C154_invalid_partial.
Example C154_invalid_case : fails w0 (utimensat sys0 w0 3 [108] (Some (T 0 0, T 0 1000000000)) 0) EINVAL.
Proof.
  apply (C154_invalid_partial sys0 w0 3 [108] _ _ 0 5); [discriminate|split; [cbn; lia|reflexivity]|reflexivity|reflexivity| | |right]; unfold int, valid, UTIME_NOW, UTIME_OMIT; cbn [nsec]; lia.
Qed.
(* AT_SYMLINK_NOFOLLOW is given to openat, where it means nothing: the times of the file linked to are changed, those of the link are not *)
Theorem C154_link_refuted : exists s w d p t w', picks s w /\ find s d p true = inl 6 /\ valid t /\ utimensat s w d p (Some (t, t)) AT_SYMLINK_NOFOLLOW = (w', 0, None) /\
  atime w' 6 <> t /\ atime w 5 <> t /\ atime w' 5 = t.
Proof.
  exists sys0, w0, 3, [108], (T 9 9). eexists. split; [split; [cbn; lia|reflexivity]|]. split; [reflexivity|]. split; [right; right; cbn [nsec]; lia|]. split; [vm_compute; reflexivity|].
  vm_compute. repeat split; discriminate.
Qed.
Print Assumptions C154_link_refuted.
(* tv_nsec is cut to 32 bits: 2^32 + 5 nanoseconds are taken for 5 *)
Theorem C154_wide_refuted : exists s w fd t w', nsec t > 999999999 /\ nsec t <> UTIME_NOW /\ nsec t <> UTIME_OMIT /\ futimens s w fd (Some (t, t)) = (w', 0, None) /\ atime w' 5 = T 9 5.
Proof. exists sys0, w0, 3, (T 9 4294967301). eexists. split; [cbn; lia|]. split; [discriminate|]. split; [discriminate|]. split; vm_compute; reflexivity. Qed.
Print Assumptions C154_wide_refuted.

Theorem C154_futimens_partial : forall s w fd times, fd <> AT_FDCWD -> valid_times times ->
  on_file s w (match fds w fd with Some f => inl f | None => inr EBADF end) times (futimens s w fd times).
Proof.
  intros s w fd times F V. unfold futimens. rewrite sys_futimens_eq by exact F. destruct (fds w fd) as [f|] eqn:E.
  - apply lib_ok; assumption.
  - unfold lib_futimens. rewrite E. destruct times as [[a m]|]; (exists w; split; [reflexivity|apply same_refl]).
Qed.
Print Assumptions C154_futimens_partial.
Example C154_futimens_case : exists w', futimens sys0 w0 3 None = (w', 0, None) /\ atime w' 5 = T 1000 7 /\ atime w' 6 = T 6 1.
Proof.
  pose proof (C154_futimens_partial sys0 w0 3 None ltac:(discriminate) I) as H. cbn [fds w0 Z.eqb Pos.eqb on_file outcome sys0 refuses] in H. destruct H as (w' & E & (A & _) & O & _).
  exists w'. split; [exact E|]. split; [exact A|]. exact (proj1 (O 6 ltac:(lia))).
Qed.
Theorem C154_futimens_invalid_partial : forall s w fd f a m, fd <> AT_FDCWD -> fds w fd = Some f -> int (nsec a) -> int (nsec m) -> ~ valid a \/ ~ valid m ->
  futimens s w fd (Some (a, m)) = (w, -1, Some EINVAL).
Proof. intros s w fd f a m F E A M V. unfold futimens. rewrite sys_futimens_eq by exact F. rewrite (lib_bad s w fd f a m) by assumption. reflexivity. Qed.
Print Assumptions C154_futimens_invalid_partial.
Example C154_futimens_invalid_case : futimens sys0 w0 3 (Some (T 0 (-1), T 0 0)) = (w0, -1, Some EINVAL).
Proof. apply (C154_futimens_invalid_partial sys0 w0 3 5); [discriminate|reflexivity| | |left]; unfold int, valid, UTIME_NOW, UTIME_OMIT; cbn [nsec]; lia. Qed.
(* the descriptor AT_FDCWD, which is not open, is the current directory *)
Theorem C154_descriptor_refuted : exists s w w', picks s w /\ fds w AT_FDCWD = None /\ futimens s w AT_FDCWD None = (w', 0, None) /\ atime w 7 <> now s /\ atime w' 7 = now s.
Proof. exists sys0, w0. eexists. split; [split; [cbn; lia|reflexivity]|]. split; [reflexivity|]. split; [vm_compute; reflexivity|]. split; [discriminate|vm_compute; reflexivity]. Qed.
Print Assumptions C154_descriptor_refuted.

Definition micros (t : Z * Z) : stamp := T (fst t) (snd t * 1000).
Theorem C154_utimes_partial : forall s w p times, p <> [] -> picks s w -> match times with None => True | Some (a, m) => 0 <= snd a <= 999999 /\ 0 <= snd m <= 999999 end ->
  on_file s w (find s AT_FDCWD p false) (match times with None => None | Some (a, m) => Some (micros a, micros m) end) (utimes s w p times).
Proof.
  intros s w p times P K V. unfold utimes. destruct times as [[[a au] [m mu]]|].
  - apply utimens_ok; [assumption|assumption|]. cbn [snd] in V. split; right; right; cbn [nsec]; lia.
  - apply utimens_ok; [assumption|assumption|exact I].
Qed.
Print Assumptions C154_utimes_partial.
Example C154_utimes_case : exists w', utimes sys0 w0 [102] (Some ((1, 999999), (2, 0))) = (w', 0, None) /\ atime w' 5 = T 1 999999000 /\ mtime w' 5 = T 2 0 /\ fails w0 (utimes sys0 w0 [103] None) 1.
Proof.
  pose proof (C154_utimes_partial sys0 w0 [102] (Some ((1, 999999), (2, 0))) ltac:(discriminate) ltac:(split; [cbn; lia|reflexivity]) ltac:(cbn [snd]; lia)) as H.
  cbn [find sys0 on_file outcome refuses Z.eqb Pos.eqb] in H. destruct H as (w' & E & (A & M) & _). exists w'. split; [exact E|]. split; [exact A|]. split; [exact M|].
  exact (C154_utimes_partial sys0 w0 [103] None ltac:(discriminate) ltac:(split; [cbn; lia|reflexivity]) I).
Qed.
(* wrong numbers of microseconds, if not very wrong, are EINVAL; whatever they are, the seconds are not replaced by the current time or left *)
Theorem C154_microseconds_partial : forall s w p f a au m mu, p <> [] -> picks s w -> find s AT_FDCWD p false = inl f -> int au -> int mu ->
  (-2147483 <= au <= 2147483 -> -2147483 <= mu <= 2147483 -> ~ (0 <= au <= 999999 /\ 0 <= mu <= 999999) -> fails w (utimes s w p (Some ((a, au), (m, mu)))) EINVAL) /\
  forall w' e, utimes s w p (Some ((a, au), (m, mu))) = (w', 0, e) -> sec (atime w' f) = a /\ sec (mtime w' f) = m.
Proof.
  intros s w p f a au m mu P K F IA IM. split.
  - intros A M V. apply (utimens_bad s w p _ _ f); try assumption; unfold int, valid, UTIME_NOW, UTIME_OMIT; cbn [nsec]; lia.
  - intros w' e E. unfold utimes in E. rewrite utimens_eq, F in E by exact P. unfold lib_futimens in E. cbn [fds] in E. rewrite set_same in E. unfold change in E.
    destruct (apply (now s) _ (from_timespec (T a (au * 1000)))) as [x|] eqn:X; [|discriminate E].
    destruct (apply (now s) _ (from_timespec (T m (mu * 1000)))) as [y|] eqn:Y; [|discriminate E]. destruct (refuses s f); [discriminate E|].
    cbn [or_minus_one atime mtime] in E. injection E as <- _. cbn [close atime mtime]. rewrite !set_same. split; [exact (proj1 (apply_given _ _ _ _ _ X))|exact (proj1 (apply_given _ _ _ _ _ Y))].
Qed.
Print Assumptions C154_microseconds_partial.
Example C154_microseconds_case : fails w0 (utimes sys0 w0 [102] (Some ((1, 1000000), (2, 0)))) EINVAL.
Proof. apply (C154_microseconds_partial sys0 w0 [102] 5); unfold int; try (discriminate || reflexivity || lia). split; [cbn; lia|reflexivity]. Qed.
(* 4294968 microseconds are taken for 704 nanoseconds *)
Theorem C154_microseconds_refuted : exists s w p u w', int u /\ u > 999999 /\ utimes s w p (Some ((1, u), (1, u))) = (w', 0, None) /\ atime w' 5 = T 1 704.
Proof. exists sys0, w0, [102], 4294968. eexists. split; [unfold int; lia|]. split; [lia|]. split; vm_compute; reflexivity. Qed.
Print Assumptions C154_microseconds_refuted.

Theorem C154_utime_partial : forall s w p a m, p <> [] -> picks s w -> exists r, utime s w p (Some (a, m)) = Ok r /\ on_file s w (find s AT_FDCWD p false) (Some (T a 0, T m 0)) r.
Proof. intros s w p a m P K. eexists. split; [reflexivity|]. apply utimens_ok; [assumption|assumption|]. split; right; right; cbn [nsec]; lia. Qed.
Print Assumptions C154_utime_partial.
Example C154_utime_case : exists w', utime sys0 w0 [102] (Some (-1, 3)) = Ok (w', 0, None) /\ atime w' 5 = T (-1) 0 /\ mtime w' 5 = T 3 0.
Proof.
  destruct (C154_utime_partial sys0 w0 [102] (-1) 3 ltac:(discriminate) ltac:(split; [cbn; lia|reflexivity])) as (r & E & H).
  cbn [find sys0 on_file outcome refuses Z.eqb Pos.eqb] in H. destruct H as (w' & -> & (A & M) & _). exists w'. split; [exact E|]. split; [exact A|exact M].
Qed.
(* with no times given utime should set the current time *)
Theorem C154_utime_refuted : forall s w p, utime s w p None = Fault.
Proof. reflexivity. Qed.
Print Assumptions C154_utime_refuted.
(* no file has the empty name *)
Theorem C154_empty : forall s w d times tv a m flag, utimensat s w d [] times flag = (w, -1, Some ENOENT) /\ utimes s w [] tv = (w, -1, Some ENOENT) /\ utime s w [] (Some (a, m)) = Ok (w, -1, Some ENOENT).
Proof. repeat split. Qed.
Print Assumptions C154_empty.
Example C154_empty_case : utimes sys0 w0 [] None = (w0, -1, Some 2).
Proof. exact (proj1 (proj2 (C154_empty sys0 w0 3 None None 1 2 0))). Qed.

(* the time of day *)
Theorem C154_clock : forall s, 0 <= nsec (now s) <= 999999999 ->
  (exists us, gettimeofday s = ((sec (now s), us), (0, 0)) /\ 0 <= us <= 999999 /\ us * 1000 <= nsec (now s) < us * 1000 + 1000) /\
  exists ms, ftime s = (sec (now s), ms, 0, 0) /\ 0 <= ms <= 999 /\ ms * 1000000 <= nsec (now s) < ms * 1000000 + 1000000.
Proof.
  intros s N. unfold ftime, gettimeofday. rewrite Z.quot_div_nonneg by lia.
  assert (U : 0 <= nsec (now s) / 1000 <= 999999) by (split; [apply Z.div_pos; lia|apply Z.lt_succ_r; apply Z.div_lt_upper_bound; lia]).
  rewrite as_int_id by (unfold int; lia). split.
  - eexists. split; [reflexivity|]. split; [exact U|]. pose proof (Z.div_mod (nsec (now s)) 1000 ltac:(lia)). pose proof (Z.mod_pos_bound (nsec (now s)) 1000 ltac:(lia)). lia.
  - rewrite Z.quot_div_nonneg by lia. set (u := nsec (now s) / 1000) in *.
    assert (M : 0 <= u / 1000 <= 999) by (split; [apply Z.div_pos; lia|apply Z.lt_succ_r; apply Z.div_lt_upper_bound; lia]).
    rewrite Z.mod_small by lia. eexists. split; [reflexivity|]. split; [exact M|].
    pose proof (Z.div_mod (nsec (now s)) 1000 ltac:(lia)). pose proof (Z.mod_pos_bound (nsec (now s)) 1000 ltac:(lia)). fold u in H.
    pose proof (Z.div_mod u 1000 ltac:(lia)). pose proof (Z.mod_pos_bound u 1000 ltac:(lia)). lia.
Qed.
Print Assumptions C154_clock.
Example C154_clock_case : ftime (System (find sys0) (refuses sys0) (T 5 999999999) (pick sys0)) = (5, 999, 0, 0).
Proof. destruct (C154_clock (System (find sys0) (refuses sys0) (T 5 999999999) (pick sys0)) ltac:(cbn [now nsec]; lia)) as (_ & ms & E & B & C). cbn [now nsec sec] in E, C. rewrite E. repeat f_equal. lia. Qed.
