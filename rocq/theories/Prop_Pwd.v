(* C68: the user database. *)
From Coq Require Import String ZArith List Bool Lia.
From Verif Require Import Base Ctype_spec Pwd_model Pwd_spec Pwd_proofs.
Import ListNotations.
Open Scope string_scope.
Open Scope list_scope.
Open Scope Z_scope.

(* The full statement drops [small_ids], allows malformed lines (which are skipped) and,
   for the _r functions, earlier lines that do not fit, and has ERANGE returned when the
   wanted one does not; each of these is refuted below. *)
Theorem C68_getpwnam_partial : forall o x m us file p cap fuel name n,
  premises o x m us file p cap -> (length file < fuel)%nat ->
  cstr m name n -> disjoint name (len n + 1) p cap -> len n < USIZE_MAX ->
  exists m' r ru, getpwnam o x fuel m (Some file) p name = Ok (m', r) /\ same_outside m m' p cap /\
    first_user (fun u => u_name u = n) us ru /\
    match ru, r with Some u, Some pw => describes o m' pw u | None, None => True | _, _ => False end.
Proof. exact getpwnam_ok. Qed.
Print Assumptions C68_getpwnam_partial.
Theorem C68_getpwnam_r_partial : forall o x m us file p cap fuel name n,
  premises o x m us file p cap -> (length file < fuel)%nat ->
  cstr m name n -> disjoint name (len n + 1) p cap -> len n < USIZE_MAX ->
  exists m' r ru, getpwnam_r o x fuel m (Some file) name p cap = Ok (m', (r, 0)) /\ same_outside m m' p cap /\
    first_user (fun u => u_name u = n) us ru /\
    match ru, r with Some u, Some pw => describes o m' pw u | None, None => True | _, _ => False end.
Proof. exact getpwnam_r_ok. Qed.
Print Assumptions C68_getpwnam_r_partial.
Theorem C68_getpwuid_partial : forall o x m us file p cap fuel uid,
  premises o x m us file p cap -> (length file < fuel)%nat ->
  exists m' r ru, getpwuid o x fuel m (Some file) p uid = Ok (m', r) /\ same_outside m m' p cap /\
    first_user (fun u => u_uid u = uid) us ru /\
    match ru, r with Some u, Some pw => describes o m' pw u | None, None => True | _, _ => False end.
Proof. exact getpwuid_ok. Qed.
Print Assumptions C68_getpwuid_partial.
Theorem C68_getpwuid_r_partial : forall o x m us file p cap fuel uid,
  premises o x m us file p cap -> (length file < fuel)%nat ->
  exists m' r ru, getpwuid_r o x fuel m (Some file) uid p cap = Ok (m', (r, 0)) /\ same_outside m m' p cap /\
    first_user (fun u => u_uid u = uid) us ru /\
    match ru, r with Some u, Some pw => describes o m' pw u | None, None => True | _, _ => False end.
Proof. exact getpwuid_r_ok. Qed.
Print Assumptions C68_getpwuid_r_partial.
(* Successive getpwent calls return the users in order, then NULL; after endpwent or
   setpwent they start again. *)
Theorem C68_getpwent_partial : forall o x file p cap us m reader rest n,
  premises o x m us rest p cap -> (match reader with Some r => r = rest | None => file = rest end) ->
  exists l reader', walk o x file p (length us + n) m reader = Ok (l, reader') /\
    Forall2 (fun mr u => exists pw, snd mr = Some pw /\ describes o (fst mr) pw u) (firstn (length us) l) us /\
    Forall (fun mr => snd mr = None) (skipn (length us) l) /\ length l = (length us + n)%nat /\
    Forall (fun mr => same_outside m (fst mr) p cap) l.
Proof. exact getpwent_ok. Qed.
Print Assumptions C68_getpwent_partial.
Theorem C68_setpwent : forall o x file p cap us m reader,
  premises o x m us file p cap ->
  forall reader', reader' = setpwent file reader \/ reader' = endpwent reader ->
  (exists l r, walk o x file p (length us) m reader' = Ok (l, r) /\
     Forall2 (fun mr u => exists pw, snd mr = Some pw /\ describes o (fst mr) pw u) l us).
Proof.
  intros o x file p cap us m reader PR reader' H.
  destruct (getpwent_ok o x file p cap us m reader' file 0 PR) as (l & r & E & F2 & _ & L & _).
  - destruct H as [-> | ->]; [destruct reader|]; reflexivity.
  - exists l, r. rewrite Nat.add_0_r in E. split; [exact E|]. rewrite firstn_all2 in F2 by lia. exact F2.
Qed.
Print Assumptions C68_setpwent.

Definition root : user := {| u_name := codes "root"; u_passwd := codes "x"; u_uid := 0; u_gid := 0; u_gecos := codes "root"; u_dir := codes "/root"; u_shell := codes "/bin/sh" |}.
Definition user_ (n : string) (uid : Z) : user :=
  {| u_name := codes n; u_passwd := codes "x"; u_uid := uid; u_gid := 100; u_gecos := []; u_dir := codes "/"; u_shell := codes "/bin/sh" |}.
Definition us0 : list user := [root; user_ "alice" 1000; user_ "al" 1001].
Definition zero (n : nat) : list Z := repeat 0 n.
Definition mem0 (n : list Z) : mem := mem_union (mem_of 1000 (zero 60)) (mem_union (mem_of 100 (n ++ [0])) (mem_of 50 [120; 0])).
Lemma clean_codes sep f : forallb (fun b => (1 <=? b) && (b <? 256) && negb (b =? 10) && negb (b =? sep)) f = true -> clean sep f.
Proof.
  intros H. apply Forall_forall. intros b I. rewrite forallb_forall in H. specialize (H b I). apply andb_true_iff in H. destruct H as [H H4].
  apply andb_true_iff in H. destruct H as [H H3]. apply andb_true_iff in H. destruct H as [H1 H2]. apply negb_true_iff in H3, H4.
  apply Z.leb_le in H1. apply Z.ltb_lt in H2. apply Z.eqb_neq in H3, H4. unfold is_byte. lia.
Qed.
Ltac users := repeat (apply Forall_cons; [split; [repeat (apply Forall_cons; [apply clean_codes; vm_compute; reflexivity|]); apply Forall_nil|split; split; vm_compute; congruence]|]); apply Forall_nil.
Example C68_premises_example : forall o,
  premises o 50 (mem0 (codes "al")) us0 (text o us0) 1000 60 /\ cstr (mem0 (codes "al")) 100 (codes "al") /\
  first_user (fun u => u_name u = codes "al") us0 (Some (user_ "al" 1001)).
Proof.
  intros o. split; [|split].
  - split; [left; reflexivity|]. split.
    { destruct o; users. }
    split; [repeat constructor; cbn; lia|]. split; [destruct o; repeat constructor; vm_compute; discriminate|].
    split; [|split; [vm_compute; discriminate|]].
    + intros y Hy. unfold mem0, mem_union. exists 0. assert (E : mem_of 1000 (zero 60) y = Some 0); [|rewrite E; reflexivity].
      unfold mem_of. destruct (Z.leb_spec 1000 y); [|lia]. assert (R : forall n k, (k < n)%nat -> nth_error (repeat 0 n) k = Some 0).
      { induction n as [|n IH]; intros [|k] Hk; cbn; try lia; [reflexivity|apply IH; lia]. }
      apply R. lia.
    + intros _. split; [|unfold disjoint; lia]. split; [repeat constructor; lia|]. vm_compute. repeat split.
  - split; [repeat constructor; cbn; lia|]. vm_compute. repeat split.
  - exists [root; user_ "alice" 1000], []. split; [reflexivity|]. split; [reflexivity|]. repeat constructor; discriminate.
Qed.
Definition named (file n : string) : res (mem * option passwd) := getpwnam Linux 50 200 (mem0 (codes n)) (Some (codes file)) 1000 100.
Definition uid_of (r : res (mem * option passwd)) : res (option (Z * Z)) :=
  match r with Ok (_, Some pw) => Ok (Some (pw_uid pw, pw_gid pw)) | Ok (_, None) => Ok None | Fault => Fault | Panic => Panic | OutOfFuel => OutOfFuel end.
Definition nl : string := String (Ascii.ascii_of_nat 10) EmptyString.
Example C68_getpwnam_example :
  uid_of (getpwnam Linux 50 200 (mem0 (codes "al")) (Some (text Linux us0)) 1000 100) = Ok (Some (1001, 100)) /\
  uid_of (getpwnam Redox 50 200 (mem0 (codes "alice")) (Some (text Redox us0)) 1000 100) = Ok (Some (1000, 100)) /\
  uid_of (getpwnam Linux 50 200 (mem0 (codes "bob")) (Some (text Linux us0)) 1000 100) = Ok None /\
  uid_of (getpwuid Linux 50 200 (mem0 []) (Some (text Linux us0)) 1000 1000) = Ok (Some (1000, 100)).
Proof. repeat split; vm_compute; reflexivity. Qed.

(* A user id of 2^31 or more makes the line malformed. *)
Theorem C68_large_id_refuted :
  exists u, valid Linux u /\ fits Linux 60 u /\
    uid_of (getpwnam Linux 50 200 (mem0 (u_name u)) (Some (text Linux [u])) 1000 100) = Ok None.
Proof.
  exists (user_ "nobody" 4294967294). split; [|split; [vm_compute; discriminate|vm_compute; reflexivity]].
  assert (V : Forall (valid Linux) [user_ "nobody" 4294967294]) by users. exact (Forall_inv V).
Qed.
Print Assumptions C68_large_id_refuted.

(* A malformed line hides every user behind it; here an empty one. *)
Theorem C68_malformed_refuted :
  uid_of (named ("al:x:7:8::/:/bin/sh" ++ nl) "al") = Ok (Some (7, 8)) /\
  uid_of (named (nl ++ "al:x:7:8::/:/bin/sh" ++ nl) "al") = Ok None /\
  uid_of (named ("# users" ++ nl ++ "al:x:7:8::/:/bin/sh" ++ nl) "al") = Ok None.
Proof. repeat split; vm_compute; reflexivity. Qed.
Print Assumptions C68_malformed_refuted.

(* A buffer that is too small gives -1 and not ERANGE, and it is the longest line before
   the wanted one that counts. *)
Theorem C68_range_refuted :
  exists us u, Forall (valid Linux) us /\ Forall small_ids us /\ In u us /\ fits Linux 27 u /\
    (exists m', getpwnam_r Linux 50 200 (mem0 (u_name u)) (Some (text Linux us)) 100 1000 27 = Ok (m', (None, -1))).
Proof.
  exists us0, (user_ "al" 1001). split; [|split; [|split; [|split]]].
  - users.
  - repeat constructor; cbn; lia.
  - right. right. left. reflexivity.
  - vm_compute. discriminate.
  - eexists. vm_compute. reflexivity.
Qed.
Print Assumptions C68_range_refuted.

(* A line with too few fields is completed from what the buffer holds: a user without a
   group is in the group of the user before. *)
Theorem C68_stale_refuted :
  exists m' pw, getpwnam_r Linux 50 200 (mem0 (codes "bob")) (Some (codes ("root:x:0:0:root:/root:/bin/sh" ++ nl ++ "bob:x:12" ++ nl))) 100 1000 60 = Ok (m', (Some pw, 0)) /\
    pw_uid pw = 12 /\ pw_gid pw = 0 /\ cstr m' (pw_dir pw) (codes "/root").
Proof.
  eexists _, _. split; [vm_compute; reflexivity|]. split; [reflexivity|]. split; [reflexivity|]. split; [repeat constructor; cbn; lia|]. vm_compute. repeat split.
Qed.
Print Assumptions C68_stale_refuted.

(* A line with one field too few gives a shell that starts behind the end of its box. *)
Theorem C68_short_line_refuted :
  exists m' pw, named ("al:x:7:8:gecos:/" ++ nl) "al" = Ok (m', Some pw) /\
    pw_shell pw = 1000 + len (codes ("al:x:7:8:gecos:/" ++ nl)).
Proof. eexists _, _. split; [vm_compute; reflexivity|]. vm_compute. reflexivity. Qed.
Print Assumptions C68_short_line_refuted.
