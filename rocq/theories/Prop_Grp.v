(* C69: the group database. *)
From Coq Require Import String ZArith List Bool Lia.
From Verif Require Import Base Word_mem Ctype_spec Pwd_model Pwd_spec Grp_model Grp_spec Grp_proofs.
Import ListNotations.
Open Scope string_scope.
Open Scope list_scope.
Open Scope Z_scope.

(* The full statement drops [modest] and [no_prefixes], allows malformed lines (which are
   skipped) and, for the _r functions, earlier lines that do not fit, and has *result NULL
   and 0 returned when there is no such group; each is refuted below. *)
Theorem C69_getgrgid_partial : forall o utf8 m gs file p cap fuel gid,
  gpremises o utf8 m gs file p cap -> (length file < fuel)%nat ->
  exists m' r rg, getgrgid o utf8 fuel m (Some file) p gid = Ok (m', r) /\ same_outside m m' p cap /\
    first_group (fun g => g_gid g = gid) gs rg /\
    match rg, r with Some g, Some s => shows m' s g | None, None => True | _, _ => False end.
Proof. exact getgrgid_ok. Qed.
Print Assumptions C69_getgrgid_partial.
Theorem C69_getgrgid_r_partial : forall o utf8 m gs file p cap fuel gid,
  gpremises o utf8 m gs file p cap -> (length file < fuel)%nat ->
  exists m' r rg, getgrgid_r o utf8 fuel m (Some file) gid p cap = Ok (m', (r, 0)) /\ same_outside m m' p cap /\
    first_group (fun g => g_gid g = gid) gs rg /\
    match rg, r with Some g, Some s => shows m' s g | None, None => True | _, _ => False end.
Proof. exact getgrgid_r_ok. Qed.
Print Assumptions C69_getgrgid_r_partial.
Theorem C69_getgrnam_partial : forall o utf8 m gs file p cap fuel name n,
  gpremises o utf8 m gs file p cap -> (length file < fuel)%nat ->
  cstr m name n -> name <> NULL -> disjoint name (len n + 1) p cap -> (length n < fuel)%nat -> no_prefixes n gs ->
  exists m' r rg, getgrnam o utf8 fuel m (Some file) p name = Ok (m', r) /\ same_outside m m' p cap /\
    first_group (fun g => g_name g = n) gs rg /\
    match rg, r with Some g, Some s => shows m' s g | None, None => True | _, _ => False end.
Proof. exact getgrnam_ok. Qed.
Print Assumptions C69_getgrnam_partial.
Theorem C69_getgrnam_r_partial : forall o utf8 m gs file p cap fuel name n old,
  gpremises o utf8 m gs file p cap -> (length file < fuel)%nat ->
  cstr m name n -> name <> NULL -> disjoint name (len n + 1) p cap -> (length n < fuel)%nat -> no_prefixes n gs ->
  In n (map g_name gs) ->
  exists m' s g, getgrnam_r o utf8 fuel m (Some file) name p cap old = Ok (m', (Some s, 0)) /\ same_outside m m' p cap /\
    first_group (fun g => g_name g = n) gs (Some g) /\ shows m' s g.
Proof. exact getgrnam_r_ok. Qed.
Print Assumptions C69_getgrnam_r_partial.
(* Successive getgrent calls return the groups in order, then NULL. *)
Theorem C69_getgrent_partial : forall o utf8 file p cap gs m reader rest n,
  gpremises o utf8 m gs rest p cap -> (match reader with Some r => r = rest | None => file = rest end) ->
  exists l reader', gwalk o utf8 file p (length gs + n) m reader = Ok (l, reader') /\
    Forall2 (fun mr g => exists s, snd mr = Some s /\ shows (fst mr) s g) (firstn (length gs) l) gs /\
    Forall (fun mr => snd mr = None) (skipn (length gs) l) /\ length l = (length gs + n)%nat /\
    Forall (fun mr => same_outside m (fst mr) p cap) l.
Proof. exact getgrent_ok. Qed.
Print Assumptions C69_getgrent_partial.
(* setgrent and endgrent start again. *)
Theorem C69_setgrent : forall o utf8 file p cap gs m reader,
  gpremises o utf8 m gs file p cap ->
  forall reader', reader' = setgrent (Some file) reader \/ reader' = endgrent reader ->
  (exists l r, gwalk o utf8 file p (length gs) m reader' = Ok (l, r) /\
     Forall2 (fun mr g => exists s, snd mr = Some s /\ shows (fst mr) s g) l gs).
Proof.
  intros o utf8 file p cap gs m reader PR reader' H.
  destruct (getgrent_ok o utf8 file p cap gs m reader' file 0 PR) as (l & r & E & F2 & _ & L & _).
  - destruct H as [-> | ->]; reflexivity.
  - exists l, r. rewrite Nat.add_0_r in E. split; [exact E|]. rewrite firstn_all2 in F2 by lia. exact F2.
Qed.
Print Assumptions C69_setgrent.
(* The groups that list the user; the full statement has [groups_of] in place of its tail
   and drops [plain]'s restriction to databases without white space. *)
Theorem C69_getgrouplist_partial : forall o utf8 user gs file fuel group n, user <> [] -> utf8 user = true ->
  gdatabase o gs file -> Forall (valid_group o) gs -> Forall modest gs -> Forall plain gs ->
  Forall (fun g => utf8 (gline o g) = true /\ (forall l, l ++ [10] = gline o g -> utf8 l = true)) gs ->
  (length file < fuel)%nat -> 0 <= n ->
  let others := tl (groups_of gs user group) in
  getgrouplist o utf8 fuel (Some file) user group n =
    Ok (if n <? len others then -1 else len others, len others, firstn (Z.to_nat n) others).
Proof. exact getgrouplist_ok. Qed.
Print Assumptions C69_getgrouplist_partial.

Definition grp_ (n : string) (gid : Z) (ms : list string) : grp :=
  {| g_name := codes n; g_passwd := codes "x"; g_gid := gid; g_members := map codes ms |}.
Definition gs0 : list grp := [grp_ "root" 0 []; grp_ "wheel" 10 ["alice"; "al"]; grp_ "users" 100 ["al"]].
Definition zero (n : nat) : list Z := repeat 0 n.
Definition mem0 (n : list Z) : mem := mem_union (mem_of 1000 (zero 60)) (mem_of 100 (n ++ [0])).
Definition any (l : list Z) : bool := true.
Lemma clean_codes sep f : forallb (fun b => (1 <=? b) && (b <? 256) && negb (b =? 10) && negb (b =? sep)) f = true -> clean sep f.
Proof.
  intros H. apply Forall_forall. intros b I. rewrite forallb_forall in H. specialize (H b I). apply andb_true_iff in H. destruct H as [H H4].
  apply andb_true_iff in H. destruct H as [H H3]. apply andb_true_iff in H. destruct H as [H1 H2]. apply negb_true_iff in H3, H4.
  apply Z.leb_le in H1. apply Z.ltb_lt in H2. apply Z.eqb_neq in H3, H4. unfold is_byte. lia.
Qed.
Lemma without b f : forallb (fun c => negb (c =? b)) f = true -> ~ In b f.
Proof. intros H I. rewrite forallb_forall in H. specialize (H b I). rewrite Z.eqb_refl in H. discriminate. Qed.
Ltac members := repeat (apply Forall_cons; [split; [apply clean_codes; vm_compute; reflexivity|split; [discriminate|split; apply without; vm_compute; reflexivity]]|]); apply Forall_nil.
Ltac groups := repeat (apply Forall_cons; [split; [apply clean_codes; vm_compute; reflexivity|split; [apply clean_codes; vm_compute; reflexivity|split; [split; vm_compute; congruence|members]]]|]); apply Forall_nil.
Example C69_premises_example : forall o,
  gpremises o any (mem0 (codes "users")) gs0 (gtext o gs0) 1000 60 /\ cstr (mem0 (codes "users")) 100 (codes "users") /\
  no_prefixes (codes "users") gs0 /\ first_group (fun g => g_name g = codes "users") gs0 (Some (grp_ "users" 100 ["al"])) /\
  groups_of gs0 (codes "al") 7 = [7; 10; 100] /\ Forall plain gs0.
Proof.
  intros o. split; [|split; [|split; [|split; [|split]]]].
  - split; [left; reflexivity|]. split.
    { destruct o; groups. }
    split; [repeat (apply Forall_cons; [split; [vm_compute; reflexivity|apply Nat2Z.inj_le; rewrite Z2Nat.id by lia; vm_compute; discriminate]|]); apply Forall_nil|]. split; [repeat constructor; vm_compute; discriminate|].
    split; [|split; [lia|split; [vm_compute; discriminate|repeat constructor]]].
    intros y Hy. unfold mem0, mem_union. exists 0. assert (E : mem_of 1000 (zero 60) y = Some 0); [|rewrite E; reflexivity].
    unfold mem_of. destruct (Z.leb_spec 1000 y); [|lia]. assert (R : forall n k, (k < n)%nat -> nth_error (repeat 0 n) k = Some 0).
    { induction n as [|n IH]; intros [|k] Hk; cbn; try lia; [reflexivity|apply IH; lia]. }
    apply R. lia.
  - split; [repeat constructor; lia|]. vm_compute. repeat split.
  - repeat constructor; cbn; intros [[t E]|[t E]]; (discriminate || reflexivity).
  - exists [grp_ "root" 0 []; grp_ "wheel" 10 ["alice"; "al"]], []. split; [reflexivity|]. split; [reflexivity|]. repeat constructor; discriminate.
  - vm_compute. reflexivity.
  - repeat constructor; cbn; lia.
Qed.
Definition gid_of (r : res (mem * option group)) : res (option Z) :=
  match r with Ok (_, Some g) => Ok (Some (gr_gid g)) | Ok (_, None) => Ok None | Fault => Fault | Panic => Panic | OutOfFuel => OutOfFuel end.
Definition named (file n : list Z) : res (option Z) := gid_of (getgrnam Linux any 200 (mem0 n) (Some file) 1000 100).
Definition named_r (file n : list Z) (size : Z) (old : option group) : res (option Z * Z) :=
  match getgrnam_r Linux any 200 (mem0 n) (Some file) 100 1000 size old with
  | Ok (_, (Some g, e)) => Ok (Some (gr_gid g), e) | Ok (_, (None, e)) => Ok (None, e) | Fault => Fault | Panic => Panic | OutOfFuel => OutOfFuel end.
Definition nl : string := String (Ascii.ascii_of_nat 10) EmptyString.
Example C69_getgrnam_example :
  named (gtext Linux gs0) (codes "wheel") = Ok (Some 10) /\ named (gtext Linux gs0) (codes "users") = Ok (Some 100) /\
  named (gtext Linux gs0) (codes "bin") = Ok None /\
  gid_of (getgrgid Redox any 200 (mem0 []) (Some (gtext Redox gs0)) 1000 100) = Ok (Some 100) /\
  getgrouplist Linux any 200 (Some (gtext Linux gs0)) (codes "al") 7 5 = Ok (2, 2, [10; 100]) /\
  getgrouplist Linux any 200 (Some (gtext Linux gs0)) (codes "al") 7 1 = Ok (-1, 2, [10]).
Proof. repeat split; vm_compute; reflexivity. Qed.

(* A prefix of a group's name finds the group, and so does a name it is a prefix of; the
   empty name finds the first group. *)
Theorem C69_prefix_refuted :
  named (gtext Linux gs0) (codes "ro") = Ok (Some 0) /\ named (gtext Linux gs0) (codes "rootless") = Ok (Some 0) /\
  named (gtext Linux gs0) [] = Ok (Some 0) /\
  named (gtext Linux [grp_ "user" 50 []; grp_ "users" 100 []]) (codes "users") = Ok (Some 50) /\
  ~ In (codes "ro") (map g_name gs0) /\ ~ In (codes "rootless") (map g_name gs0) /\ ~ In [] (map g_name gs0).
Proof. repeat split; try (vm_compute; reflexivity); cbn; intros H; repeat (destruct H as [H|H]; [discriminate|]); exact H. Qed.
Print Assumptions C69_prefix_refuted.

(* When there is no such group getgrnam_r returns ENOENT and leaves the old value of
   *result, while getgrgid_r stores NULL and returns 0. *)
Theorem C69_missing_refuted :
  exists old, named_r (gtext Linux gs0) (codes "bin") 60 (Some old) = Ok (Some (gr_gid old), 2) /\
    (exists m', getgrgid_r Linux any 200 (mem0 []) (Some (gtext Linux gs0)) 77 1000 60 = Ok (m', (None, 0))).
Proof. exists (Build_group 1 2 3 4). split; [vm_compute; reflexivity|]. eexists. vm_compute. reflexivity. Qed.
Print Assumptions C69_missing_refuted.

(* A buffer that is too small: getgrnam_r returns EINVAL and not ERANGE; and it is the
   longest line before the wanted one that counts. *)
Theorem C69_range_refuted :
  room (grp_ "users" 100 ["al"]) = 31 /\
  named_r (gtext Linux [grp_ "users" 100 ["al"]]) (codes "users") 30 None = Ok (None, 22) /\
  named_r (gtext Linux gs0) (codes "users") 31 None = Ok (None, 22) /\
  (exists m', getgrgid_r Linux any 200 (mem0 []) (Some (gtext Linux gs0)) 100 1000 31 = Ok (m', (None, 34))).
Proof. repeat split; try (vm_compute; reflexivity). eexists. vm_compute. reflexivity. Qed.
Print Assumptions C69_range_refuted.

(* A group id of 2^31 or more makes the line malformed, and a malformed line hides every
   group behind it. *)
Theorem C69_large_id_refuted :
  exists g, valid_group Linux g /\ room g <= 60 /\ named (gtext Linux [g]) (g_name g) = Ok None /\
            named (gtext Linux [g; grp_ "users" 100 []]) (codes "users") = Ok None.
Proof.
  exists (grp_ "nogroup" 4294967294 []). split; [|split; [vm_compute; discriminate|split; vm_compute; reflexivity]].
  assert (V : Forall (valid_group Linux) [grp_ "nogroup" 4294967294 []]) by groups. exact (Forall_inv V).
Qed.
Print Assumptions C69_large_id_refuted.
Theorem C69_malformed_refuted :
  named (codes ("users:x:100:" ++ nl)) (codes "users") = Ok (Some 100) /\
  named (codes (nl ++ "users:x:100:" ++ nl)) (codes "users") = Ok None /\
  named (codes ("# groups" ++ nl ++ "users:x:100:" ++ nl)) (codes "users") = Ok None.
Proof. repeat split; vm_compute; reflexivity. Qed.
Print Assumptions C69_malformed_refuted.

(* getgrouplist leaves out the group it is given, and panics on a line without a number. *)
Theorem C69_getgrouplist_refuted :
  groups_of gs0 (codes "alice") 1000 = [1000; 10] /\
  getgrouplist Linux any 200 (Some (gtext Linux gs0)) (codes "alice") 1000 5 = Ok (1, 1, [10]) /\
  getgrouplist Linux any 200 (Some (codes ("wheel:x:ten:al" ++ nl))) (codes "al") 7 5 = Panic /\
  getgrouplist Linux any 200 (Some (gtext Linux [grp_ "nogroup" 4294967294 []])) (codes "al") 7 5 = Panic.
Proof. repeat split; vm_compute; reflexivity. Qed.
Print Assumptions C69_getgrouplist_refuted.
