(* C70: the shadow password file. *)
From Coq Require Import String ZArith List Bool Lia.
From Verif Require Import Base Ctype_spec Pwd_model Pwd_spec Grp_spec Shadow_model Shadow_spec Shadow_proofs.
Import ListNotations.
Open Scope string_scope.
Open Scope list_scope.
Open Scope Z_scope.

(* The full statement drops [distinct_names] and, for getspnam_r, has 0 returned when
   there is no entry; both are refuted below.  Lines that are no entries are allowed. *)
Theorem C70_getspnam_partial : forall o utf8 m ls file p cap fuel n,
  file_of ls file -> Forall (a_line utf8) ls -> utf8 n = true -> distinct_names o n ls ->
  sfits o n ls cap -> mapped m p cap -> (length file < fuel)%nat ->
  exists m' r rs, getspnam o utf8 fuel m (Some file) n p = Ok (m', r) /\ same_outside m m' p cap /\ lookup o n ls rs /\
    match rs, r with Some s, Some q => tells m' q s | None, None => True | _, _ => False end.
Proof. exact getspnam_ok. Qed.
Print Assumptions C70_getspnam_partial.
(* The entry, or ERANGE and nothing written when the buffer is too small. *)
Theorem C70_getspnam_r_partial : forall o utf8 m ls file p cap fuel n,
  file_of ls file -> Forall (a_line utf8) ls -> utf8 n = true -> distinct_names o n ls -> mapped m p cap -> (length file < fuel)%nat ->
  (exists s, In (sline (separator o) s) ls /\ s_name s = n /\ valid_secret o s) ->
  exists m' r s, getspnam_r o utf8 fuel m (Some file) n p cap = Ok (m', r) /\ lookup o n ls (Some s) /\
    (need s <= cap -> same_outside m m' p cap /\ exists q, r = (Some q, 0) /\ tells m' q s) /\
    (cap < need s -> r = (None, 34) /\ m' = m).
Proof. exact getspnam_r_ok. Qed.
Print Assumptions C70_getspnam_r_partial.
(* Successive getspent calls return the entries in order, then NULL. *)
Theorem C70_getspent : forall o utf8 file p cap ss m reader rest n,
  file_of (map (sline (separator o)) ss) rest -> Forall (fun s => valid_secret o s /\ a_line utf8 (sline (separator o) s) /\ need s <= cap) ss ->
  mapped m p cap -> (match reader with Some r => r = rest | None => file = rest end) ->
  exists l reader', swalk o utf8 file p (length ss + n) m reader = Ok (l, reader') /\
    Forall2 (fun mr s => exists q, snd mr = Some q /\ tells (fst mr) q s) (firstn (length ss) l) ss /\
    Forall (fun mr => snd mr = None) (skipn (length ss) l) /\ length l = (length ss + n)%nat /\
    Forall (fun mr => same_outside m (fst mr) p cap) l.
Proof. exact getspent_ok. Qed.
Print Assumptions C70_getspent.
Theorem C70_setspent : forall o utf8 file p cap ss m reader,
  file_of (map (sline (separator o)) ss) file -> Forall (fun s => valid_secret o s /\ a_line utf8 (sline (separator o) s) /\ need s <= cap) ss ->
  mapped m p cap ->
  forall reader', reader' = setspent (Some file) reader \/ reader' = endspent reader ->
  exists l r, swalk o utf8 file p (length ss) m reader' = Ok (l, r) /\
    Forall2 (fun mr s => exists q, snd mr = Some q /\ tells (fst mr) q s) l ss.
Proof.
  intros o utf8 file p cap ss m reader F V M reader' H.
  destruct (getspent_ok o utf8 file p cap ss m reader' file 0 F V M) as (l & r & E & F2 & _ & L & _).
  - destruct H as [-> | ->]; reflexivity.
  - exists l, r. rewrite Nat.add_0_r in E. split; [exact E|]. rewrite firstn_all2 in F2 by lia. exact F2.
Qed.
Print Assumptions C70_setspent.

Definition secret_ (n p : string) : secret := {| s_name := codes n; s_passwd := codes p; s_days := [Some 19000; Some 0; Some 99999; Some 7; None; None]; s_flag := None |}.
Definition ls0 : list (list Z) := [sline 58 (secret_ "root" "*"); codes "# comment"; []; sline 58 (secret_ "alice" "$6$x"); sline 58 (secret_ "bob" "!")].
Definition text0 : list Z := concat (map (fun l => l ++ [10]) ls0).
Definition zero (n : nat) : list Z := repeat 0 n.
Definition any (l : list Z) : bool := true.
Lemma clean_codes sep f : forallb (fun b => (1 <=? b) && (b <? 256) && negb (b =? 10) && negb (b =? sep)) f = true -> clean sep f.
Proof.
  intros H. apply Forall_forall. intros b I. rewrite forallb_forall in H. specialize (H b I). apply andb_true_iff in H. destruct H as [H H4].
  apply andb_true_iff in H. destruct H as [H H3]. apply andb_true_iff in H. destruct H as [H1 H2]. apply negb_true_iff in H3, H4.
  apply Z.leb_le in H1. apply Z.ltb_lt in H2. apply Z.eqb_neq in H3, H4. unfold is_byte. lia.
Qed.
Lemma without b f : forallb (fun c => negb (c =? b)) f = true -> ~ In b f.
Proof. intros H I. rewrite forallb_forall in H. specialize (H b I). rewrite Z.eqb_refl in H. discriminate. Qed.
Ltac one := split; [apply clean_codes; vm_compute; reflexivity|split; [apply clean_codes; vm_compute; reflexivity|split; [reflexivity|split; [repeat constructor; lia|exact I]]]].
Example C70_premises_example :
  file_of ls0 text0 /\ Forall (a_line any) ls0 /\ distinct_names Linux (codes "alice") ls0 /\ valid_secret Linux (secret_ "alice" "$6$x") /\
  need (secret_ "alice" "$6$x") = 11 /\ lookup Linux (codes "alice") ls0 (Some (secret_ "alice" "$6$x")).
Proof.
  split; [left; reflexivity|]. split.
  { repeat (apply Forall_cons; [split; [apply without; vm_compute; reflexivity|split; [vm_compute; discriminate|split; reflexivity]]|]); apply Forall_nil. }
  assert (V : valid_secret Linux (secret_ "alice" "$6$x")) by one. split.
  { repeat (apply Forall_cons; [intros [t E]; vm_compute in E; try discriminate E|]); [|apply Forall_nil]. exists (secret_ "alice" "$6$x"). split; [reflexivity|]. split; [reflexivity|exact V]. }
  split; [exact V|]. split; [reflexivity|].
  assert (NE : forall l, starts_with l (codes "alice") = false -> forall s, ~ entry_for Linux (codes "alice") s l).
  { intros l H s EF. apply entry_prefix, starts_with_iff in EF. congruence. }
  apply lookup_next; [apply NE; reflexivity|]. apply lookup_next; [apply NE; reflexivity|]. apply lookup_next; [apply NE; reflexivity|].
  apply lookup_here. split; [reflexivity|]. split; [reflexivity|exact V].
Qed.
Definition shown (r : res (mem * option spwd)) : res (option (Z * Z * Z)) :=
  match r with Ok (_, Some q) => Ok (Some (sp_lstchg q, sp_max q, sp_inact q)) | Ok (_, None) => Ok None | Fault => Fault | Panic => Panic | OutOfFuel => OutOfFuel end.
Example C70_getspnam_example :
  shown (getspnam Linux any 200 (mem_of 1000 (zero 60)) (Some text0) (codes "alice") 1000) = Ok (Some (19000, 99999, -1)) /\
  shown (getspnam Linux any 200 (mem_of 1000 (zero 60)) (Some text0) (codes "carol") 1000) = Ok None.
Proof. split; vm_compute; reflexivity. Qed.

(* The beginning of a name is enough: asking for "ro" gives root's password, and so does
   asking for "". *)
Theorem C70_prefix_refuted : forall n, n = codes "ro" \/ n = [] ->
  lookup Linux n ls0 None /\
  (exists m' q, getspnam Linux any 200 (mem_of 1000 (zero 60)) (Some text0) n 1000 = Ok (m', Some q) /\ tells m' q (secret_ "root" "*")) /\
  (exists m' q, getspnam_r Linux any 200 (mem_of 1000 (zero 60)) (Some text0) n 1000 60 = Ok (m', (Some q, 0)) /\ tells m' q (secret_ "root" "*")).
Proof.
  intros n H. split.
  - assert (NE : forall l, hd [] (Grp_model.split_at 58 [] l) <> n \/ ~ In 58 l -> forall s, ~ entry_for Linux n s l).
    { intros l X s (-> & En & V). destruct X as [X|X].
      - apply X. change 58 with (separator Linux). rewrite (split_sline Linux s V). exact En.
      - apply X. unfold sline. cbn [map app join separator]. apply in_or_app. right. left. reflexivity. }
    repeat (apply lookup_next; [apply NE; try (left; destruct H as [-> | ->]; vm_compute; discriminate); right; apply without; vm_compute; reflexivity|]).
    constructor.
  - destruct H as [-> | ->]; (split; eexists _, _; (split; [vm_compute; reflexivity|]); (split; [split; [repeat constructor; cbn; lia|vm_compute; repeat split]|split; [split; [repeat constructor; cbn; lia|vm_compute; repeat split]|split; reflexivity]])).
Qed.
Print Assumptions C70_prefix_refuted.
(* No entry is an error of getspnam_r. *)
Theorem C70_missing_refuted :
  lookup Linux (codes "carol") ls0 None /\
  getspnam_r Linux any 200 (mem_of 1000 (zero 60)) (Some text0) (codes "carol") 1000 60 = Ok (mem_of 1000 (zero 60), (None, 2)).
Proof.
  split; [|vm_compute; reflexivity].
  assert (NE : forall l, starts_with l (codes "carol") = false -> forall s, ~ entry_for Linux (codes "carol") s l).
  { intros l H s EF. apply entry_prefix, starts_with_iff in EF. congruence. }
  repeat (apply lookup_next; [apply NE; reflexivity|]). constructor.
Qed.
Print Assumptions C70_missing_refuted.
