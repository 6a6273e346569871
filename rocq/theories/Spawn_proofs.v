From Coq Require Import ZArith List Bool Lia.
From Verif Require Import Base Exec_model Exec_spec Exec_proofs Spawn_model Spawn_spec.
Import ListNotations.
Open Scope Z_scope.

Lemma raw_len_ok : forall m s a n fuel, cstr m (a + n) s -> (length s < fuel)%nat -> raw_len fuel m a n = Ok (n + len s).
Proof.
  intros m s. induction s as [|c s IH]; intros a n fuel C F; (destruct fuel as [|f]; [cbn in F; lia|]); cbn [raw_len].
  - apply cstr_nil in C. unfold ld. rewrite C. cbn. f_equal. change (len (@nil Z)) with 0. lia.
  - apply cstr_cons in C. destruct C as (IC & E & C). unfold ld. rewrite E. cbn [bind].
    destruct (Z.eqb_spec c 0) as [->|_]; [unfold is_char in IC; lia|].
    rewrite IH; [rewrite len_cons; f_equal; lia|replace (a + (n + 1)) with (a + n + 1) by lia; exact C|cbn in F; lia].
Qed.
Lemma bytes_ok : forall m s a, bytes_at m a s -> bytes m a (length s) = Ok s.
Proof.
  intros m s. induction s as [|c s IH]; intros a B; [reflexivity|]. cbn [length bytes]. destruct B as (E & B). unfold ld. rewrite E. cbn [bind].
  rewrite IH by exact B. reflexivity.
Qed.

(* the call asks for the act: descriptors are not negative, and the path is a string both
   when the action is added and when the child is spawned *)
Definition asks (m m' : mem) (c : call) (a : act) : Prop :=
  match c, a with
  | COpen fd p fl md, AOpen fd' path fl' md' => fd = fd' /\ fl = fl' /\ md = md' /\ 0 <= fd /\ p <> NULL /\ cstr m p path /\ cstr m' p path
  | CClose fd, AClose fd' => fd = fd' /\ 0 <= fd
  | CChdir p, AChdir path => p <> NULL /\ cstr m p path /\ cstr m' p path
  | CFchdir fd, AFchdir fd' => fd = fd' /\ 0 <= fd
  | CDup2 o n, ADup2 o' n' => o = o' /\ n = n' /\ 0 <= o /\ 0 <= n
  | _, _ => False
  end.
Definition path_of (a : act) : list Z := match a with AOpen _ p _ _ => p | AChdir p => p | _ => [] end.
(* the action stored *)
Definition stores (m' : mem) (x : action) (a : act) : Prop :=
  match x, a with
  | Open fd p fl md, AOpen fd' path fl' md' => fd = fd' /\ fl = fl' /\ md = md' /\ text m' p = Ok path
  | Close fd, AClose fd' => fd = fd'
  | Chdir p, AChdir path => text m' p = Ok path
  | FChdir fd, AFchdir fd' => fd = fd'
  | Dup2 o n, ADup2 o' n' => o = o' /\ n = n'
  | _, _ => False
  end.

Lemma from_raw_ok : forall fuel m m' p path, p <> NULL -> cstr m p path -> cstr m' p path -> (length path < fuel)%nat ->
  exists x, from_raw fuel m p = Ok x /\ text m' x = Ok path.
Proof.
  intros fuel m m' p path N C C' F. unfold from_raw. destruct (Z.eqb_spec p NULL); [contradiction|].
  rewrite raw_len_ok with (s := path) by (rewrite ?Z.add_0_r; assumption). cbn [bind]. eexists; split; [reflexivity|].
  cbn [text]. rewrite Z.add_0_l. replace (Z.to_nat (len path)) with (length path) by (unfold len; rewrite Nat2Z.id; reflexivity). apply bytes_ok, cstr_bytes, C'.
Qed.
Lemma add_ok : forall fuel m m' fa c a, asks m m' c a -> (length (path_of a) < fuel)%nat ->
  exists x, add fuel m fa c = Ok (fa ++ [x], 0) /\ stores m' x a.
Proof.
  intros fuel m m' fa c a A F. destruct c; destruct a; try contradiction; cbn [asks] in A; cbn [add path_of] in *.
  - destruct A as (-> & -> & -> & P & N & C & C'). destruct (from_raw_ok fuel m m' _ _ N C C' F) as (x & E & T).
    unfold addopen. destruct (Z.ltb_spec fd0 0); [lia|]. rewrite E. cbn [bind]. eexists; split; [reflexivity|]. cbn. auto.
  - destruct A as (-> & P). unfold addclose. destruct (Z.ltb_spec fd0 0); [lia|]. eexists; split; [reflexivity|]. reflexivity.
  - destruct A as (N & C & C'). destruct (from_raw_ok fuel m m' _ _ N C C' F) as (x & E & T).
    unfold addchdir. rewrite E. cbn [bind]. eexists; split; [reflexivity|]. exact T.
  - destruct A as (-> & P). unfold addfchdir. destruct (Z.ltb_spec fd0 0); [lia|]. eexists; split; [reflexivity|]. reflexivity.
  - destruct A as (-> & -> & P & Q). unfold adddup2. destruct (Z.ltb_spec old 0); [lia|]. destruct (Z.ltb_spec new 0); [lia|].
    eexists; split; [reflexivity|]. split; reflexivity.
Qed.
Lemma add_all_ok : forall fuel m' l fa,
  Forall (fun x => match x with ((m, c), a) => asks m m' c a /\ (length (path_of a) < fuel)%nat end) l ->
  exists xs, add_all fuel fa (map fst l) = Ok (fa ++ xs, map (fun _ => 0) l) /\ Forall2 (stores m') xs (map snd l).
Proof.
  intros fuel m' l. induction l as [|((m, c), a) l IH]; intros fa F.
  - exists []. rewrite app_nil_r. split; [reflexivity|constructor].
  - destruct (Forall_inv F) as (A & L). destruct (add_ok fuel m m' fa c a A L) as (x & E & S).
    destruct (IH (fa ++ [x]) (Forall_inv_tail F)) as (xs & E2 & S2). exists (x :: xs). cbn [map fst snd add_all]. rewrite E. cbn [bind].
    rewrite E2. cbn [bind]. rewrite <- app_assoc. split; [reflexivity|constructor; assumption].
Qed.

Section Files.
Variable parent : table.
Variable openat : list Z -> list Z -> Z -> Z -> Z + Z.
Variable fpath : Z -> Z + list Z.
Variable cloexec : Z -> bool.
Variable targets : list Z.

Definition marked (fd : Z) : Prop := exists f, parent fd = Some (f, true).
(* the acts the code performs as it should *)
Definition fine (a : act) : Prop :=
  match a with
  | AOpen fd _ fl _ => cloexec fl = false /\ ~ marked fd /\ In fd targets
  | AClose fd => In fd targets
  | AChdir p => exists r, p = 47 :: r
  | AFchdir fd => ~ In fd targets
  | ADup2 _ n => ~ marked n /\ In n targets
  end.
Definition agree (t : fds) (tm : table) : Prop := forall k,
  (exists f b b', t k = Some (f, b) /\ tm k = Some (f, b') /\ (b = true <-> marked k)) \/ (t k = None /\ tm k = None).
Definition same (t : fds) : Prop := forall k, ~ In k targets -> t k = parent k.

Lemma agree_put : forall t t1 tm fd f, agree t tm -> updated t t1 fd (Some (f, false)) -> ~ marked fd -> agree t1 (put tm fd (Some (f, false))).
Proof.
  intros t t1 tm fd f A (U1 & U2) N k. unfold put. destruct (Z.eqb_spec k fd) as [->|NK].
  - left. exists f, false, false. split; [exact U1|]. split; [reflexivity|]. split; [discriminate|contradiction].
  - rewrite U2 by exact NK. apply A.
Qed.
Lemma agree_del : forall t t1 tm fd, agree t tm -> updated t t1 fd None -> agree t1 (put tm fd None).
Proof.
  intros t t1 tm fd A (U1 & U2) k. unfold put. destruct (Z.eqb_spec k fd) as [->|NK]; [right; split; [exact U1|reflexivity]|]. rewrite U2 by exact NK. apply A.
Qed.
Lemma same_upd : forall t t1 fd x, same t -> updated t t1 fd x -> In fd targets -> same t1.
Proof. intros t t1 fd x S (_ & U) I k N. rewrite U by (intros ->; contradiction). apply S, N. Qed.
Lemma file_agree : forall t tm k f b, agree t tm -> t k = Some (f, b) -> exists b', tm k = Some (f, b').
Proof.
  intros t tm k f b A E. destruct (A k) as [(f' & b1 & b2 & E1 & E2 & _)|(E1 & _)]; [|congruence].
  rewrite E1 in E. injection E as -> ->. exists b2. exact E2.
Qed.

Lemma perform_ok : forall m' l xs t c t' c' tm,
  acts openat fpath cloexec l t c t' c' -> Forall fine l -> Forall2 (stores m') xs l -> agree t tm -> same t ->
  exists tm', perform parent openat fpath m' xs tm c = Ok (Did tm' c') /\ agree t' tm'.
Proof.
  intros m' l xs t c t' c' tm A. revert xs tm. induction A; intros xs tm F S G SM.
  - inversion S; subst. exists tm. split; [reflexivity|]. intro k. rewrite <- H. apply G.
  - inversion S as [|x ? xs' ? X S']; subst. destruct x; try contradiction. destruct X as (-> & -> & -> & T).
    destruct (Forall_inv F) as (C & N & I). cbn [perform]. rewrite T. cbn [bind]. rewrite H. rewrite C in H0.
    apply IHA; [exact (Forall_inv_tail F)|exact S'|eapply agree_put; eassumption|eapply same_upd; eassumption].
  - inversion S as [|y ? xs' ? X S']; subst. destruct y; try contradiction. cbn [stores] in X. subst. cbn [perform].
    destruct x as [f b]. destruct (file_agree _ _ _ _ _ G H) as (b' & ->).
    apply IHA; [exact (Forall_inv_tail F)|exact S'|eapply agree_del; eassumption|eapply same_upd; [eassumption|eassumption|exact (Forall_inv F)]].
  - inversion S as [|y ? xs' ? X S']; subst. destruct y; try contradiction. cbn [stores] in X. cbn [perform]. rewrite X. cbn [bind].
    destruct (Forall_inv F) as (q & ->). cbn [absolute]. change (47 =? 47) with true. cbv iota.
    apply IHA; [exact (Forall_inv_tail F)|exact S'|exact G|exact SM].
  - inversion S as [|y ? xs' ? X S']; subst. destruct y; try contradiction. cbn [stores] in X. subst. cbn [perform].
    rewrite <- (SM _ (Forall_inv F)), H, H0. apply IHA; [exact (Forall_inv_tail F)|exact S'|exact G|exact SM].
  - inversion S as [|y ? xs' ? X S']; subst. destruct y; try contradiction. destruct X as (-> & ->). cbn [perform].
    destruct (file_agree _ _ _ _ _ G H) as (b' & ->). destruct (Forall_inv F) as (N & I).
    apply IHA; [exact (Forall_inv_tail F)|exact S'|eapply agree_put; eassumption|eapply same_upd; eassumption].
Qed.

Lemma agree_execs : forall t tm, agree t tm -> execs t (close_marked parent tm).
Proof.
  intros t tm A fd. unfold close_marked. destruct (A fd) as [(f & b & b' & E1 & E2 & M)|(E1 & E2)].
  - rewrite E1, E2. destruct b.
    + destruct (proj1 M eq_refl) as (g & ->). reflexivity.
    + destruct (parent fd) as [(g, [|])|] eqn:P; try (eexists; reflexivity).
      exfalso. assert (false = true) by (apply M; exists g; exact P). discriminate.
  - rewrite E1, E2. destruct (parent fd) as [(g, [|])|]; reflexivity.
Qed.

Lemma spawn_files_ok : forall fuel m' l cwd t' c',
  Forall (fun x => match x with ((m, c), a) => asks m m' c a /\ (length (path_of a) < fuel)%nat end) l ->
  Forall fine (map snd l) -> acts openat fpath cloexec (map snd l) parent cwd t' c' ->
  exists fa t2, add_all fuel fa_init (map fst l) = Ok (fa, map (fun _ => 0) l) /\
    spawn_files parent openat fpath m' (Some fa) cwd = Ok (Did t2 c') /\ execs t' t2.
Proof.
  intros fuel m' l cwd t' c' A F P. destruct (add_all_ok fuel m' l fa_init A) as (xs & E & S).
  assert (G : agree parent parent).
  { intro k. destruct (parent k) as [(f, b)|] eqn:K; [|right; split; reflexivity]. left. exists f, b, b.
    split; [reflexivity|]. split; [reflexivity|]. split; [intros ->; exists f; exact K|intros (g & Q); congruence]. }
  destruct (perform_ok m' _ xs _ _ _ _ parent P F S G (fun k _ => eq_refl)) as (tm & E2 & G2).
  exists xs, (close_marked parent tm). split; [exact E|]. split; [|apply agree_execs, G2].
  unfold spawn_files. rewrite E2. reflexivity.
Qed.
End Files.

(* attributes *)
Definition word (r : request) : Z :=
  Z.lor (if r_reset r then RESETIDS else 0) (Z.lor (if r_group r then SETPGROUP else 0)
    (Z.lor (if r_default r then SETSIGDEF else 0) (Z.lor (if r_mask r then SETSIGMASK else 0) (if r_prio r then SETSCHEDPARAM else 0)))).
Definition val (o : option Z) : Z := match o with Some x => x | None => 0 end.
Definition attr_of (r : request) : attr := At (word r) (val (r_group r)) (val (r_default r)) (val (r_mask r)) (val (r_prio r)).
Definition set_uid (s : stat) : bool := Z.testbit (st_mode s) 11.
Definition set_gid (s : stat) : bool := Z.testbit (st_mode s) 10.

Lemma bit_test : forall m k, 0 <= k -> (Z.land m (2 ^ k) =? 2 ^ k) = Z.testbit m k.
Proof.
  intros m k K. rewrite Z.land_comm.
  assert (P : 0 < 2 ^ k) by (apply Z.pow_pos_nonneg; lia).
  assert (L : Z.land (2 ^ k) m = if Z.testbit m k then 2 ^ k else 0).
  { apply Z.bits_inj. intro i. rewrite Z.land_spec. destruct (Z.eq_dec i k) as [->|NE].
    - rewrite Z.pow2_bits_true by lia. destruct (Z.testbit m k) eqn:E; [rewrite Z.pow2_bits_true by lia; reflexivity|rewrite Z.bits_0; reflexivity].
    - rewrite Z.pow2_bits_false by lia. destruct (Z.testbit m k); [rewrite Z.pow2_bits_false by lia; reflexivity|rewrite Z.bits_0; reflexivity]. }
  rewrite L. destruct (Z.testbit m k); [apply Z.eqb_refl|]. destruct (Z.eqb_spec 0 (2 ^ k)); [lia|reflexivity].
Qed.

Lemma spawn_attrs_ok : forall handle p ps r s,
  r_group r = None -> r_default r = None -> r_prio r = None -> (r_reset r = true -> r_mask r = None) ->
  exists x, spawn_attrs handle p ps (Some (attr_of r)) s = Ok (inl x) /\ sp_procs x = ps /\
    sigmask (sp_child x) = child_mask r (sigmask p) /\ sigign (sp_child x) = child_ignored r (sigign p) /\
    ruid (sp_child x) = ruid p /\ rgid (sp_child x) = rgid p /\
    euid (sp_child x) = child_id r (set_uid s) (st_uid s) (ruid p) (euid p) /\
    egid (sp_child x) = child_id r (set_gid s) (st_gid s) (rgid p) (egid p).
Proof.
  intros handle p ps r s G D P M. destruct r as [rs g d m pr]. cbn in G, D, P, M. subst.
  assert (U : (Z.land (st_mode s) S_ISUID =? S_ISUID) = set_uid s) by (apply (bit_test _ 11); lia).
  assert (V : (Z.land (st_mode s) S_ISGID =? S_ISGID) = set_gid s) by (apply (bit_test _ 10); lia).
  destruct rs; [rewrite (M eq_refl)|destruct m as [m|]]; unfold spawn_attrs, attr_of, word; cbn;
    rewrite U, V; (eexists; split; [reflexivity|]); cbn; unfold child_id; cbn; auto 10.
Qed.
Lemma spawn_null : forall handle p ps s, spawn_attrs handle p ps None s = Ok (inl (Sp p ps (euid p) (egid p))).
Proof. reflexivity. Qed.

Lemma spawnp_ok : forall access file ds, (forall p, len p > 4095 -> access p = false) ->
  ~ In 47 file -> ds <> [] -> Forall (fun d => ~ In 58 d) ds -> Forall (fun d => d <> []) ds ->
  finds (fun p => if access p then None else Some 2) file ds (spawnp access file (Some (joined ds))).
Proof.
  intros access file ds L N ND F1 F2. unfold spawnp. rewrite (no_char 47) by exact N. rewrite split_joined by assumption. clear ND F1.
  induction ds as [|d ds IH]; [constructor|]. cbn [programs].
  destruct d as [|c d]; [exfalso; apply (Forall_inv F2); reflexivity|].
  assert (E : (c :: d) ++ [47] ++ file = candidate (c :: d) file) by reflexivity.
  assert (LC : len (candidate (c :: d) file) = len (c :: d) + len file + 1) by (rewrite <- E; rewrite !len_app; change (len [47]) with 1; lia).
  destruct (len (c :: d) + len file + 2 >? PATH_MAX) eqn:G; rewrite Z.gtb_ltb in G; unfold PATH_MAX in G.
  - apply Z.ltb_lt in G. apply F_next with (e := 2); [rewrite L by lia; reflexivity|]. apply IH; exact (Forall_inv_tail F2).
  - cbn [first_there]. rewrite E. destruct (access (candidate (c :: d) file)) eqn:A.
    + apply F_here. rewrite A. reflexivity.
    + apply F_next with (e := 2); [rewrite A; reflexivity|]. apply IH; exact (Forall_inv_tail F2).
Qed.

(* the descriptors the actions assign *)
Definition assigned (l : list act) : list Z :=
  flat_map (fun a => match a with AOpen fd _ _ _ => [fd] | AClose fd => [fd] | ADup2 _ n => [n] | _ => [] end) l.

(* what concrete cases use: descriptors 0, 1, 2 on the terminal, 3 marked, 4 a directory *)
Definition t0 : table := fun fd =>
  if (fd =? 0) || (fd =? 1) || (fd =? 2) then Some (100, false)
  else if fd =? 3 then Some (103, true) else if fd =? 4 then Some (104, false) else None.
Definition open0 (cwd path : list Z) (flag mode : Z) : Z + Z :=
  match path with [47; 97] => inl 200 | [98] => inl 201 | [47; 100] => inl 104 | _ => inr 2 end.
Definition fpath0 (f : Z) : Z + list Z := if f =? 104 then inr [47; 100] else inl 20.
Definition cloexec0 (fl : Z) : bool := Z.testbit fl 24.
Definition no_procs : procs := Ps (fun pid => if pid =? 50 then Some 50 else None) (fun pid => if pid =? 50 then Some 0 else None).
