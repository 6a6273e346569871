(* C114: mkstemp and its kin; C115: tmpnam, tempnam, tmpfile. *)
From Coq Require Import ZArith String List Bool Lia.
From Verif Require Import Base String_model Inet_model Ctype_spec Mktemp_model Mktemp_spec Mktemp_proofs.
Import ListNotations.
Open Scope string_scope.
Open Scope list_scope.
Open Scope Z_scope.

(* C114 full: mkstemp, mkostemp, mkstemps, mkostemps and mkdtemp replace the six X of the template, and nothing
   else, by characters such that the file or directory did not exist, and create it exclusively, for its owner alone;
   other templates are refused with EINVAL, and a failure of the system is reported as it is.
   Missing: the error numbers of failures, negative suffix lengths (both refuted). *)
(* O_RDWR | O_CREAT | O_EXCL, and what else the caller asks for *)
Definition exclusively (flags : Z) : Z := Z.lor (Z.land flags (Z.lnot 196608)) 167968768.
Theorem C114_mkostemps_partial : forall S draw open fuel m name pre suf flags s,
  (forall i, alnum (draw i)) -> (forall s n f md s' fd, open s n f md = (s', inl fd) -> 0 <= fd) ->
  name <> 0 -> Forall is_char pre -> Forall is_char suf -> (length pre + length suf + 6 < fuel)%nat -> len (pre ++ XXXXXX ++ suf) < 2147483648 ->
  cstr m name (pre ++ XXXXXX ++ suf) ->
  exists m' s' r, mkostemps S draw open fuel m name (len suf) flags s = Ok (m', s', r) /\
    (forall x, ~ name + len pre <= x < name + len pre + 6 -> m' x = m x) /\
    exists ws s1, Forall six ws /\
      failed (fun s n => open s n (exclusively flags) 384) (fun x => exists e, x = inr e) s (map (fun w => pre ++ w ++ suf) ws) s1 /\
      match r with
      | inl fd => (length ws < 100)%nat /\ exists w, six w /\ open s1 (pre ++ w ++ suf) (exclusively flags) 384 = (s', inl fd) /\ cstr m' name (pre ++ w ++ suf)
      | inr e => length ws = 100%nat /\ s' = s1 /\ e = 17
      end.
Proof.
  intros S draw open fuel m name pre suf flags s DR FD N CP CS FU L C. unfold mkostemps.
  set (att := fun (s : S) n => match open s n _ 384 with (s, inl fd) => (s, if 0 <=? fd then Some fd else None) | (s, inr _) => (s, None) end).
  destruct (inner_ok S draw DR Z att pre suf name fuel CP CS FU m s N L C) as (m' & s' & r & E & F & ws & s1 & WS & FA & R).
  exists m', s', r. split; [exact E|]. split; [exact F|]. exists ws, s1. split; [exact WS|]. split.
  - revert FA. apply failed_map. intros s0 n s2 x A <-. unfold att in A. change (open s0 n _ 384) with (open s0 n (exclusively flags) 384) in A.
    destruct (open s0 n (exclusively flags) 384) as [s3 [fd|e]] eqn:O; [|injection A as <-; eauto].
    apply FD in O. destruct (Z.leb_spec 0 fd); [discriminate A|lia].
  - destruct r as [fd|e]; [|tauto]. destruct R as (R1 & w & W & A & CC). split; [exact R1|]. exists w. split; [exact W|]. split; [|exact CC].
    unfold att in A. change (open s1 (pre ++ w ++ suf) _ 384) with (open s1 (pre ++ w ++ suf) (exclusively flags) 384) in A.
    destruct (open s1 (pre ++ w ++ suf) (exclusively flags) 384) as [s3 [fd'|e]] eqn:O; [|discriminate]. pose proof (FD _ _ _ _ _ _ O). destruct (Z.leb_spec 0 fd'); [|lia]. congruence.
Qed.
Print Assumptions C114_mkostemps_partial.
(* where opening exclusively creates a file that is not there, mkstemp does: there is a file at s if ex s holds of its
   name *)
Theorem C114_created_partial : forall S draw open (ex : S -> list Z -> Prop) fuel m name pre s m' s' fd,
  (forall i, alnum (draw i)) -> (forall s n f md s' fd, open s n f md = (s', inl fd) -> 0 <= fd) ->
  (forall s n f md s' fd, open s n f md = (s', inl fd) -> Z.testbit f 25 = true -> Z.testbit f 27 = true -> ~ ex s n /\ ex s' n) ->
  (forall s n f md s' e k, open s n f md = (s', inr e) -> ex s k <-> ex s' k) ->
  name <> 0 -> Forall is_char pre -> (length pre + 6 < fuel)%nat -> len pre + 6 < 2147483648 -> cstr m name (pre ++ XXXXXX) ->
  mkstemp S draw open fuel m name s = Ok (m', s', inl fd) ->
  exists w, six w /\ cstr m' name (pre ++ w) /\ ~ ex s (pre ++ w) /\ ex s' (pre ++ w).
Proof.
  intros S draw open ex fuel m name pre s m' s' fd DR FD OK KO N CP FU L C E.
  destruct (C114_mkostemps_partial S draw open fuel m name pre [] 0 s DR FD N CP (Forall_nil _)) as (m1 & s2 & r & E1 & _ & ws & s1 & _ & FA & R).
  - cbn; lia.
  - rewrite app_nil_r, len_app. change (len XXXXXX) with 6. exact L.
  - rewrite app_nil_r. exact C.
  - change (len []) with 0 in E1. unfold mkstemp in E. rewrite E in E1. injection E1 as <- <- <-. destruct R as (_ & w & W & O & CC). rewrite app_nil_r in *.
    exists w. split; [exact W|]. split; [exact CC|]. destruct (OK _ _ _ _ _ _ O eq_refl eq_refl) as [X Y]. split; [|exact Y].
    intros Q. apply X. clear - FA KO Q. revert Q. generalize (pre ++ w) as k. induction FA as [|s n s1 x l s2 CA [e ->] _ IH]; intros k Q; [exact Q|]. apply IH. apply (KO _ _ _ _ _ _ k CA). exact Q.
Qed.
Print Assumptions C114_created_partial.
Theorem C114_mkdtemp_partial : forall S draw mkdir fuel m name pre s, (forall i, alnum (draw i)) ->
  name <> 0 -> Forall is_char pre -> (length pre + 6 < fuel)%nat -> len pre + 6 < 2147483648 -> cstr m name (pre ++ XXXXXX) ->
  exists m' s' r, mkdtemp S draw mkdir fuel m name s = Ok (m', s', r) /\
    (forall x, ~ name + len pre <= x < name + len pre + 6 -> m' x = m x) /\
    exists ws s1, Forall six ws /\ failed (fun s n => mkdir s n 448) (fun x => x <> None) s (map (app pre) ws) s1 /\
      match r with
      | inl p => p = name /\ (length ws < 100)%nat /\ exists w, six w /\ mkdir s1 (pre ++ w) 448 = (s', None) /\ cstr m' name (pre ++ w)
      | inr e => length ws = 100%nat /\ s' = s1 /\ e = 17
      end.
Proof.
  intros S draw mkdir fuel m name pre s DR N CP FU L C. unfold mkdtemp.
  set (att := fun (s : S) n => match mkdir s n 448 with (s, None) => (s, Some name) | (s, Some _) => (s, None) end).
  assert (NM : forall w, pre ++ w ++ [] = pre ++ w) by (intros w; rewrite app_nil_r; reflexivity).
  destruct (inner_ok S draw DR Z att pre [] name fuel CP (Forall_nil _) ltac:(cbn; lia) m s N) as (m' & s' & r & E & F & ws & s1 & WS & FA & R).
  { rewrite NM, len_app. change (len XXXXXX) with 6. exact L. }
  { rewrite NM. exact C. }
  exists m', s', r. split; [exact E|]. split; [exact F|]. exists ws, s1. split; [exact WS|]. rewrite (map_ext _ (app pre) NM) in FA. split.
  - revert FA. apply failed_map. intros s0 n s2 x A <-. unfold att in A. destruct (mkdir s0 n 448) as [s3 [e|]]; [|discriminate A]. injection A as <-. exists (Some e). split; [reflexivity|discriminate].
  - destruct r as [p|e]; [|tauto]. destruct R as (R1 & w & W & A & CC). rewrite NM in *. unfold att in A. destruct (mkdir s1 (pre ++ w) 448) as [s3 [e|]] eqn:MK; [discriminate|].
    injection A as -> <-. eauto 10.
Qed.
Print Assumptions C114_mkdtemp_partial.
(* a template without the six X in their place: EINVAL, and no call *)
Theorem C114_template_partial : forall S draw open mkdir fuel m name suffix flags s t, name <> 0 -> cstr m name t -> (length t < fuel)%nat -> len t < 2147483648 ->
  0 <= suffix -> (forall pre suf, len suf = suffix -> t <> pre ++ XXXXXX ++ suf) ->
  mkostemps S draw open fuel m name suffix flags s = Ok (m, s, inr 22) /\ (suffix = 0 -> mkdtemp S draw mkdir fuel m name s = Ok (m, s, inr 22)).
Proof.
  intros S draw open mkdir fuel m name suffix flags s t N C F L SU NO. split; [|intros ->]; apply (inner_bad S draw _ _ fuel m name _ s t N C F L); auto; lia.
Qed.
Print Assumptions C114_template_partial.

(* a file system that has the first names already *)
Definition taken (k : nat) (s : nat) (n : list Z) (f md : Z) : nat * (Z + Z) := if Nat.ltb s k then (Datatypes.S s, inr 17) else (s, inl 3).
Definition tmpl : mem := mem_of 100 (codes "/tmp/fXXXXXX.txt" ++ [0; 88; 88; 88; 88; 88; 88; 99; 0]).
Definition drawn (i : nat) : Z := 97 + Z.of_nat (Nat.modulo i 26).
Example C114_case : (forall i, alnum (drawn i)) /\
  (exists m', mkstemps nat drawn (taken 2) 40 tmpl 100 4 0%nat = Ok (m', 2%nat, inl 3) /\ cstr m' 100 (codes "/tmp/frqponm.txt")) /\
  cstr tmpl 100 (codes "/tmp/f" ++ XXXXXX ++ codes ".txt") /\
  (exists m', mkstemps nat drawn (taken 200) 40 tmpl 100 4 0%nat = Ok (m', 100%nat, inr 17)) /\
  mkstemp nat drawn (taken 2) 40 tmpl 100 0%nat = Ok (tmpl, 0%nat, inr 22).
Proof.
  split; [intros i; unfold drawn, alnum; pose proof (Nat.mod_upper_bound i 26); lia|].
  assert (CH : forall l, forallb (fun c => (0 <? c) && (c <? 256)) l = true -> Forall is_char l).
  { intros l H. rewrite forallb_forall in H. apply Forall_forall. intros c I. specialize (H c I). unfold is_char. lia. }
  split; [eexists; split; [vm_compute; reflexivity|split; [apply CH; reflexivity|vm_compute; auto 30]]|].
  split; [split; [apply CH; reflexivity|vm_compute; auto 30]|]. split; [eexists; vm_compute; reflexivity|]. vm_compute. reflexivity.
Qed.
(* a directory that may not be written in: EACCES a hundred times, but EEXIST is reported *)
Theorem C114_errno_refuted : exists m', mkstemps nat drawn (fun s n f md => (Datatypes.S s, inr 13)) 40 tmpl 100 4 0%nat = Ok (m', 100%nat, inr 17).
Proof. eexists. vm_compute. reflexivity. Qed.
Print Assumptions C114_errno_refuted.
(* a negative length of the suffix is not refused: six characters behind the terminator are written *)
Theorem C114_suffix_refuted : cstr tmpl 100 (codes "/tmp/fXXXXXX.txt") /\ 100 + len (codes "/tmp/fXXXXXX.txt") = 116 /\
  exists m', mkstemps nat drawn (taken 2) 40 tmpl 100 (-7) 0%nat = Ok (m', 2%nat, inl 3) /\ bytes_at m' 117 (codes "rqponm").
Proof.
  split; [split; [vm_compute; repeat (apply Forall_cons; [split; reflexivity|]); apply Forall_nil|vm_compute; auto 30]|].
  split; [reflexivity|]. eexists. split; [vm_compute; reflexivity|]. vm_compute. auto 20.
Qed.
Print Assumptions C114_suffix_refuted.

(* C115 full: tmpnam (with an array of L_tmpnam bytes or none) and tempnam give a name under which there is
   no file, tempnam one in the first writable directory of $TMPDIR, its argument and /tmp, with the first five characters
   of the prefix; both give a null pointer if they find none.  tmpfile opens a new file and removes its name. *)
(* with one byte more than L_tmpnam *)
Theorem C115_tmpnam_partial : forall S draw access fuel m static_buf p s, (forall i, alnum (draw i)) -> (7 < fuel)%nat ->
  let buf := if p =? 0 then static_buf else p in buf <> 0 -> mapped m buf (L_tmpnam + 1) ->
  exists m' s' r, tmpnam S draw access fuel m static_buf p s = Ok (m', s', r) /\
    (forall x, ~ buf <= x < buf + L_tmpnam + 1 -> m' x = m x) /\
    exists ws s1, Forall six ws /\ failed (fun s n => access s n 0) (fun x => x <> Some 2) s (map (cons 47) ws) s1 /\
    (r = buf /\ (length ws < 100)%nat /\ (exists w, six w /\ access s1 (47 :: w) 0 = (s', Some 2) /\ cstr m' buf (47 :: w)) \/
     r = 0 /\ length ws = 100%nat /\ s' = s1).
Proof.
  intros S draw access fuel m static_buf p s DR FU buf NB M. unfold tmpnam. fold buf. change L_tmpnam with 7 in *. rewrite st_ok by (apply M; lia). cbn [bind].
  destruct (inner_tmpnam_ok S draw DR access fuel (upd m buf 47) buf [47] s NB) as (m' & s' & r & E & F & R).
  - discriminate.
  - repeat constructor; reflexivity.
  - cbn; lia.
  - vm_compute; reflexivity.
  - split; [apply upd_same|exact I].
  - apply mapped_upd. change (len [47]) with 1. eapply mapped_sub; [exact M|lia|lia].
  - change (len [47]) with 1 in *. exists m', s', r. split; [exact E|]. split; [intros x X; rewrite F by lia; apply upd_other; lia|]. exact R.
Qed.
Print Assumptions C115_tmpnam_partial.
(* the array that the standard asks for, of L_tmpnam bytes, is overrun *)
Theorem C115_overrun_refuted : forall S draw access fuel m static_buf p s, p <> 0 -> mapped m p L_tmpnam -> m (p + L_tmpnam) = None ->
  tmpnam S draw access fuel m static_buf p s = Fault.
Proof.
  intros S draw access fuel m static_buf p s NP M NO. unfold tmpnam, tmpnam_inner. change L_tmpnam with 7 in *. rewrite (proj2 (Z.eqb_neq _ _) NP).
  rewrite st_ok by (apply M; lia). cbn [bind]. cbn [st_list].
  do 6 (rewrite (st_in _ p 7) by (first [lia|repeat apply mapped_upd; exact M]); cbn [bind]).
  unfold st at 1. rewrite !upd_other by lia. replace (p + 1 + 1 + 1 + 1 + 1 + 1 + 1) with (p + 7) by lia. rewrite NO. reflexivity.
Qed.
Print Assumptions C115_overrun_refuted.
Theorem C115_tempnam_partial : forall S draw access fuel m alloc tmpdir dir slash_tmp pfx s T A P, (forall i, alnum (draw i)) ->
  (tmpdir <> 0 -> cstr m tmpdir T /\ (length T + 12 < fuel)%nat /\ len T + 12 < 2147483648) ->
  (dir <> 0 -> cstr m dir A /\ (length A + 12 < fuel)%nat /\ len A + 12 < 2147483648) ->
  slash_tmp <> 0 -> cstr m slash_tmp (codes "/tmp") -> (16 < fuel)%nat -> (pfx = 0 /\ P = [] \/ pfx <> 0 /\ bstr m pfx 5 P) ->
  let ok d D := d <> 0 /\ snd (access s D 2) = None in
  forall d D, (d = tmpdir /\ D = T /\ ok tmpdir T \/ d = dir /\ D = A /\ ~ ok tmpdir T /\ ok dir A \/ d = slash_tmp /\ D = codes "/tmp" /\ ~ ok tmpdir T /\ ~ ok dir A) ->
  let n := len D + 1 + len P + 8 in let out := alloc n in out <> 0 -> mapped m out n -> disjoint out n d (len D) -> disjoint out n pfx (len P) ->
  let pre := D ++ 47 :: P in
  exists m' s' r fr, tempnam S draw access fuel m alloc tmpdir dir slash_tmp pfx s = Ok (m', s', r, fr) /\
    (forall x, ~ out <= x < out + n -> m' x = m x) /\
    exists ws s1, Forall six ws /\ failed (fun s n => access s n 0) (fun x => x <> Some 2) s (map (app pre) ws) s1 /\
    (r = out /\ fr = [] /\ (length ws < 100)%nat /\ (exists w, six w /\ access s1 (pre ++ w) 0 = (s', Some 2) /\ cstr m' out (pre ++ w)) \/
     r = 0 /\ fr = [out] /\ length ws = 100%nat /\ s' = s1).
Proof.
  intros S draw access fuel m alloc tmpdir dir slash_tmp pfx s T A P DR HT HA NS CS FU HP ok d D CH n out NO MO D1 D2 pre.
  assert (AT := appropriate_ok S access fuel m s tmpdir T ltac:(intros Q; destruct (HT Q) as (? & ? & _); split; [assumption|lia])).
  assert (AD := appropriate_ok S access fuel m s dir A ltac:(intros Q; destruct (HA Q) as (? & ? & _); split; [assumption|lia])).
  assert (OK : forall q Q, (if q =? 0 then false else match snd (access s Q 2) with None => true | Some _ => false end) = true <-> ok q Q).
  { intros q Q. unfold ok. destruct (Z.eqb_spec q 0); [intuition congruence|]. destruct (snd (access s Q 2)); intuition congruence. }
  assert (LT : len (codes "/tmp") = 4) by reflexivity.
  assert (X : choose_dir S access fuel m s tmpdir dir slash_tmp = Ok d /\ d <> 0 /\ cstr m d D /\ (length D + 12 < fuel)%nat /\ len D + 12 < 2147483648).
  { unfold choose_dir. rewrite AT. cbn [bind]. destruct CH as [(-> & -> & K)|[(-> & -> & K1 & K)|(-> & -> & K1 & K2)]].
    - pose proof K as [K0 _]. apply OK in K. rewrite K. split; [reflexivity|]. split; [exact K0|]. apply HT, K0.
    - destruct (if tmpdir =? 0 then _ else _) eqn:Q; [apply OK in Q; contradiction|]. rewrite AD. cbn [bind]. pose proof K as [K0 _]. apply OK in K. rewrite K.
      split; [reflexivity|]. split; [exact K0|]. apply HA, K0.
    - destruct (if tmpdir =? 0 then _ else _) eqn:Q; [apply OK in Q; contradiction|]. rewrite AD. cbn [bind]. destruct (if dir =? 0 then _ else _) eqn:Q2; [apply OK in Q2; contradiction|].
      split; [reflexivity|]. split; [exact NS|]. split; [exact CS|]. split; [cbn; lia|lia]. }
  destruct X as (X1 & X2 & X3 & X4 & X5).
  exact (tempnam_ok S draw DR access fuel m alloc tmpdir dir slash_tmp pfx s d D P X1 X2 X3 X4 X5 HP NO MO D1 D2).
Qed.
Print Assumptions C115_tempnam_partial.
(* tmpfile: a file opened exclusively, whose name is removed at once *)
Theorem C115_tmpfile_partial : forall S draw open unlink fuel m name s, (forall i, alnum (draw i)) ->
  (forall s n f md s' fd, open s n f md = (s', inl fd) -> 0 <= fd) -> name <> 0 -> mapped m name 19 -> (18 < fuel)%nat ->
  exists s' r, tmpfile S draw open unlink fuel m name s = Ok (s', r) /\
    exists ws s1, Forall six ws /\
      failed (fun s n => open s n (exclusively 0) 384) (fun x => exists e, x = inr e) s (map (app (codes "/tmp/tmpfile")) ws) s1 /\
      match r with
      | Some fd => exists w s2, six w /\ open s1 (codes "/tmp/tmpfile" ++ w) (exclusively 0) 384 = (s2, inl fd) /\ s' = unlink s2 (codes "/tmp/tmpfile" ++ w)
      | None => length ws = 100%nat /\ s' = s1
      end.
Proof.
  intros S draw open unlink fuel m name s DR FD N M FU. unfold tmpfile.
  destruct (st_list_ok (codes "/tmp/tmpfile" ++ XXXXXX ++ [0]) m name M) as (m1 & E & ST). change (st_list m name (codes "/tmp/tmpfile" ++ XXXXXX ++ [0])) with (st_list m name [47; 116; 109; 112; 47; 116; 109; 112; 102; 105; 108; 101; 88; 88; 88; 88; 88; 88; 0]) in E. rewrite E. cbn [bind].
  assert (CH : Forall is_char (codes "/tmp/tmpfile")) by (vm_compute; repeat (apply Forall_cons; [split; reflexivity|]); apply Forall_nil).
  assert (NM : forall w, codes "/tmp/tmpfile" ++ w ++ [] = codes "/tmp/tmpfile" ++ w) by (intros w; rewrite app_nil_r; reflexivity).
  destruct (C114_mkostemps_partial S draw open fuel m1 name (codes "/tmp/tmpfile") [] 0 s DR FD N CH (Forall_nil _)) as (m' & s' & r & E1 & F & ws & s1 & WS & FA & R).
  - cbn; lia.
  - vm_compute; reflexivity.
  - rewrite NM. split; [apply Forall_app; split; [exact CH|repeat (apply Forall_cons; [split; reflexivity|]); apply Forall_nil]|]. rewrite <- app_assoc. apply ST.
  - change (len []) with 0 in E1. unfold mkstemp. rewrite E1. cbn [bind]. rewrite (map_ext _ (app (codes "/tmp/tmpfile")) NM) in FA. destruct r as [fd|e].
    + destruct R as (_ & w & W & O & CC). rewrite NM in *.
      rewrite (Inet_proofs.read_str_ok _ fuel m' name CC) by (rewrite app_length; destruct W as [-> _]; cbn; lia). cbn [bind]. eexists _, _. split; [reflexivity|].
      exists ws, s1. split; [exact WS|]. split; [exact FA|]. eauto 10.
    + destruct R as (R1 & -> & _). eexists _, _. split; [reflexivity|]. exists ws, s1. split; [exact WS|]. split; [exact FA|]. auto.
Qed.
Print Assumptions C115_tmpfile_partial.

Definition tn_mem : mem := mem_union (mem_of 100 (codes "/var" ++ [0])) (mem_union (mem_of 200 (codes "prefix" ++ [0])) (mem_union (mem_of 300 (codes "/tmp" ++ [0])) (mem_of 400 (repeat 255 30)))).
(* /var may be written in; the first name is taken *)
Definition acc (s : nat) (n : list Z) (mode : Z) : nat * option Z := if mode =? 2 then (s, None) else if Nat.ltb s 1 then (Datatypes.S s, None) else (s, Some 2).
Example C115_case :
  (exists m', tmpnam nat drawn acc 30 tn_mem 400 0 0%nat = Ok (m', 1%nat, 400) /\ bytes_at m' 400 (codes "/lkjihg" ++ [0; 255])) /\
  (exists m', tempnam nat drawn acc 30 tn_mem (fun _ => 400) 0 100 300 200 0%nat = Ok (m', 1%nat, 400, []) /\ bytes_at m' 400 (codes "/var/prefilkjihg" ++ [0; 255])) /\
  (exists m', tempnam nat drawn (fun s n mode => (s, None)) 30 tn_mem (fun _ => 400) 0 100 300 200 0%nat = Ok (m', 0%nat, 0, [400])) /\
  bstr tn_mem 200 5 (codes "prefi") /\ cstr tn_mem 100 (codes "/var") /\
  tmpfile nat drawn (taken 1) (fun s n => (10 * s + length n)%nat) 30 tn_mem 400 0%nat = Ok (28%nat, Some 3).
Proof.
  assert (CH : forall l, forallb (fun c => (0 <? c) && (c <? 256)) l = true -> Forall is_char l).
  { intros l H. rewrite forallb_forall in H. apply Forall_forall. intros c I. specialize (H c I). unfold is_char. lia. }
  split; [eexists; split; [vm_compute; reflexivity|vm_compute; auto 30]|]. split; [eexists; split; [vm_compute; reflexivity|vm_compute; auto 30]|].
  split; [eexists; vm_compute; reflexivity|]. split; [split; [apply CH; reflexivity|split; [vm_compute; auto 20|left; reflexivity]]|].
  split; [split; [apply CH; reflexivity|vm_compute; auto 20]|]. vm_compute. reflexivity.
Qed.
