(* C147: pseudo-terminals. *)
From Verif Require Import Base Numeral Ctype_spec Popen_model Popen_spec Popen_proofs Pty_model Pty_spec Pty_proofs.

(* C147 full: ptsname_r stores the name of the terminal and its end in the buffer if both fit, and else returns ERANGE,
   storing nothing; openpty opens a master and the slave of this master, gives the slave's name and leaves
   nothing open when it fails; after forkpty the parent has the master and the child the slave as its three standard
   descriptors and controlling terminal, and otherwise both have what there was before, signal mask included; when it
   fails nothing is left.
   Missing: openpty when the master's name cannot be had (refuted); that the terminal becomes the controlling one (TIOCSCTTY
   does nothing, /repo/src/header/sys_ioctl/redox/mod.rs 132-134). *)
Theorem C147_ptsname_r : forall m n name size text, name <> 0 -> 0 <= n -> terminal n text -> mapped m name size ->
  if size <? len text + 1 then ptsname_r m (inl n) name size = Ok (m, 34)
  else exists m', ptsname_r m (inl n) name size = Ok (m', 0) /\ stored m m' name (text ++ [0]).
Proof. exact ptsname_r_ok. Qed.
Print Assumptions C147_ptsname_r.
Theorem C147_ptsname_errors : forall m pty name size e, ptsname_r m pty 0 size = Ok (m, 22) /\ (name <> 0 -> ptsname_r m (inr e) name size = Ok (m, e)) /\
  (name <> 0 -> e <> 0 -> ptsname m (inr e) name = Ok (m, inr e)).
Proof.
  intros m pty name size e. split; [reflexivity|]. split; intro N; unfold ptsname, ptsname_r, NULL; destruct (Z.eqb_spec name 0); try contradiction; [reflexivity|].
  intro E. cbn [bind]. destruct (Z.eqb_spec e 0); [contradiction|reflexivity].
Qed.
Print Assumptions C147_ptsname_errors.
Lemma repeat_mapped n v a : mapped (mem_of a (repeat v n)) a (Z.of_nat n).
Proof.
  intros x X. unfold mem_of. destruct (Z.leb_spec a x); [|lia]. destruct (nth_error (repeat v n) (Z.to_nat (x - a))) eqn:N; [eauto|].
  apply nth_error_None in N. rewrite repeat_length in N. lia.
Qed.
Example C147_ptsname_r_case : terminal 7 [47; 115; 99; 104; 101; 109; 101; 47; 112; 116; 121; 47; 55] /\ ptsname_r (mem_of 100 (repeat 1 13)) (inl 7) 100 13 = Ok (mem_of 100 (repeat 1 13), 34) /\
  exists m', ptsname_r (mem_of 100 (repeat 1 14)) (inl 7) 100 14 = Ok (m', 0).
Proof.
  assert (T : terminal 7 [47; 115; 99; 104; 101; 109; 101; 47; 112; 116; 121; 47; 55]).
  { exists [7]. split; [|reflexivity]. split; [repeat constructor; lia|]. split; [reflexivity|]. split; [discriminate|]. intro H. discriminate H. }
  split; [exact T|]. split.
  - exact (C147_ptsname_r _ 7 100 13 _ ltac:(lia) ltac:(lia) T (repeat_mapped 13 1 100)).
  - destruct (C147_ptsname_r _ 7 100 14 _ ltac:(lia) ltac:(lia) T (repeat_mapped 14 1 100)) as (m' & E & _). exists m'. exact E.
Qed.
(* the buffer of ptsname is large enough for every terminal *)
Theorem C147_ptsname : forall m n buffer text, buffer <> 0 -> 0 <= n < 2 ^ 31 -> terminal n text -> mapped m buffer 32 ->
  exists m', ptsname m (inl n) buffer = Ok (m', inl buffer) /\ cstr m' buffer text.
Proof.
  intros m n b text B N T M. pose proof (ptsname_r_ok m n b 32 text B ltac:(lia) T M) as P. pose proof (terminal_len n text ltac:(lia) T).
  destruct (Z.ltb_spec 32 (len text + 1)); [lia|]. destruct P as (m' & E & S). exists m'. unfold ptsname, TTY_NAME_MAX. rewrite E.
  split; [reflexivity|]. split; [eapply terminal_chars; exact T|apply (proj1 S)].
Qed.
Print Assumptions C147_ptsname.
Example C147_ptsname_case : mapped (mem_of 100 (repeat 0 32)) 100 32 /\ 0 <= 2 ^ 31 - 1 < 2 ^ 31.
Proof. split; [exact (repeat_mapped 32 0 100)|lia]. Qed.

(* openpty, the name being had *)
Theorem C147_openpty_partial : forall fuel t m namep tmp n text master fm open, (23 <= fuel)%nat -> 0 <= n < 2 ^ 31 -> terminal n text ->
  let name := if namep =? 0 then tmp else namep in name <> 0 -> mapped m name 4096 -> t master = None ->
  exists t' m', openpty fuel t m namep tmp (inl (master, fm)) None (inl n) open =
      Ok (t', m', match open text with inl (s, _) => inl (master, s) | inr e => inr e end) /\ stored m m' name (text ++ [0]) /\
    match open text with
    | inl (s, fs) => t' = put (put t master (Some (fm, false))) s (Some (fs, false))
    | inr e => same t t'
    end.
Proof. exact openpty_ok. Qed.
Print Assumptions C147_openpty_partial.
Theorem C147_openpty_errors : forall fuel t m namep tmp pty open e master fm, t master = None ->
  openpty fuel t m namep tmp (inr e) None pty open = Ok (t, m, inr e) /\
  exists t', openpty fuel t m namep tmp (inl (master, fm)) (Some e) pty open = Ok (t', m, inr e) /\ same t t'.
Proof.
  intros fuel t m namep tmp pty open e master fm TM. split; [reflexivity|]. eexists. split; [reflexivity|]. intro k. unfold close.
  destruct (Z.eq_dec k master) as [->|K]; [rewrite put_same; symmetry; exact TM|]. rewrite !put_other by exact K. reflexivity.
Qed.
Print Assumptions C147_openpty_errors.
Example C147_openpty_case : exists t' m', openpty 23 (fun _ => None) (mem_of 100 (repeat 0 (Z.to_nat 4096))) 0 100 (inl (3, 30)) None (inl 7) (fun _ => inl (4, 31)) = Ok (t', m', inl (3, 4)) /\ t' 3 = Some (30, false) /\ t' 4 = Some (31, false).
Proof.
  destruct (C147_openpty_partial 23 (fun _ => None) (mem_of 100 (repeat 0 (Z.to_nat 4096))) 0 100 7 [47; 115; 99; 104; 101; 109; 101; 47; 112; 116; 121; 47; 55] 3 30 (fun _ => inl (4, 31))) as (t' & m' & E & _ & T).
  - constructor.
  - lia.
  - apply C147_ptsname_r_case.
  - cbn. lia.
  - pose proof (repeat_mapped (Z.to_nat 4096) 0 100) as R. rewrite Z2Nat.id in R by lia. exact R.
  - reflexivity.
  - exists t', m'. split; [exact E|]. cbn [Z.eqb] in T. rewrite T. split; reflexivity.
Qed.
(* ptsname_r's error is positive and goes unnoticed: what the caller's buffer happened to hold is opened as the slave *)
Theorem C147_name_refuted : forall fuel t m namep tmp master fm e path s fs open, 0 < e -> namep <> 0 -> cstr m namep path -> (length path < fuel)%nat -> open path = inl (s, fs) ->
  exists t', openpty fuel t m namep tmp (inl (master, fm)) None (inr e) open = Ok (t', m, inl (master, s)) /\ t' s = Some (fs, false).
Proof.
  intros fuel t m namep tmp master fm e path s fs open P N C F O. unfold openpty, openpty_inner, ptsname_r, NULL. destruct (Z.eqb_spec namep 0); [contradiction|]. cbn [negb].
  destruct (Z.eqb_spec namep 0); [contradiction|]. cbn [bind]. destruct (Z.ltb_spec e 0); [lia|]. rewrite (path_ok path fuel m namep C F). cbn [bind]. rewrite O.
  eexists. split; [reflexivity|apply put_same].
Qed.
Print Assumptions C147_name_refuted.
Example C147_name_case : cstr (mem_of 100 [47; 120; 0]) 100 [47; 120].
Proof. split; [repeat constructor; unfold is_char; lia|vm_compute; repeat split]. Qed.

(* login_tty *)
Theorem C147_login : forall t fd f c, t fd = Some (f, c) -> (fd <= 2 -> c = false) -> 0 <= fd ->
  let t' := fst (login_tty t fd None) in
  snd (login_tty t fd None) = None /\ t' 0 = Some (f, false) /\ t' 1 = Some (f, false) /\ t' 2 = Some (f, false) /\
  (2 < fd -> t' fd = None) /\ forall k, k <> 0 -> k <> 1 -> k <> 2 -> k <> fd -> t' k = t k.
Proof. exact login_ok. Qed.
Print Assumptions C147_login.

(* forkpty, for every table of the caller, with standard descriptors open or not *)
Theorem C147_forkpty_partial : forall t m s r w fm fs fr fw pipe fork sctty mk cn, lowest t m -> lowest (put t m (Some (fm, false))) s ->
  (pipe = inl (r, w, fr, fw) \/ exists e, pipe = inr e) ->
  lowest (put (put t m (Some (fm, false))) s (Some (fs, false))) r ->
  lowest (put (put (put t m (Some (fm, false))) s (Some (fs, false))) r (Some (fr, true))) w ->
  let p := Proc (put (put t m (Some (fm, false))) s (Some (fs, false))) mk cn in
  let '(parent, result, child) := forkpty p m s pipe fork sctty in
  mask parent = mk /\ cancel parent = cn /\
  match pipe, fork, sctty with
  | inl _, inl pid, None => result = inl pid /\ with_file t m fm (tb parent) /\
      exists c, child = Runs c /\ mask c = mk /\ cancel c = cn /\ on_terminal t fs (tb c)
  | inr e, _, _ | inl _, inr e, _ | inl _, inl _, Some e => result = inr e /\ same t (tb parent) /\ forall c, child <> Runs c
  end.
Proof. exact forkpty_ok. Qed.
Print Assumptions C147_forkpty_partial.
(* a caller with only 2 open: the numbers are 0, 1, 3 and 4 *)
Definition two : tab := fun k => if k =? 2 then Some (12, false) else None.
Example C147_forkpty_case : lowest two 0 /\ lowest (put two 0 (Some (30, false))) 1 /\ lowest (put (put two 0 (Some (30, false))) 1 (Some (31, false))) 3 /\
  lowest (put (put (put two 0 (Some (30, false))) 1 (Some (31, false))) 3 (Some (40, true))) 4 /\
  match forkpty (Proc (put (put two 0 (Some (30, false))) 1 (Some (31, false))) (Some 5) true) 0 1 (inl (3, 4, 40, 41)) (inl 77) None with
  | (parent, inl 77, Runs c) => tb parent 0 = Some (30, false) /\ tb parent 1 = None /\ tb c 0 = Some (31, false) /\ tb c 2 = Some (31, false) /\ tb c 3 = None
  | _ => False
  end.
Proof.
  assert (L : forall t n, 0 <= n <= 4 -> t n = None -> (0 < n -> t 0 <> None) -> (1 < n -> t 1 <> None) -> (2 < n -> t 2 <> None) -> (3 < n -> t 3 <> None) -> lowest t n).
  { intros t n N E A0 A1 A2 A3. split; [lia|]. split; [exact E|]. intros k K. assert (k = 0 \/ k = 1 \/ k = 2 \/ k = 3) as [->|[->|[->| ->]]] by lia; [apply A0|apply A1|apply A2|apply A3]; lia. }
  split; [apply L; try lia; try reflexivity; discriminate|]. split; [apply L; try lia; try reflexivity; discriminate|].
  split; [apply L; try lia; try reflexivity; discriminate|]. split; [apply L; try lia; try reflexivity; discriminate|]. vm_compute. repeat split.
Qed.
