(* Pseudo-terminals: proofs. *)
From Verif Require Import Base Sort_model Sort_proofs Word_mem Numeral Ctype_spec Popen_model Popen_spec Popen_proofs Pty_model Pty_spec.

Lemma display_ok n : 0 <= n -> exists ds, numeral 10 ds n /\ display n = map (Z.add 48) ds.
Proof. intro N. exists (to_digits 10 n). split; [apply to_digits_numeral; lia|]. unfold display. destruct (Z.ltb_spec n 0); [lia|reflexivity]. Qed.
Lemma terminal_ok n : 0 <= n -> terminal n (prefix ++ display n).
Proof. intro N. destruct (display_ok n N) as (ds & D & E). exists ds. split; [exact D|]. rewrite E. reflexivity. Qed.
Lemma terminal_fun n a b : terminal n a -> terminal n b -> a = b.
Proof. intros (x & X & ->) (y & Y & ->). rewrite (numeral_inj 10 x y n ltac:(lia) X Y). reflexivity. Qed.
Lemma terminal_chars n a : terminal n a -> Forall is_char a.
Proof.
  intros (ds & (D & _) & ->). apply Forall_app. split.
  - vm_compute codes. repeat constructor; unfold is_char; lia.
  - apply Forall_forall. intros x X. apply in_map_iff in X. destruct X as (d & <- & I0). rewrite Forall_forall in D. specialize (D d I0). unfold is_char. lia.
Qed.
Lemma terminal_len n a : n < 2 ^ 31 -> terminal n a -> len a <= 22.
Proof.
  intros N (ds & D & ->). rewrite len_app. assert (L : len ds <= 10) by (apply (numeral_len 10 ds n 10); [lia|exact D|lia|lia]).
  replace (len (map (Z.add 48) ds)) with (len ds) by (unfold len; rewrite map_length; reflexivity). change (len (codes _)) with 12. lia.
Qed.

Lemma ptsname_r_ok m n name size text : name <> 0 -> 0 <= n -> terminal n text -> mapped m name size ->
  if size <? len text + 1 then ptsname_r m (inl n) name size = Ok (m, 34)
  else exists m', ptsname_r m (inl n) name size = Ok (m', 0) /\ stored m m' name (text ++ [0]).
Proof.
  intros NZ N T M. unfold ptsname_r, NULL. destruct (Z.eqb_spec name 0); [contradiction|]. cbv zeta. rewrite (terminal_fun n _ _ (terminal_ok n N) T).
  destruct (Z.ltb_spec size (len text + 1)); [reflexivity|].
  destruct (st_bytes_ok text m name) as (m1 & E1 & S1); [eapply mapped_sub; [exact M|lia|lia]|]. rewrite E1. cbn [bind].
  assert (M1 : mapped m1 name size) by (eapply stored_mapped; eassumption). pose proof (len_nonneg text).
  rewrite st_ok by (apply M1; lia). cbn [bind]. eexists. split; [reflexivity|]. eapply stored_snoc; [exact S1|reflexivity].
Qed.

Lemma path_ok : forall s fuel m p, cstr m p s -> (length s < fuel)%nat -> path_at fuel m p = Ok s.
Proof.
  induction s as [|c s IH]; intros fuel m p C F; (destruct fuel as [|fuel]; [inversion F|]); cbn [path_at]; unfold ld.
  - apply cstr_nil in C. rewrite C. reflexivity.
  - apply cstr_cons in C. destruct C as (IC & E & C). rewrite E. cbn [bind]. unfold is_char in IC. destruct (Z.eqb_spec c 0); [lia|].
    rewrite (IH fuel m (p + 1) C ltac:(cbn in F; lia)). reflexivity.
Qed.

Definition text_of (n : Z) : list Z := prefix ++ display n.
Lemma openpty_ok fuel t m namep tmp n text master fm open : (23 <= fuel)%nat -> 0 <= n < 2 ^ 31 -> terminal n text ->
  let name := if namep =? 0 then tmp else namep in name <> 0 -> mapped m name 4096 -> t master = None ->
  exists t' m', openpty fuel t m namep tmp (inl (master, fm)) None (inl n) open =
      Ok (t', m', match open text with inl (s, _) => inl (master, s) | inr e => inr e end) /\ stored m m' name (text ++ [0]) /\
    match open text with
    | inl (s, fs) => t' = put (put t master (Some (fm, false))) s (Some (fs, false))
    | inr e => same t t'
    end.
Proof.
  intros F N T name NZ M TM. unfold openpty, NULL. replace (if negb (namep =? 0) then namep else tmp) with name by (unfold name; destruct (namep =? 0); reflexivity).
  unfold openpty_inner. cbv zeta. pose proof (ptsname_r_ok m n name PATH_MAX text NZ ltac:(lia) T M) as P.
  pose proof (terminal_len n text ltac:(lia) T) as L. destruct (Z.ltb_spec PATH_MAX (len text + 1)) as [X|X]; [unfold PATH_MAX in X; lia|].
  destruct P as (m' & E & S). rewrite E. cbn [bind]. change (0 <? 0) with false. cbn iota.
  assert (C : cstr m' name text) by (split; [eapply terminal_chars; exact T|apply (proj1 S)]).
  rewrite (path_ok text fuel m' name C) by (unfold len in L; lia). cbn [bind].
  destruct (open text) as [[s fs]|e]; (eexists; exists m'; split; [reflexivity|split; [exact S|]]); [reflexivity|].
  intro k. unfold close. destruct (Z.eq_dec k master) as [->|K]; [rewrite put_same; symmetry; exact TM|]. rewrite !put_other by exact K. reflexivity.
Qed.

Lemma four_ok t m s r w fm fs fr : lowest t m -> lowest (put t m (Some (fm, false))) s -> lowest (put (put t m (Some (fm, false))) s (Some (fs, false))) r ->
  lowest (put (put (put t m (Some (fm, false))) s (Some (fs, false))) r (Some (fr, true))) w ->
  NoDup [m; s; r; w] /\ t m = None /\ t s = None /\ t r = None /\ t w = None /\ 2 < w.
Proof.
  intros (A1 & A2 & A3) (B1 & B2 & B3) (C1 & C2 & C3) (D1 & D2 & D3).
  assert (SM : s <> m) by (intros ->; rewrite put_same in B2; discriminate B2). rewrite put_other in B2 by exact SM.
  assert (RS : r <> s) by (intros ->; rewrite put_same in C2; discriminate C2). rewrite put_other in C2 by exact RS.
  assert (RM : r <> m) by (intros ->; rewrite put_same in C2; discriminate C2). rewrite put_other in C2 by exact RM.
  assert (WR : w <> r) by (intros ->; rewrite put_same in D2; discriminate D2). rewrite put_other in D2 by exact WR.
  assert (WS : w <> s) by (intros ->; rewrite put_same in D2; discriminate D2). rewrite put_other in D2 by exact WS.
  assert (WM : w <> m) by (intros ->; rewrite put_same in D2; discriminate D2). rewrite put_other in D2 by exact WM.
  assert (MW : m < w). { destruct (Z.lt_ge_cases m w); [assumption|]. exfalso. apply (A3 w); [lia|exact D2]. }
  assert (SW : s < w). { destruct (Z.lt_ge_cases s w); [assumption|]. exfalso. apply (B3 w); [lia|]. rewrite put_other by lia. exact D2. }
  assert (RW : r < w). { destruct (Z.lt_ge_cases r w); [assumption|]. exfalso. apply (C3 w); [lia|]. rewrite !put_other by lia. exact D2. }
  split; [|repeat split; try assumption; lia].
  constructor; [cbn; intuition lia|]. constructor; [cbn; intuition lia|]. constructor; [cbn; intuition lia|]. constructor; [cbn; tauto|constructor].
Qed.

Lemma login_ok t fd f c : t fd = Some (f, c) -> (fd <= 2 -> c = false) -> 0 <= fd ->
  let t' := fst (login_tty t fd None) in
  snd (login_tty t fd None) = None /\ t' 0 = Some (f, false) /\ t' 1 = Some (f, false) /\ t' 2 = Some (f, false) /\
  (2 < fd -> t' fd = None) /\ forall k, k <> 0 -> k <> 1 -> k <> 2 -> k <> fd -> t' k = t k.
Proof.
  intros E C0 P. cbn [login_tty fst snd].
  assert (D : forall u b, u fd = Some (f, c) -> b <= 2 -> 0 <= b -> dup2' u fd b fd = Some (f, c) /\ dup2' u fd b b = Some (f, false) /\ forall k, k <> b -> dup2' u fd b k = u k).
  { intros u b U B B0. unfold dup2', dup2. rewrite U. destruct (Z.eqb_spec fd b) as [->|N].
    - split; [exact U|]. split; [rewrite U, C0 by lia; reflexivity|reflexivity].
    - rewrite put_same. split; [rewrite put_other by exact N; exact U|]. split; [reflexivity|]. intros k K. apply put_other. exact K. }
  destruct (D t 0 E ltac:(lia) ltac:(lia)) as (A1 & A2 & A3). set (t1 := dup2' t fd 0) in *.
  destruct (D t1 1 A1 ltac:(lia) ltac:(lia)) as (B1 & B2 & B3). set (t2 := dup2' t1 fd 1) in *.
  destruct (D t2 2 B1 ltac:(lia) ltac:(lia)) as (F1 & F2 & F3). set (t3 := dup2' t2 fd 2) in *.
  assert (G0 : t3 0 = Some (f, false)) by (rewrite F3, B3 by lia; exact A2).
  assert (G1 : t3 1 = Some (f, false)) by (rewrite F3 by lia; exact B2).
  assert (GK : forall k, k <> 0 -> k <> 1 -> k <> 2 -> t3 k = t k) by (intros k K0 K1 K2; rewrite F3, B3, A3 by assumption; reflexivity).
  split; [reflexivity|]. destruct (Z.ltb_spec 2 fd).
  - unfold close. rewrite !(put_other _ fd) by lia. repeat split; try assumption; [intros _; apply put_same|]. intros k K0 K1 K2 K3. rewrite put_other by exact K3. auto.
  - repeat split; try assumption; [intro; lia|]. intros; auto.
Qed.

Lemma forkpty_ok t m s r w fm fs fr fw pipe fork sctty mk cn : lowest t m -> lowest (put t m (Some (fm, false))) s ->
  (pipe = inl (r, w, fr, fw) \/ exists e, pipe = inr e) ->
  lowest (put (put t m (Some (fm, false))) s (Some (fs, false))) r ->
  lowest (put (put (put t m (Some (fm, false))) s (Some (fs, false))) r (Some (fr, true))) w ->
  let p := Proc (put (put t m (Some (fm, false))) s (Some (fs, false))) mk cn in
  let '(parent, result, child) := forkpty p m s pipe fork sctty in
  mask parent = mk /\ cancel parent = cn /\
  match pipe, fork, sctty with
  | inl _, inl pid, None => result = inl pid /\ with_file t m fm (tb parent) /\
      exists c, child = Runs c /\ mask c = mk /\ cancel c = cn /\ on_terminal t fs (tb c)
  | inr e, _, _ | inl _, inr e, _ | inl _, inl _, Some e => result = inr e /\ same t (tb parent) /\ forall c, child <> Runs c
  end.
Proof.
  intros L1 L2 PI L3 L4 p. destruct (four_ok t m s r w fm fs fr L1 L2 L3 L4) as (ND & TM & TS & TR & TW & W2).
  assert (N : m <> s /\ m <> r /\ m <> w /\ s <> r /\ s <> w /\ r <> w).
  { inversion ND as [|? ? H1 N1]; subst. inversion N1 as [|? ? H2 N2]; subst. inversion N2 as [|? ? H3 N3]; subst. cbn in H1, H2, H3. repeat split; intro; subst; tauto. }
  destruct N as (N1 & N2 & N3 & N4 & N5 & N6).
  assert (CL : forall (t2 : tab), same t (close (close (close (close t2 s) w) r) m) <-> (forall k, k <> m -> k <> s -> k <> r -> k <> w -> t2 k = t k)).
  { intro t2. unfold same, close. split.
    - intros H k K1 K2 K3 K4. specialize (H k). rewrite !put_other in H by assumption. exact H.
    - intros H k. destruct (Z.eq_dec k m) as [->|K1]; [rewrite put_same; auto|rewrite (put_other _ m) by exact K1].
      destruct (Z.eq_dec k r) as [->|K2]; [rewrite put_same; auto|rewrite (put_other _ r) by exact K2].
      destruct (Z.eq_dec k w) as [->|K3]; [rewrite put_same; auto|rewrite (put_other _ w) by exact K3].
      destruct (Z.eq_dec k s) as [->|K4]; [rewrite put_same; auto|rewrite (put_other _ s) by exact K4]. auto. }
  unfold forkpty. destruct PI as [->|[e ->]]; cbv zeta.
  - set (t2 := put (put (tb p) r (Some (fr, true))) w (Some (fw, true))).
    assert (T2 : forall k, k <> m -> k <> s -> k <> r -> k <> w -> t2 k = t k) by (intros k K1 K2 K3 K4; unfold t2, p; cbn [tb]; rewrite !put_other by assumption; reflexivity).
    destruct fork as [pid|e]; [|split; [reflexivity|]; split; [reflexivity|]; split; [reflexivity|]; split; [cbn [tb]; apply CL; exact T2|discriminate]].
    destruct sctty as [e|].
    { cbn [login_tty]. split; [reflexivity|]. split; [reflexivity|]. split; [reflexivity|]. split; [cbn [tb]; apply CL; exact T2|discriminate]. }
    assert (US : close (close t2 m) r s = Some (fs, false)) by (unfold close, t2, p; cbn [tb]; rewrite (put_other _ r), (put_other _ m), (put_other _ w), (put_other _ r) by lia; apply put_same).
    destruct (login_ok (close (close t2 m) r) s fs false US ltac:(reflexivity) (proj1 L2)) as (E & G0 & G1 & G2 & G3 & G4).
    destruct (login_tty (close (close t2 m) r) s None) as [c x]. cbn [fst snd] in *. subst x.
    split; [reflexivity|]. split; [reflexivity|]. split; [reflexivity|]. split.
    + cbn [tb]. unfold with_file, close. split.
      * rewrite (put_other _ r), (put_other _ w), (put_other _ s) by lia. unfold t2, p. cbn [tb]. rewrite (put_other _ w), (put_other _ r), (put_other _ s) by lia. apply put_same.
      * intros k K. assert (CK := proj2 (CL t2) T2 k). unfold close in CK. rewrite (put_other _ m) in CK by exact K. exact CK.
    + eexists. split; [reflexivity|]. split; [reflexivity|]. split; [reflexivity|]. cbn [tb]. unfold on_terminal, close. rewrite !(put_other _ w) by lia.
      split; [exact G0|]. split; [exact G1|]. split; [exact G2|]. intros k K0 K1 K2. destruct (Z.eq_dec k w) as [->|KW]; [rewrite put_same; auto|rewrite put_other by exact KW].
      destruct (Z.eq_dec k s) as [->|KS]; [rewrite G3 by (pose proof (proj1 L2); lia); auto|]. rewrite G4 by assumption. unfold close.
      destruct (Z.eq_dec k r) as [->|KR]; [rewrite put_same; auto|rewrite put_other by exact KR].
      destruct (Z.eq_dec k m) as [->|KM]; [rewrite put_same; auto|rewrite put_other by exact KM]. apply T2; assumption.
  - split; [reflexivity|]. split; [reflexivity|]. split; [reflexivity|]. split; [|discriminate]. cbn [tb]. intro k. unfold close, p. cbn [tb].
    destruct (Z.eq_dec k m) as [->|K1]; [rewrite put_same; auto|rewrite (put_other _ m) by exact K1].
    destruct (Z.eq_dec k s) as [->|K4]; [rewrite put_same; auto|rewrite !(put_other _ s) by exact K4]. rewrite put_other by exact K1. reflexivity.
Qed.
