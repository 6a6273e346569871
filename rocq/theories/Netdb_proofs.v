(* Proofs about the files of netdb. *)
From Coq Require Import ZArith List Bool Lia Arith.
From Verif Require Import Base Word_mem Numeral Inet_spec Inet_model Inet_proofs Dns_model Netdb_spec Netdb_model.
Import ListNotations.
Open Scope Z_scope.

Lemma position_none : forall l, ~ In 10 l -> position 10 l = None.
Proof.
  induction l as [|x l IH]; intros N; [reflexivity|]. cbn. replace (x =? 10) with false.
  - rewrite IH; [reflexivity|]. intros I. apply N. right. exact I.
  - symmetry. apply Z.eqb_neq. intros ->. apply N. left. reflexivity.
Qed.
Lemma position_some : forall l t, ~ In 10 l -> position 10 (l ++ 10 :: t) = Some (length l).
Proof.
  induction l as [|x l IH]; intros t N; [reflexivity|]. cbn. replace (x =? 10) with false.
  - rewrite IH; [reflexivity|]. intros I. apply N. right. exact I.
  - symmetry. apply Z.eqb_neq. intros ->. apply N. left. reflexivity.
Qed.
Lemma firstn_ext : forall (s : list Z) a k, firstn a s ++ firstn k (skipn a s) = firstn (a + length (firstn k (skipn a s))) s \/ (length s < a)%nat.
Proof.
  intros s a k. destruct (le_lt_dec a (length s)) as [L|L]; [left|right; exact L].
  assert (H : forall u v : list Z, u ++ firstn k v = firstn (length u + length (firstn k v)) (u ++ v)).
  { intros u v. rewrite firstn_app, (firstn_all2 u) by lia. f_equal.
    replace (length u + length (firstn k v) - length u)%nat with (length (firstn k v)) by lia. rewrite firstn_length.
    destruct (Nat.min_spec k (length v)) as [(A & B)|(A & B)]; rewrite B; [reflexivity|]. rewrite !firstn_all2 by lia. reflexivity. }
  specialize (H (firstn a s) (skipn a s)). rewrite firstn_length_le, firstn_skipn in H by exact L. exact H.
Qed.
Lemma skipn_skipn' : forall a b (l : list Z), skipn a (skipn b l) = skipn (b + a) l.
Proof. intros a b. induction b as [|b IH]; intros l; [reflexivity|]. destruct l; [rewrite !skipn_nil; reflexivity|]. apply IH. Qed.

Section File.
Variable file : list Z.
Variable chunk : rlb -> nat.

Definition inner (b : rlb) (p : nat) : Prop :=
  buf b = firstn (off b - p) (skipn p file) /\ (p <= off b <= length file)%nat /\ got b = off b.
Definition wf (b : rlb) (p : nat) : Prop :=
  match newline b with None => inner b p | Some n => exists q, inner b q /\ p = (q + S n)%nat /\ (p <= off b)%nat end.
Lemma inner_len : forall b p, inner b p -> length (buf b) = (off b - p)%nat.
Proof. intros b p (B & L & G). rewrite B, firstn_length, skipn_length. lia. Qed.
Lemma fill_ok : forall f b p, inner b p -> (length file - off b < f)%nat ->
  (skipn p file = [] -> exists b', fill file chunk f b = Ok (Eof, b') /\ wf b' p /\ line_pos b' = p) /\
  (forall l r, skipn p file = l ++ 10 :: r -> ~ In 10 l -> exists b', fill file chunk f b = Ok (Line l, b') /\ wf b' (p + S (length l)) /\ line_pos b' = p).
Proof.
  induction f as [|f IH]; intros b p I F; [lia|]. pose proof (inner_len _ _ I) as BL. pose proof I as (B & L & G). split.
  - intros E. assert (p = length file).
    { assert (length (skipn p file) = 0%nat) by (rewrite E; reflexivity). rewrite skipn_length in H. lia. }
    assert (BE : buf b = []) by (rewrite B, E, firstn_nil; reflexivity).
    cbn [fill]. rewrite BE. cbn [position]. replace (off b) with p by lia. rewrite E, firstn_nil. eexists. split; [reflexivity|].
    split.
    + cbn. repeat split; cbn [off buf newline got]; try lia. rewrite E, firstn_nil. reflexivity.
    + unfold line_pos. cbn. lia.
  - intros l r E N. cbn [fill].
    assert (SL : (p + S (length l) <= length file)%nat).
    { assert (length (skipn p file) = length (l ++ 10 :: r)) by (rewrite E; reflexivity). rewrite skipn_length, app_length in H. cbn in H. lia. }
    destruct (le_lt_dec (off b - p) (length l)) as [C|C].
    + rewrite position_none.
      2:{ rewrite B, E, firstn_app. replace (off b - p - length l)%nat with 0%nat by lia. cbn [firstn]. rewrite app_nil_r.
          intros X. apply N. rewrite <- (firstn_skipn (off b - p) l). apply in_or_app. left. exact X. }
      set (g := firstn (S (chunk b)) (skipn (off b) file)).
      assert (GL : (1 <= length g)%nat) by (unfold g; rewrite firstn_length, skipn_length; lia).
      assert (GU : (off b + length g <= length file)%nat) by (unfold g; rewrite firstn_length, skipn_length; lia).
      assert (M : forall (A : Type) (x y : A), match g with [] => x | _ => y end = y) by (intros; destruct g; [cbn in GL; lia|reflexivity]).
      rewrite M.
      assert (I' : inner (Rlb (off b + length g) (buf b ++ g) None (got b + length g)) p).
      { repeat split; cbn [off buf newline got]; try lia. rewrite B. assert (SK : skipn (off b) file = skipn (off b - p) (skipn p file)).
        { rewrite skipn_skipn'. f_equal. lia. }
        destruct (firstn_ext (skipn p file) (off b - p) (S (chunk b))) as [X|X].
        - rewrite <- SK in X. fold g in X. rewrite X. f_equal. lia.
        - rewrite skipn_length in X. lia. }
      specialize (IH _ _ I'). cbn [off] in IH. destruct (IH ltac:(lia)) as (_ & IH2). exact (IH2 l r E N).
    + assert (BB : exists t, buf b = l ++ 10 :: t).
      { rewrite B, E, firstn_app. rewrite firstn_all2 by lia. destruct (off b - p - length l)%nat as [|k] eqn:K; [lia|]. cbn [firstn]. eauto. }
      destruct BB as (t & BB). rewrite BB, (position_some _ _ N).
      replace (firstn (length l) (l ++ 10 :: t)) with l by (rewrite firstn_app, firstn_all, Nat.sub_diag; cbn; rewrite app_nil_r; reflexivity). eexists. split; [reflexivity|]. split.
      * cbn. exists p. split; [|split; [reflexivity|]].
        -- repeat split; cbn [off buf newline got]; try lia. rewrite <- BB. exact B.
        -- assert (length (buf b) = length (l ++ 10 :: t)) by (rewrite BB; reflexivity). rewrite app_length in H. cbn in H. lia.
      * unfold line_pos. cbn. rewrite <- BB. lia.
  Qed.
Lemma next_ok : forall b p, wf b p ->
  (skipn p file = [] -> exists b', next file chunk b = Ok (Eof, b') /\ wf b' p /\ line_pos b' = p) /\
  (forall l r, skipn p file = l ++ 10 :: r -> ~ In 10 l -> exists b', next file chunk b = Ok (Line l, b') /\ wf b' (p + S (length l)) /\ line_pos b' = p).
Proof.
  intros b p W. unfold next. apply fill_ok.
  - unfold wf in W. destruct (newline b) as [n|] eqn:EN; [|exact W]. destruct W as (q & (B & L & G) & -> & PL).
    repeat split; cbn [off buf newline got]; try lia. rewrite B. rewrite skipn_firstn_comm, skipn_skipn'. f_equal. lia.
  - destruct (newline b); cbn; lia.
Qed.

(* one database *)
Variables (E S0 : Type) (parse_line : list Z -> step E) (conv : S0 -> E) (line : list Z -> option S0 -> Prop).
Hypothesis Hskip : forall l, line l None -> parse_line l = Skip.
Hypothesis Hentry : forall l e, line l (Some e) -> parse_line l = Entry (conv e).
Variables (fd none : Z) (shut : Z -> bool) (rewinds closes : bool).
Hypothesis Hfd : 0 <= fd.
Hypothesis Hshut : shut fd = false.
Hypothesis Hnone : shut none = true.

Lemma complete_rest : forall (l r : list Z), complete (l ++ 10 :: r) -> complete r.
Proof.
  intros l r [H|(a & H)]; [destruct l; discriminate|]. destruct r as [|x r]; [left; reflexivity|].
  right. destruct (exists_last (l := x :: r) ltac:(discriminate)) as (r' & y & R). rewrite R in *.
  replace (l ++ 10 :: r' ++ [y]) with ((l ++ 10 :: r') ++ [y]) in H by (rewrite <- app_assoc; reflexivity).
  apply app_inj_tail in H. destruct H as (_ & ->). exists r'. reflexivity.
Qed.
Lemma complete_last : forall l, complete l -> l <> [] -> ~ In 10 l -> False.
Proof. intros l [->|(a & ->)] N I; [congruence|]. apply I, in_or_app. right. left. reflexivity. Qed.
Definition here (p : nat) (es : list S0) : Prop := (p <= length file)%nat /\ database line (skipn p file) es /\ complete (skipn p file).
Lemma here_pos : forall s es b p, s = skipn p file -> database line s es -> complete s -> wf b p ->
  exists x b', next file chunk b = Ok (x, b') /\ line_pos b' = p.
Proof.
  intros s es b p Es D C W. destruct (next_ok b p W) as (N1 & N2). destruct D as [|l r es NI L D|l e r es NI L D|l o NE NI L].
  - destruct (N1 (eq_sym Es)) as (b' & N & _ & P). eauto.
  - destruct (N2 l r (eq_sym Es) NI) as (b' & N & _ & P). eauto.
  - destruct (N2 l r (eq_sym Es) NI) as (b' & N & _ & P). eauto.
  - exfalso. eapply complete_last; eassumption.
Qed.
Lemma scan_ok : forall s es, database line s es -> complete s -> forall b p f, s = skipn p file -> (p <= length file)%nat -> wf b p -> (length s < f)%nat ->
  match es with
  | [] => scan file chunk E parse_line f b = Ok None
  | e :: r => exists p', scan file chunk E parse_line f b = Ok (Some (conv e, p')) /\ here p' r
  end.
Proof.
  intros s es D. induction D as [|l r es NI L D IH|l e r es NI L D IH|l o NE NI L]; intros C b p f Es PL W F; (destruct f as [|f]; [lia|]); cbn [scan].
  - destruct (proj1 (next_ok b p W) (eq_sym Es)) as (b' & N & _). rewrite N. reflexivity.
  - destruct (proj2 (next_ok b p W) l r (eq_sym Es) NI) as (b' & N & W' & _). rewrite N. cbn [bind]. rewrite (Hskip _ L).
    rewrite app_length in F. cbn in F. apply IH with (p := (p + S (length l))%nat).
    + eapply complete_rest; eassumption.
    + rewrite <- skipn_skipn', <- Es. rewrite skipn_app, skipn_all2 by lia. replace (S (length l) - length l)%nat with 1%nat by lia. reflexivity.
    + assert (length (skipn p file) = length (l ++ 10 :: r)) by (rewrite <- Es; reflexivity). rewrite skipn_length, app_length in H. cbn in H. lia.
    + exact W'.
    + lia.
  - destruct (proj2 (next_ok b p W) l r (eq_sym Es) NI) as (b' & N & W' & _). rewrite N. cbn [bind]. rewrite (Hentry _ _ L).
    assert (C' := complete_rest _ _ C).
    assert (Er : r = skipn (p + S (length l)) file).
    { rewrite <- skipn_skipn', <- Es. rewrite skipn_app, skipn_all2 by lia. replace (S (length l) - length l)%nat with 1%nat by lia. reflexivity. }
    destruct (here_pos r es b' _ Er D C' W') as (x & b'' & N' & P). rewrite N'. cbn [bind]. rewrite P. eexists. split; [reflexivity|].
    split; [|rewrite <- Er; split; assumption].
    assert (length (skipn p file) = length (l ++ 10 :: r)) by (rewrite <- Es; reflexivity). rewrite skipn_length, app_length in H. cbn in H. lia.
  - exfalso. eapply complete_last; eassumption.
Qed.

Definition good (s : state) : Prop := shut (db s) = true \/ db s = fd.
Notation getent := (getent file chunk E parse_line fd shut none closes).
Lemma getent_ok : forall f s es, good s -> here (pos s) es -> (length file < f)%nat ->
  exists s', getent f s = Ok (hd_error (map conv es), s') /\ good s' /\ here (pos s') (tl es) /\ stay s' = stay s /\
    (closes = true -> stay s = false -> shut (db s') = true).
Proof.
  intros f s es G (PL & D & C) F. unfold Netdb_model.getent.
  set (s1 := if shut (db s) then St fd (pos s) (stay s) (closed s) else s).
  assert (S1 : db s1 = fd /\ pos s1 = pos s /\ stay s1 = stay s).
  { subst s1. destruct G as [G|G].
    - rewrite G. repeat split.
    - rewrite G, Hshut. repeat split. exact G. }
  destruct S1 as (S1 & S2 & S3). replace (db s1 <? 0) with false by (rewrite S1; lia).
  assert (W : wf (Rlb (pos s1) [] None (pos s1)) (pos s)).
  { rewrite S2. cbn. repeat split; cbn [off buf newline got]; try lia. rewrite Nat.sub_diag. reflexivity. }
  pose proof (scan_ok _ _ D C _ _ f eq_refl PL W ltac:(rewrite skipn_length; lia)) as H. destruct es as [|e es].
  - rewrite H. cbn [bind map hd_error tl]. eexists. split; [reflexivity|]. destruct (stay s1) eqn:ST.
    + split; [right; exact S1|]. split; [rewrite S2; split; [exact PL|split; assumption]|]. split; [congruence|]. intros. congruence.
    + split; [left; exact Hnone|]. split; [cbn; rewrite S2; split; [exact PL|split; assumption]|]. split; [cbn; congruence|]. intros. exact Hnone.
  - destruct H as (p' & H & HP). rewrite H. cbn [bind map hd_error tl]. eexists. split; [reflexivity|]. cbn [stay].
    destruct closes; destruct (stay s1) eqn:ST.
    + split; [right; exact S1|]. split; [exact HP|]. split; [cbn; congruence|]. intros. congruence.
    + split; [left; exact Hnone|]. split; [exact HP|]. split; [cbn; congruence|]. intros. exact Hnone.
    + split; [right; exact S1|]. split; [exact HP|]. split; [cbn; congruence|]. intros. congruence.
    + split; [right; exact S1|]. split; [exact HP|]. split; [cbn; congruence|]. intros. congruence.
Qed.
Lemma calls_ok : forall n f s es, good s -> here (pos s) es -> (length file < f)%nat ->
  exists s', calls file chunk E parse_line fd shut none closes f n s = Ok (map (nth_error (map conv es)) (seq 0 n), s').
Proof.
  induction n as [|n IH]; intros f s es G H F.
  - exists s. reflexivity.
  - destruct (getent_ok f s es G H F) as (s' & K & G' & H' & _). cbn [calls]. rewrite K. cbn [bind].
    destruct (IH f s' (tl es) G' H' F) as (s'' & K'). rewrite K'. cbn [bind]. exists s''.
    assert (X : map (nth_error (map conv es)) (seq 0 (S n)) = hd_error (map conv es) :: map (nth_error (map conv (tl es))) (seq 0 n)).
    { cbn [seq map]. rewrite <- seq_shift, map_map. destruct es as [|e es]; cbn [map hd_error tl nth_error]; f_equal.
      apply map_ext. intros k. destruct k; reflexivity. }
    rewrite X. reflexivity.
Qed.
Notation setent := (setent fd shut rewinds).
Notation find_loop := (find_loop file chunk E parse_line fd shut none rewinds closes).
Lemma setent_good : forall k s, good s -> db (setent k s) = fd.
Proof. intros k s [G|G]; unfold Netdb_model.setent; [rewrite G; reflexivity|]. rewrite G, Hshut. reflexivity. Qed.
Lemma find_loop_ok : forall es f hit again fin s, good s -> here (pos s) es -> (length file + length es < f)%nat ->
  again = false \/ (stay s = false /\ rewinds = false /\ closes = true) ->
  exists s', find_loop f hit again fin s = Ok (find hit (map conv es), s') /\ good s' /\ stay s' = stay s /\
    (fin = true \/ find hit (map conv es) <> None -> db s' = fd).
Proof.
  induction es as [|e es IH]; intros f hit again fin s G H F A; (destruct f as [|f]; [lia|]); cbn [Netdb_model.find_loop].
  - destruct (getent_ok (S f) s [] G H ltac:(lia)) as (s' & K & G' & _ & ST & _). rewrite K. cbn [bind map hd_error find].
    destruct fin.
    + eexists. split; [reflexivity|]. pose proof (setent_good (stay s') s' G') as DB. split; [right; exact DB|]. split; [|intros; exact DB].
      unfold Netdb_model.setent. destruct (shut (db s')); exact ST.
    + exists s'. split; [reflexivity|]. split; [exact G'|]. split; [exact ST|]. intros [X|X]; [discriminate|congruence].
  - cbn [length] in F. destruct (getent_ok (S f) s (e :: es) G H ltac:(lia)) as (s' & K & G' & H' & ST & CL). rewrite K. cbn [bind map hd_error find tl] in *.
    destruct (hit (conv e)).
    + eexists. split; [reflexivity|]. pose proof (setent_good (stay s') s' G') as DB. split; [right; exact DB|]. split; [|intros; exact DB].
      unfold Netdb_model.setent. destruct (shut (db s')); exact ST.
    + destruct again.
      * destruct A as [A|(A1 & A2 & A3)]; [discriminate|].
        assert (X : setent (stay s') s' = St fd (pos s') (stay s') (closed s')).
        { unfold Netdb_model.setent. rewrite (CL A3 A1), A2. reflexivity. }
        rewrite X. destruct (IH f hit true fin (St fd (pos s') (stay s') (closed s'))) as (s'' & Y & Z1 & Z2 & Z3).
        -- right. reflexivity.
        -- exact H'.
        -- lia.
        -- right. cbn. rewrite ST. auto.
        -- exists s''. split; [exact Y|]. split; [exact Z1|]. split; [cbn in Z2; congruence|exact Z3].
      * destruct (IH f hit false fin s' G' H' ltac:(lia) ltac:(left; reflexivity)) as (s'' & Y & Z1 & Z2 & Z3).
        exists s''. split; [exact Y|]. split; [exact Z1|]. split; [congruence|exact Z3].
Qed.
(* from a state in which set...ent rewinds *)
Definition ready (s : state) : Prop := db s = fd \/ (shut (db s) = true /\ (rewinds = true \/ pos s = 0%nat)).
Lemma find_ent_ok : forall es hit again fin s, ready s -> database line file es -> complete file ->
  again = false \/ (stay s = false /\ rewinds = false /\ closes = true) ->
  exists f0, forall f, (f0 <= f)%nat -> exists s', find_ent file chunk E parse_line fd shut none rewinds closes f hit again fin s = Ok (find hit (map conv es), s') /\
    stay s' = stay s /\ good s' /\ (fin = true \/ find hit (map conv es) <> None -> db s' = fd).
Proof.
  intros es hit again fin s R D C A. exists (S (length file + length es)). intros f F. unfold find_ent.
  assert (X : setent (stay s) s = St fd 0 (stay s) (closed s)).
  { unfold Netdb_model.setent. destruct R as [R|(R1 & [R2|R2])].
    - rewrite R, Hshut. reflexivity.
    - rewrite R1, R2. reflexivity.
    - rewrite R1, R2. destruct rewinds; reflexivity. }
  rewrite X. destruct (find_loop_ok es f hit again fin (St fd 0 (stay s) (closed s))) as (s' & Y & Z1 & Z2 & Z3).
  - right. reflexivity.
  - cbn. split; [lia|]. split; assumption.
  - lia.
  - cbn. exact A.
  - exists s'. split; [exact Y|]. split; [exact Z2|]. split; [exact Z1|exact Z3].
Qed.
Lemma calls_start : forall es s n, db s = fd \/ shut (db s) = true -> pos s = 0%nat -> database line file es -> complete file ->
  exists f0, forall f, (f0 <= f)%nat -> exists s', calls file chunk E parse_line fd shut none closes f n s = Ok (map (nth_error (map conv es)) (seq 0 n), s').
Proof.
  intros es s n G P D C. exists (S (length file)). intros f F. apply calls_ok.
  - destruct G; [right|left]; assumption.
  - rewrite P. split; [lia|]. split; assumption.
  - lia.
Qed.
End File.

(* lines *)
Lemma white_iff : forall c, is_white c = true <-> white c.
Proof. intros c. unfold is_white, white. lia. Qed.
Lemma split_space : forall s r, Forall white s -> split_white [] (s ++ r) = split_white [] r.
Proof.
  induction s as [|c s IH]; intros r F; [reflexivity|]. inversion F; subst. cbn. rewrite (proj2 (white_iff c)) by assumption. apply IH. assumption.
Qed.
Lemma split_word : forall w cur r, Forall (fun c => ~ white c) w -> split_white cur (w ++ r) = split_white (rev w ++ cur) r.
Proof.
  induction w as [|c w IH]; intros cur r F; [reflexivity|]. inversion F; subst. cbn [app split_white].
  destruct (is_white c) eqn:W; [apply white_iff in W; contradiction|]. rewrite IH by assumption. cbn. rewrite <- app_assoc. reflexivity.
Qed.
Lemma words_split : forall l ws, words l ws -> split_white [] l = ws.
Proof.
  intros l ws H. induction H as [l F|s w r ws F N W R H IH].
  - pose proof (split_space l [] F) as X. rewrite app_nil_r in X. exact X.
  - rewrite split_space by exact F. rewrite split_word by exact W. rewrite app_nil_r.
    assert (NR : rev w <> []) by (intros X; apply N; rewrite <- (rev_involutive w), X; reflexivity).
    destruct r as [|c r].
    + cbn in IH. subst ws. cbn. destruct (rev w) eqn:RW; [congruence|]. rewrite <- RW, rev_involutive. reflexivity.
    + cbn [split_white]. rewrite (proj2 (white_iff c)) by (eapply R; reflexivity).
      destruct (rev w) eqn:RW; [congruence|]. rewrite <- RW, rev_involutive. f_equal.
      rewrite <- IH. cbn [split_white]. rewrite (proj2 (white_iff c)) by (eapply R; reflexivity). reflexivity.
Qed.
Lemma words_nil : forall w ws, words [] (w :: ws) -> False.
Proof. intros w ws H. apply words_split in H. discriminate. Qed.
Lemma apart_content : forall l c, apart l -> content l c -> (l = c /\ ~ In 35 l) \/ (c = [] /\ exists r, l = 35 :: r).
Proof.
  intros l c [A|(r & A)] (N & [E|(t & E)]).
  - left. subst. auto.
  - exfalso. apply A. rewrite E. apply in_or_app. right. left. reflexivity.
  - exfalso. apply N. rewrite <- E, A. left. reflexivity.
  - right. split; [|eauto]. destruct c as [|x c]; [reflexivity|]. rewrite E in A. inversion A. exfalso. apply N. left. assumption.
Qed.
Lemma skipped_none : forall l c, apart l -> content l c -> words c [] -> skipped l = true.
Proof.
  intros l c A C W. destruct (apart_content l c A C) as [(-> & N)|(-> & r & ->)].
  - unfold skipped. destruct c as [|x c]; [reflexivity|]. rewrite (words_split _ _ W). apply orb_true_r.
  - reflexivity.
Qed.
Lemma skipped_some : forall l c w ws, apart l -> content l c -> words c (w :: ws) -> skipped l = false /\ split_white [] l = w :: ws.
Proof.
  intros l c w ws A C W. destruct (apart_content l c A C) as [(-> & N)|(-> & r & ->)].
  - pose proof (words_split _ _ W) as E. rewrite E. split; [|reflexivity]. unfold skipped. destruct c as [|x c]; [discriminate|].
    replace (x =? 35) with false by (symmetry; apply Z.eqb_neq; intros ->; apply N; left; reflexivity). rewrite E. reflexivity.
  - exfalso. eapply words_nil. exact W.
Qed.
Lemma fold_ge : forall l a, 0 <= a -> Forall (fun d => 0 <= d <= 9) l -> a <= fold_left (fun a d => a * 10 + d) l a.
Proof.
  induction l as [|d l IH]; intros a A F; [cbn; lia|]. inversion F; subst. cbn [fold_left]. specialize (IH (a * 10 + d) ltac:(lia) H2). lia.
Qed.
Lemma wrap_id : forall z, - 2 ^ 31 <= z < 2 ^ 31 -> wrap32 z = z.
Proof. intros z H. unfold wrap32. rewrite Z.mod_small; lia. Qed.
Lemma atoi_digits_ok : forall d a, 0 <= a -> Forall (fun c => 48 <= c <= 57) d ->
  fold_left (fun a d => a * 10 + d) (map (fun c => c - 48) d) a < 2 ^ 31 ->
  atoi_digits (- a) d = - fold_left (fun a d => a * 10 + d) (map (fun c => c - 48) d) a.
Proof.
  induction d as [|c d IH]; intros a A F L; [reflexivity|]. inversion F; subst. cbn [atoi_digits map fold_left] in *.
  replace ((48 <=? c) && (c <=? 57)) with true by lia.
  assert (B : a * 10 + (c - 48) <= fold_left (fun a d => a * 10 + d) (map (fun c => c - 48) d) (a * 10 + (c - 48))).
  { apply fold_ge; [lia|]. apply Forall_forall. intros x I. apply in_map_iff in I. destruct I as (y & <- & I). rewrite Forall_forall in H2. specialize (H2 y I). lia. }
  rewrite wrap_id by lia. replace (10 * - a - (c - 48)) with (- (a * 10 + (c - 48))) by lia. apply IH; [lia|assumption|exact L].
Qed.
Lemma atoi_ok : forall d v, decimal d v -> v < 2 ^ 31 -> atoi d = v /\ 0 <= v.
Proof.
  intros d v (N & F & E) L. subst v. unfold dvalue in *.
  assert (P : 0 <= fold_left (fun a d => a * 10 + d) (map (fun c => c - 48) d) 0).
  { apply (fold_ge _ 0); [lia|]. apply Forall_forall. intros x I. apply in_map_iff in I. destruct I as (y & <- & I). rewrite Forall_forall in F. specialize (F y I). lia. }
  split; [|exact P]. destruct d as [|c d]; [congruence|].
  assert (X : atoi (c :: d) = wrap32 (- atoi_digits 0 (c :: d))).
  { inversion F; subst. unfold atoi. destruct c as [|c|c]; try lia. do 6 (destruct c as [c|c|]; try reflexivity); lia. }
  rewrite X. pose proof (atoi_digits_ok (c :: d) 0 ltac:(lia) F L) as Y. change (- 0) with 0 in Y. rewrite Y. rewrite Z.opp_involutive. apply wrap_id. lia.
Qed.

(* /etc/protocols *)
Definition conv_p (e : protocol) : protoent := Pe (p_name e) (p_number e) (p_aliases e).
Definition pline (l : list Z) (o : option protocol) : Prop := protocol_line l o /\ apart l.
Lemma proto_skip : forall l, pline l None -> parse_proto l = Skip.
Proof. intros l (H & A). inversion H; subst. unfold parse_proto. rewrite (skipped_none l c A) by assumption. reflexivity. Qed.
Lemma proto_entry : forall l e, pline l (Some e) -> parse_proto l = Entry (conv_p e).
Proof.
  intros l e (H & A). inversion H as [|? c n d v al C W D L]; subst. destruct (skipped_some l c n _ A C W) as (S1 & S2).
  unfold parse_proto. rewrite S1, S2. unfold conv_p. cbn. rewrite (proj1 (atoi_ok d v D L)). reflexivity.
Qed.
(* /etc/services *)
Definition conv_s (e : service) : servent := Se (s_name e) (htobe 2 (s_port e)) (s_protocol e).
Definition harmless (l : list Z) : Prop := exists ws, words l ws /\ forall a b r, ws = a :: b :: r -> ~ In 47 b.
Definition sline (l : list Z) (o : option service) : Prop := service_line l o /\ apart l /\ (In 35 l -> harmless l).
Lemma slash_app : forall d cur t, ~ In 47 d -> split_slash cur (d ++ 47 :: t) = (rev cur ++ d) :: split_slash [] t.
Proof.
  induction d as [|c d IH]; intros cur t N; cbn [app split_slash].
  - change (47 =? 47) with true. rewrite app_nil_r. reflexivity.
  - replace (c =? 47) with false by (symmetry; apply Z.eqb_neq; intros ->; apply N; left; reflexivity).
    rewrite IH by (intros I; apply N; right; exact I). cbn. rewrite <- app_assoc. reflexivity.
Qed.
Lemma slash_none : forall d cur, ~ In 47 d -> split_slash cur d = [rev cur ++ d].
Proof.
  induction d as [|c d IH]; intros cur N; cbn [split_slash].
  - rewrite app_nil_r. reflexivity.
  - replace (c =? 47) with false by (symmetry; apply Z.eqb_neq; intros ->; apply N; left; reflexivity).
    rewrite IH by (intros I; apply N; right; exact I). cbn. rewrite <- app_assoc. reflexivity.
Qed.
Lemma serv_skip : forall l, sline l None -> parse_serv l = Skip.
Proof.
  intros l (H & A & HL). inversion H as [? c C W|]; subst. destruct (apart_content l c A C) as [(-> & N)|(-> & r & ->)].
  - unfold parse_serv. rewrite (words_split _ _ W). reflexivity.
  - destruct (HL ltac:(left; reflexivity)) as (ws & WS & X). unfold parse_serv. rewrite (words_split _ _ WS).
    destruct ws as [|a [|b ws]]; [reflexivity|reflexivity|]. rewrite slash_none by (eapply X; reflexivity). reflexivity.
Qed.
Lemma serv_entry : forall l e, sline l (Some e) -> parse_serv l = Entry (conv_s e).
Proof.
  intros l e (H & A & HL). inversion H as [|? c n d v pr al C W D L NP]; subst.
  destruct (skipped_some l c n _ A C W) as (_ & S2). unfold parse_serv. rewrite S2.
  assert (ND : ~ In 47 d).
  { destruct D as (_ & D & _). rewrite Forall_forall in D. intros I. specialize (D _ I). lia. }
  rewrite slash_app by exact ND. rewrite slash_none by exact NP. cbn [rev app]. unfold conv_s. cbn [s_name s_port s_protocol].
  destruct (atoi_ok d v D ltac:(lia)) as (E & P). rewrite E, Z.mod_small by lia. reflexivity.
Qed.
(* /etc/hosts *)
Definition conv_h (e : host) : hostent := He (h_name e ++ [0]) (le_bytes 4 (htobe 4 (h_addr e))) (h_aliases e).
Definition hline (l : list Z) (o : option host) : Prop := host_line l o /\ apart l /\ ~ In 43 l.
Lemma host_skip : forall junk l, hline l None -> parse_host junk l = Skip.
Proof. intros junk l (H & A & _). inversion H; subst. unfold parse_host. rewrite (skipped_none l c A) by assumption. reflexivity. Qed.
Lemma words_in : forall l ws w x, words l ws -> In w ws -> In x w -> In x l.
Proof.
  intros l ws w x H. induction H as [|s v r ws F N W R H IH]; intros I J; [contradiction|]. destruct I as [->|I].
  - apply in_or_app. right. apply in_or_app. left. exact J.
  - apply in_or_app. right. apply in_or_app. right. apply IH; assumption.
Qed.
Lemma host_entry : forall junk l e, hline l (Some e) -> parse_host junk l = Entry (conv_h e).
Proof.
  intros junk l e (H & A & NP). inversion H as [|? c t a n al C W D]; subst. destruct (skipped_some l c t _ A C W) as (S1 & S2).
  unfold parse_host. rewrite S1, S2. assert (NT : ~ In 43 t).
  { intros I. apply NP. assert (X := words_in _ _ t 43 W (or_introl eq_refl) I). destruct C as (_ & [->|(r & ->)]); [exact X|]. apply in_or_app. left. exact X. }
  rewrite (proj2 (aton_iff t a NT) D). reflexivity.
Qed.
