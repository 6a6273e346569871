From Coq Require Import ZArith List Bool Arith Lia.
From Verif Require Import Fdtbl_spec Fdtbl_model.
Import ListNotations.

Lemma setn_len : forall l k v, length (setn l k v) = length l.
Proof. induction l as [|x l IH]; intros [|k] v; cbn [setn length]; auto. Qed.
Lemma get_setn : forall l k v j, k < length l -> get (setn l k v) j = if j =? k then v else get l j.
Proof.
  induction l as [|x l IH]; intros k v j L; [cbn in L; lia|]. destruct k as [|k], j as [|j]; try reflexivity. cbn [setn]. unfold get. cbn [nth_error Nat.eqb].
  apply IH. cbn in L. lia.
Qed.
Lemma get_out : forall l k, length l <= k -> get l k = None.
Proof. intros l k L. unfold get. apply nth_error_None in L. rewrite L. reflexivity. Qed.
Lemma get_in : forall l k c, get l k = Some c -> k < length l.
Proof. intros l k c G. destruct (le_lt_dec (length l) k); [rewrite get_out in G by assumption; discriminate|assumption]. Qed.
Lemma get_app : forall l r j, get (l ++ r) j = if j <? length l then get l j else get r (j - length l).
Proof.
  intros. unfold get. destruct (Nat.ltb_spec j (length l)); [rewrite nth_error_app1 by assumption|rewrite nth_error_app2 by assumption]; reflexivity.
Qed.
Lemma get_repeat : forall n j, get (repeat None n) j = None.
Proof. induction n as [|n IH]; intros [|j]; try reflexivity. apply IH. Qed.
Lemma resize_more : forall l n, length l <= n -> resize l n = l ++ repeat None (n - length l).
Proof. intros l n L. unfold resize. rewrite firstn_all2 by exact L. reflexivity. Qed.
Lemma get_resize : forall l n j, length l <= n -> get (resize l n) j = get l j.
Proof.
  intros l n j L. rewrite resize_more, get_app by exact L. destruct (Nat.ltb_spec j (length l)); [reflexivity|]. rewrite get_repeat, get_out by assumption. reflexivity.
Qed.
Lemma resize_len : forall l n, length l <= n -> length (resize l n) = n.
Proof. intros l n L. rewrite resize_more, app_length, repeat_length by exact L. lia. Qed.

Definition lowok (l : list entry) (n : nat) : Prop := n <= length l /\ (forall i, i < n -> get l i <> None) /\ get l n = None.
Lemma lead_ok : forall l, lowok l (lead l).
Proof.
  induction l as [|[c|] l (A & B & C)]; cbn [lead].
  - split; [cbn; lia|]. split; [intros i L; lia|reflexivity].
  - split; [cbn; lia|]. split; [intros [|i] L; [discriminate|apply (B i); lia]|exact C].
  - split; [cbn; lia|]. split; [intros i L; lia|reflexivity].
Qed.
Lemma get_skipn : forall n l j, get (skipn n l) j = get l (n + j).
Proof. induction n as [|n IH]; intros [|x l] j; try reflexivity; [destruct j; reflexivity|]. cbn [skipn]. rewrite IH. reflexivity. Qed.
Lemma update_low_ok : forall l n, n <= length l -> (forall i, i < n -> get l i <> None) -> lowok l (update_low l n).
Proof.
  intros l n L O. unfold update_low. destruct (lead_ok (skipn n l)) as (A & B & C). rewrite skipn_length in A. split; [lia|]. split.
  - intros i I. destruct (le_lt_dec n i); [|apply O; assumption]. specialize (B (i - n)). rewrite get_skipn in B. replace (n + (i - n)) with i in B by lia. apply B. lia.
  - rewrite get_skipn in C. exact C.
Qed.

Fixpoint count (l : list entry) : nat := match l with [] => 0 | Some _ :: r => S (count r) | None :: r => count r end.
Lemma count_app : forall a b, count (a ++ b) = count a + count b.
Proof. induction a as [|[c|] a IH]; intro b; cbn; rewrite ?IH; reflexivity. Qed.
Lemma count_none : forall n, count (repeat None n) = 0.
Proof. induction n as [|n IH]; [reflexivity|exact IH]. Qed.
Definition one (e : entry) : nat := match e with Some _ => 1 | None => 0 end.
Lemma count_setn : forall l k v, k < length l -> count (setn l k v) + one (get l k) = count l + one v.
Proof.
  induction l as [|x l IH]; intros k v L; [cbn in L; lia|]. destruct k as [|k].
  - cbn [setn]. unfold get. cbn [nth_error]. destruct x, v; cbn; lia.
  - cbn [setn]. unfold get. cbn [nth_error]. fold (get l k). specialize (IH k v). cbn [length] in L. destruct x; cbn [count]; lia.
Qed.
Lemma count_resize : forall l n, length l <= n -> count (resize l n) = count l.
Proof. intros l n L. rewrite resize_more, count_app, count_none by exact L. lia. Qed.

Section Ok.
Variable max u : nat.
Definition wf (t : tbl) : Prop := lowok (ents t) (low t) /\ active t = count (ents t) + u.

Lemma add_posix_ok : forall t c, wf t -> active t < max ->
  exists t1, add_posix max t c = inl (t1, low t) /\ wf t1 /\ forall j, get (ents t1) j = if j =? low t then Some c else get (ents t) j.
Proof.
  intros t c ((L & O & V) & A) M. unfold add_posix. destruct (Nat.leb_spec max (active t)); [lia|]. unfold add.
  destruct (Nat.leb_spec (length (ents t)) (low t)) as [G|G]; (eexists; split; [reflexivity|]); cbn [ents low active].
  - assert (E : low t = length (ents t)) by lia. split; [split|].
    + split; [cbn [ents low]; rewrite app_length; cbn; lia|]. cbn [ents low]. split.
      * intros i I. rewrite get_app. destruct (Nat.ltb_spec i (length (ents t))); [apply O; lia|]. replace (i - length (ents t)) with 0 by lia. discriminate.
      * apply get_out. rewrite app_length. cbn. lia.
    + cbn [ents active]. rewrite count_app. cbn. lia.
    + intro j. rewrite get_app. destruct (Nat.eqb_spec j (low t)) as [->|N].
      * destruct (Nat.ltb_spec (low t) (length (ents t))); [lia|]. rewrite E, Nat.sub_diag. reflexivity.
      * destruct (Nat.ltb_spec j (length (ents t))); [reflexivity|]. rewrite (get_out (ents t)) by assumption. apply get_out. cbn. lia.
  - assert (GS : forall j, get (setn (ents t) (low t) (Some c)) j = if j =? low t then Some c else get (ents t) j) by (intro j; apply get_setn; exact G).
    split; [split|exact GS]; cbn [ents low active].
    + apply update_low_ok; [rewrite setn_len; lia|]. intros i I. rewrite GS. destruct (Nat.eqb_spec i (low t)); [discriminate|apply O; lia].
    + pose proof (count_setn (ents t) (low t) (Some c) G) as Q. rewrite V in Q. cbn [one] in Q. lia.
Qed.

Lemma remove_ok : forall t h, wf t -> wf (remove t h) /\ forall j, get (ents (remove t h)) j = if j =? h then None else get (ents t) j.
Proof.
  intros t h ((L & O & V) & A). unfold remove. destruct (get (ents t) h) as [c|] eqn:G.
  - pose proof (get_in _ _ _ G) as HL. assert (GS : forall j, get (setn (ents t) h None) j = if j =? h then None else get (ents t) j) by (intro j; apply get_setn; exact HL).
    split; [split|exact GS]; cbn [ents low active].
    + unfold lowok. rewrite setn_len. destruct (Nat.ltb_spec h (low t)).
      * split; [lia|]. split; [|rewrite GS, Nat.eqb_refl; reflexivity]. intros i I. rewrite GS. destruct (Nat.eqb_spec i h); [lia|apply O; lia].
      * split; [lia|]. split; [|rewrite GS; destruct (Nat.eqb_spec (low t) h); [reflexivity|exact V]].
        intros i I. rewrite GS. destruct (Nat.eqb_spec i h); [lia|apply O; lia].
    + pose proof (count_setn (ents t) h None HL) as Q. rewrite G in Q. cbn [one] in Q. lia.
  - split; [repeat split; assumption|]. intro j. destruct (Nat.eqb_spec j h) as [->|]; [exact G|reflexivity].
Qed.

Lemma override_ok : forall t h, wf t -> h < max ->
  exists t1, override_at max t h = (t1, None) /\ wf t1 /\ forall j, get (ents t1) j = if j =? h then Some false else get (ents t) j.
Proof.
  intros t h W M. unfold override_at. destruct (remove_ok t h W) as (((L & O & V) & A) & G). set (t1 := remove t h) in *. unfold insert_at.
  destruct (Nat.leb_spec max h); [lia|]. cbn [ents low active]. eexists. split; [reflexivity|]. cbn [ents low active].
  set (l0 := if length (ents t1) <=? h then resize (ents t1) (h + 1) else ents t1).
  assert (H0 : h < length l0 /\ length (ents t1) <= length l0 /\ (forall j, get l0 j = get (ents t1) j) /\ count l0 = count (ents t1)).
  { unfold l0. destruct (Nat.leb_spec (length (ents t1)) h).
    - rewrite resize_len by lia. split; [lia|]. split; [lia|]. split; [intro j; apply get_resize; lia|apply count_resize; lia].
    - repeat split; lia. }
  destruct H0 as (HL & HG & H0 & HC).
  assert (GS : forall j, get (setn l0 h (Some false)) j = if j =? h then Some false else get (ents t1) j) by (intro j; rewrite get_setn, H0 by exact HL; reflexivity).
  split; [split|]; cbn [ents low active].
  - destruct (Nat.leb_spec h (low t1)).
    + apply update_low_ok; [rewrite setn_len; lia|]. intros i I. rewrite GS. destruct (Nat.eqb_spec i h); [discriminate|apply O; lia].
    + unfold lowok. rewrite setn_len. split; [lia|]. split; [intros i I; rewrite GS; destruct (Nat.eqb_spec i h); [discriminate|apply O; lia]|].
      rewrite GS. destruct (Nat.eqb_spec (low t1) h); [lia|exact V].
  - pose proof (count_setn l0 h (Some false) HL) as Q. rewrite H0, G, Nat.eqb_refl in Q. cbn [one] in Q. lia.
  - intro j. rewrite GS, G. destruct (j =? h); reflexivity.
Qed.

Lemma set_flags_ok : forall t h c b, wf t -> get (ents t) h = Some b ->
  exists t1, set_flags t h c = inl t1 /\ wf t1 /\ forall j, get (ents t1) j = if j =? h then Some c else get (ents t) j.
Proof.
  intros t h c b ((L & O & V) & A) G. unfold set_flags. rewrite G. eexists. split; [reflexivity|]. pose proof (get_in _ _ _ G) as HL.
  assert (GS : forall j, get (setn (ents t) h (Some c)) j = if j =? h then Some c else get (ents t) j) by (intro j; apply get_setn; exact HL).
  split; [split|exact GS]; cbn [ents low active].
  - unfold lowok. rewrite setn_len. split; [lia|]. split; [intros i I; rewrite GS; destruct (Nat.eqb_spec i h); [discriminate|apply O; lia]|].
    rewrite GS. destruct (Nat.eqb_spec (low t) h) as [E|]; [rewrite <- E, V in G; discriminate|exact V].
  - pose proof (count_setn (ents t) h (Some c) HL) as Q. rewrite G in Q. cbn [one] in Q. lia.
Qed.

(* the table and the kernel's table together are s *)
Definition agree (st : state) (s : fds) : Prop := wf (fst st) /\
  forall i, match s i with
            | Some (f, c) => get (ents (fst st)) i = Some c /\ snd st i = Some f
            | None => get (ents (fst st)) i = None /\ snd st i = None
            end.

Lemma agree_low : forall t k s, agree (t, k) s -> lowest s 0 (low t).
Proof.
  intros t k s (((L & O & V) & A) & G). cbn [fst snd] in *. split; [lia|]. split.
  - specialize (G (low t)). destruct (s (low t)) as [(f, c)|]; [|reflexivity]. rewrite V in G. destruct G as (G & _). discriminate.
  - intros i I N. specialize (G i). rewrite N in G. apply (O i); [lia|apply G].
Qed.
Lemma lowest_inj : forall s m a b, lowest s m a -> lowest s m b -> a = b.
Proof.
  intros s m a b (A1 & A2 & A3) (B1 & B2 & B3). destruct (lt_eq_lt_dec a b) as [[H|H]|H]; [|exact H|]; exfalso.
  - apply (B3 a); [lia|exact A2].
  - apply (A3 b); [lia|exact B2].
Qed.
Lemma agree_put : forall t k s t1 s1 h f c, agree (t, k) s -> wf t1 -> (forall j, get (ents t1) j = if j =? h then Some c else get (ents t) j) ->
  updated s s1 h (Some (f, c)) -> agree (t1, kput k h (Some f)) s1.
Proof.
  intros t k s t1 s1 h f c (W & G) W1 G1 (U1 & U2). split; [exact W1|]. intro i. cbn [fst snd]. unfold kput. rewrite G1.
  destruct (Nat.eqb_spec i h) as [->|N]; [rewrite U1; auto|rewrite U2 by exact N; apply G].
Qed.
Lemma agree_del : forall t k s t1 s1 h, agree (t, k) s -> wf t1 -> (forall j, get (ents t1) j = if j =? h then None else get (ents t) j) ->
  updated s s1 h None -> agree (t1, kput k h None) s1.
Proof.
  intros t k s t1 s1 h (W & G) W1 G1 (U1 & U2). split; [exact W1|]. intro i. cbn [fst snd]. unfold kput. rewrite G1.
  destruct (Nat.eqb_spec i h) as [->|N]; [rewrite U1; auto|rewrite U2 by exact N; apply G].
Qed.
Lemma agree_same : forall t k s t1 s1, agree (t, k) s -> wf t1 -> (forall j, get (ents t1) j = get (ents t) j) -> Fdtbl_spec.same s s1 -> agree (t1, k) s1.
Proof. intros t k s t1 s1 (W & G) W1 G1 S. split; [exact W1|]. intro i. rewrite S. cbn [fst snd]. rewrite G1. apply G. Qed.
(* an entry put in and taken out again *)
Lemma agree_back : forall t k s t1 s1 h c, agree (t, k) s -> s h = None -> wf t1 -> (forall j, get (ents t1) j = if j =? h then Some c else get (ents t) j) ->
  Fdtbl_spec.same s s1 -> agree (remove t1 h, k) s1.
Proof.
  intros t k s t1 s1 h c A N W1 G1 S. destruct (remove_ok t1 h W1) as (W2 & G2). eapply agree_same; [exact A|exact W2| |exact S].
  intro j. rewrite G2, G1. destruct (Nat.eqb_spec j h) as [->|]; [|reflexivity]. destruct A as (_ & A). specialize (A h). rewrite N in A. symmetry. apply A.
Qed.

(* fewer than max - n open descriptors *)
Definition few (n : nat) (s : fds) : Prop := forall l, NoDup l -> (forall k, In k l -> s k <> None) -> length l + n < max.
Fixpoint occs (l : list entry) (n : nat) : list nat := match l with [] => [] | Some _ :: r => n :: occs r (S n) | None :: r => occs r (S n) end.
Lemma occs_len : forall l n, length (occs l n) = count l.
Proof. induction l as [|[c|] l IH]; intro n; cbn; rewrite ?IH; reflexivity. Qed.
Lemma occs_in : forall l n k, In k (occs l n) -> n <= k /\ get l (k - n) <> None.
Proof.
  induction l as [|[c|] l IH]; intros n k I; cbn in I; [contradiction| |].
  - destruct I as [->|I]; [rewrite Nat.sub_diag; split; [lia|discriminate]|]. apply IH in I. destruct I as (A & B). split; [lia|]. replace (k - n) with (S (k - S n)) by lia. exact B.
  - apply IH in I. destruct I as (A & B). split; [lia|]. replace (k - n) with (S (k - S n)) by lia. exact B.
Qed.
Lemma occs_nodup : forall l n, NoDup (occs l n).
Proof. induction l as [|[c|] l IH]; intro n; cbn; [constructor| |apply IH]. constructor; [intro I; apply occs_in in I; lia|apply IH]. Qed.
Lemma few_active : forall t k s n, agree (t, k) s -> few (u + n) s -> active t + n < max.
Proof.
  intros t k s n ((L & A) & G) F. cbn [fst snd] in *. rewrite A. specialize (F (occs (ents t) 0) (occs_nodup _ _)). rewrite occs_len in F.
  assert (count (ents t) + (u + n) < max); [|lia]. apply F. intros j I. apply occs_in in I. destruct I as (_ & I). rewrite Nat.sub_0_r in I.
  specialize (G j). destruct (s j); [discriminate|]. destruct G as (G & _). contradiction.
Qed.

(* the calls the code makes as it should *)
Definition fine (s : fds) (o : op) : Prop :=
  match o with
  | Open _ _ | Dup _ => few u s
  | DupFd _ min _ => few u s /\ (forall k, lowest s 0 k -> min <= k)
  | Dup2 a b => b < max /\ (s a <> None \/ s b = None) /\ (a <> b \/ forall f c, s a = Some (f, c) -> c = false)
  | Pipe _ _ => few (u + 1) s
  | _ => True
  end.

Lemma kfree_here : forall n k out, k out = None -> kfree n k out = out.
Proof. intros [|n] k out E; [reflexivity|]. cbn. rewrite E. reflexivity. Qed.
Lemma agree_some : forall st s i f c, agree st s -> s i = Some (f, c) -> get (ents (fst st)) i = Some c /\ snd st i = Some f.
Proof. intros st s i f c (_ & A) E. specialize (A i). rewrite E in A. exact A. Qed.
Lemma agree_none : forall st s i, agree st s -> s i = None -> get (ents (fst st)) i = None /\ snd st i = None.
Proof. intros st s i (_ & A) E. specialize (A i). rewrite E in A. exact A. Qed.

Lemma openat_ok : forall st s f c n s1, agree st s -> few u s -> lowest s 0 n -> updated s s1 n (Some (f, c)) ->
  exists st1, openat max st (inl f) c = (st1, Fd n) /\ agree st1 s1.
Proof.
  intros (t, k) s f c n s1 A F L U. pose proof (few_active t k s 0 A) as FA. rewrite !Nat.add_0_r in FA.
  destruct (add_posix_ok t c (proj1 A) (FA F)) as (t1 & E & W & G). pose proof (lowest_inj _ _ _ _ L (agree_low _ _ _ A)); subst n.
  unfold openat. rewrite E. eexists. split; [reflexivity|]. eapply agree_put; eassumption.
Qed.
Lemma dupfd_ok : forall st s fd f b c n s1, agree st s -> few u s -> s fd = Some (f, b) -> lowest s 0 n -> updated s s1 n (Some (f, c)) ->
  exists st1, dupfd max st fd c = (st1, Fd n) /\ agree st1 s1.
Proof.
  intros (t, k) s fd f b c n s1 A F E0 L U. pose proof (few_active t k s 0 A) as FA. rewrite !Nat.add_0_r in FA.
  destruct (add_posix_ok t c (proj1 A) (FA F)) as (t1 & E & W & G). pose proof (lowest_inj _ _ _ _ L (agree_low _ _ _ A)); subst n.
  unfold dupfd. rewrite E. destruct (agree_some _ _ _ _ _ A E0) as (_ & K). cbn [snd] in K. rewrite K.
  destruct (agree_none _ _ _ A (proj1 (proj2 L))) as (_ & K2). cbn [snd] in K2. rewrite kfree_here by exact K2. rewrite Nat.eqb_refl.
  eexists. split; [reflexivity|]. eapply agree_put; eassumption.
Qed.
Lemma dupfd_bad : forall st s fd c s1, agree st s -> few u s -> s fd = None -> Fdtbl_spec.same s s1 ->
  exists st1, dupfd max st fd c = (st1, Err 9%Z) /\ agree st1 s1.
Proof.
  intros (t, k) s fd c s1 A F E0 S. pose proof (few_active t k s 0 A) as FA. rewrite !Nat.add_0_r in FA.
  destruct (add_posix_ok t c (proj1 A) (FA F)) as (t1 & E & W & G). unfold dupfd. rewrite E. destruct (agree_none _ _ _ A E0) as (_ & K). cbn [snd] in K. rewrite K.
  eexists. split; [reflexivity|]. eapply agree_back; try eassumption. apply (agree_low _ _ _ A).
Qed.
Lemma setfd_ok : forall st s fd f b c s1, agree st s -> s fd = Some (f, b) -> updated s s1 fd (Some (f, c)) ->
  exists st1, setfd st fd c = (st1, Done) /\ agree st1 s1.
Proof.
  intros (t, k) s fd f b c s1 A E U. destruct (agree_some _ _ _ _ _ A E) as (G & K). cbn [fst snd] in G, K. unfold setfd. rewrite K.
  destruct (set_flags_ok t fd c b (proj1 A) G) as (t1 & -> & W & G1). eexists. split; [reflexivity|].
  destruct U as (U1 & U2). split; [exact W|]. intro i. cbn [fst snd]. rewrite G1. destruct (Nat.eqb_spec i fd) as [->|N]; [rewrite U1; auto|rewrite U2 by exact N; apply A].
Qed.
Lemma few_more : forall s s1 n h x, few (n + 1) s -> updated s s1 h x -> few n s1.
Proof.
  intros s s1 n h x F (U1 & U2) l N I. specialize (F (List.remove Nat.eq_dec h l)).
  assert (R : NoDup (List.remove Nat.eq_dec h l)) by (clear - N; induction N as [|y l NI N IH]; cbn; [constructor|]; destruct (Nat.eq_dec h y); [exact IH|]; constructor; [intro I; apply in_remove in I; destruct I; contradiction|exact IH]).
  assert (Q : length l <= length (List.remove Nat.eq_dec h l) + 1).
  { clear - N. induction N as [|y l NI N IH]; cbn; [lia|]. destruct (Nat.eq_dec h y) as [->|]; [|cbn; lia]. rewrite notin_remove by exact NI. lia. }
  assert (length (List.remove Nat.eq_dec h l) + (n + 1) < max); [|lia]. apply F; [exact R|]. intros k K. apply in_remove in K. destruct K as (K & NE). rewrite <- U2 by exact NE. apply I, K.
Qed.
Lemma dup_buf_ok : forall st s fd x f n s1, agree st s -> few u s -> s fd = Some x -> lowest s 0 n -> updated s s1 n (Some (f, false)) ->
  exists st1, dup_buf max st fd (inl f) = (st1, Fd n) /\ agree st1 s1.
Proof.
  intros (t, k) s fd (g, b) f n s1 A F E0 L U. pose proof (few_active t k s 0 A) as FA. rewrite !Nat.add_0_r in FA.
  destruct (add_posix_ok t false (proj1 A) (FA F)) as (t1 & E & W & G). pose proof (lowest_inj _ _ _ _ L (agree_low _ _ _ A)); subst n.
  unfold dup_buf. rewrite E. destruct (agree_some _ _ _ _ _ A E0) as (_ & K). cbn [snd] in K. rewrite K. eexists. split; [reflexivity|]. eapply agree_put; eassumption.
Qed.

Lemma step_ok : forall st s o a s1, agree st s -> fine s o -> does s o a s1 -> exists st1, step max st o = (st1, a) /\ agree st1 s1.
Proof.
  intros st s o a s1 A F D. inversion D; subst; cbn [step fine] in *.
  - eapply openat_ok; eassumption.
  - destruct st as [t k]. pose proof (few_active t k s 0 A) as FA. rewrite !Nat.add_0_r in FA.
    destruct (add_posix_ok t ce (proj1 A) (FA F)) as (t1 & E & W & G). unfold openat. rewrite E. eexists. split; [reflexivity|].
    eapply agree_back; try eassumption. apply (agree_low _ _ _ A).
  - eapply dupfd_ok; eassumption.
  - eapply dupfd_bad; eassumption.
  - destruct F as (M & _ & _). destruct st as [t k]. destruct (override_ok t b (proj1 A) M) as (t1 & E & W & G). unfold dup2. rewrite E.
    destruct (agree_some _ _ _ _ _ A H) as (_ & K). cbn [snd] in K. rewrite K. eexists. split; [reflexivity|]. eapply agree_put; eassumption.
  - destruct F as (M & _ & F). destruct F as [F|F]; [contradiction|]. destruct x as [f c]. specialize (F f c H). subst c.
    destruct st as [t k]. destruct (override_ok t a0 (proj1 A) M) as (t1 & E & W & G). unfold dup2. rewrite E.
    destruct (agree_some _ _ _ _ _ A H) as (_ & K). cbn [snd] in K. rewrite K. eexists. split; [reflexivity|]. eapply agree_put; try eassumption.
    split; [rewrite H0; exact H|intros j _; apply H0].
  - destruct F as (M & [F|F] & _); [contradiction|]. destruct st as [t k]. destruct (override_ok t b (proj1 A) M) as (t1 & E & W & G). unfold dup2. rewrite E.
    destruct (agree_none _ _ _ A H) as (_ & K). cbn [snd] in K. rewrite K. eexists. split; [reflexivity|]. eapply agree_back; eassumption.
  - destruct F as (F & M). eapply dupfd_ok; try eassumption.
    destruct st as [t kk]. pose proof (agree_low _ _ _ A) as L0. specialize (M _ L0).
    assert (k = low t); [|subst; exact L0]. apply (lowest_inj s min); [assumption|]. destruct L0 as (L1 & L2 & L3). split; [exact M|]. split; [exact L2|]. intros i I. apply L3. lia.
  - destruct F as (F & _). eapply dupfd_bad; eassumption.
  - destruct st as [t k]. destruct x as [f c]. destruct (agree_some _ _ _ _ _ A H) as (_ & K). cbn [snd] in K. unfold close. rewrite K. eexists. split; [reflexivity|].
    destruct (remove_ok t fd (proj1 A)) as (W & G). eapply agree_del; eassumption.
  - destruct st as [t k]. destruct (agree_none _ _ _ A H) as (G & K). cbn [fst snd] in K, G. unfold close. rewrite K. eexists. split; [reflexivity|].
    unfold remove. rewrite G. eapply agree_same; [exact A|apply A|reflexivity|assumption].
  - destruct st as [t k]. destruct (agree_some _ _ _ _ _ A H) as (G & K). cbn [fst] in G. unfold getfd, get_flags. cbn [fst]. rewrite G. eexists. split; [reflexivity|].
    eapply agree_same; [exact A|apply A|reflexivity|assumption].
  - destruct st as [t k]. destruct (agree_none _ _ _ A H) as (G & K). cbn [fst] in G. unfold getfd, get_flags. cbn [fst]. rewrite G. eexists. split; [reflexivity|].
    eapply agree_same; [exact A|apply A|reflexivity|assumption].
  - eapply setfd_ok; eassumption.
  - destruct st as [t k]. destruct (agree_none _ _ _ A H) as (G & K). cbn [snd] in K. unfold setfd. rewrite K. eexists. split; [reflexivity|].
    eapply agree_same; [exact A|apply A|reflexivity|assumption].
  - assert (F0 : few u s) by (intros l N I; specialize (F l N I); lia).
    unfold pipe2. destruct (openat_ok st s r ce k1 t1 A F0 H H0) as (st1 & -> & A1). pose proof (few_more _ _ _ _ _ F H0) as F1.
    set (s2 := fun i => if i =? k2 then Some (w, false) else t1 i).
    assert (U2 : updated t1 s2 k2 (Some (w, false))).
    { split; [unfold s2; rewrite Nat.eqb_refl; reflexivity|]. intros i N. unfold s2. destruct (Nat.eqb_spec i k2); [contradiction|reflexivity]. }
    destruct (dup_buf_ok st1 t1 k1 (r, ce) w k2 s2 A1 F1 (proj1 H0) H1 U2) as (st2 & -> & A2).
    assert (U3 : updated s2 s1 k2 (Some (w, ce))).
    { destruct H2 as (V1 & V2). split; [exact V1|]. intros i N. rewrite V2 by exact N. symmetry. apply U2, N. }
    destruct (setfd_ok st2 s2 k2 w false ce s1 A2 (proj1 U2) U3) as (st3 & -> & A3). exists st3. split; [reflexivity|exact A3].
  - destruct st as [t k]. assert (F0 : few u s) by (intros l N I; specialize (F l N I); lia). pose proof (few_active t k s 0 A) as FA. rewrite !Nat.add_0_r in FA.
    destruct (add_posix_ok t ce (proj1 A) (FA F0)) as (t1 & E & W & G). unfold pipe2, openat. rewrite E. eexists. split; [reflexivity|].
    eapply agree_back; try eassumption. apply (agree_low _ _ _ A).
Qed.

Lemma steps_ok : forall ops s l s1 st, agree st s -> runs fine s ops l s1 -> exists st1, steps max st ops = (st1, l) /\ agree st1 s1.
Proof.
  intros ops s l s1 st A R. revert st A. induction R as [s s1 S|s o a s2 ops l s1 O D R IH]; intros st A.
  - exists st. split; [reflexivity|]. destruct st as [t k]. eapply agree_same; [exact A|apply A|reflexivity|exact S].
  - destruct (step_ok st s o a s2 A O D) as (st1 & E & A1). destruct (IH st1 A1) as (st2 & E2 & A2). exists st2. cbn [steps]. rewrite E, E2. split; [reflexivity|exact A2].
Qed.

Lemma populate_ok : forall l t, wf t -> Forall (fun fd => fd < max) l ->
  exists t1, populate max t l = Some t1 /\ wf t1 /\ forall j, get (ents t1) j = if existsb (Nat.eqb j) l then Some false else get (ents t) j.
Proof.
  induction l as [|fd l IH]; intros t W F; [exists t; repeat split; try apply W|].
  destruct (override_ok t fd W (Forall_inv F)) as (t1 & E & W1 & G1). destruct (IH t1 W1 (Forall_inv_tail F)) as (t2 & E2 & W2 & G2).
  exists t2. cbn [populate]. rewrite E. split; [exact E2|]. split; [exact W2|]. intro j. rewrite G2, G1. cbn [existsb].
  destruct (j =? fd); cbn [orb]; [destruct (existsb _ l); reflexivity|reflexivity].
Qed.
End Ok.

Lemma exec_ok : forall u st s, agree u st s -> forall k, exec st k = kept s k.
Proof.
  intros u st s A k. unfold exec, kept. destruct A as (_ & A). specialize (A k). destruct (s k) as [(f, [|])|]; destruct A as (G & K); rewrite G; [reflexivity|exact K|exact K].
Qed.
Lemma start_ok : forall max n l files, Forall (fun fd => fd < max) l -> (forall k, files k <> None <-> In k l) ->
  exists t, from_kernel max n l = Some t /\ agree 0 (t, files) (fun k => match files k with Some f => Some (f, false) | None => None end).
Proof.
  intros max n l files F I. assert (W : wf 0 (T (resize [] n) 0 0)).
  { split; cbn [ents low active].
    - split; [lia|]. split; [intros i L; lia|]. rewrite get_resize by (cbn; lia). reflexivity.
    - rewrite count_resize by (cbn; lia). reflexivity. }
  destruct (populate_ok max 0 l _ W F) as (t & E & W1 & G). exists t. split; [exact E|]. split; [exact W1|]. intro k. cbn [fst snd]. rewrite G. cbn [ents].
  rewrite get_resize by (cbn; lia). destruct (files k) eqn:K.
  - assert (X : existsb (Nat.eqb k) l = true) by (apply existsb_exists; exists k; split; [apply I; congruence|apply Nat.eqb_refl]). rewrite X. auto.
  - destruct (existsb (Nat.eqb k) l) eqn:X; [|split; [destruct k; reflexivity|reflexivity]].
    apply existsb_exists in X. destruct X as (j & J & EQ). apply Nat.eqb_eq in EQ. subst j. apply I in J. contradiction.
Qed.

Definition begin (files : nat -> option Z) : fds := fun k => match files k with Some f => Some (f, false) | None => None end.
Definition files_of (s : fds) (k : nat) : option Z := match s k with Some (f, _) => Some f | None => None end.
Lemma run_ok : forall max n l files ops answers s,
  Forall (fun fd => fd < max) l -> (forall k, files k <> None <-> In k l) -> runs (fine max 0) (begin files) ops answers s ->
  exists t st, from_kernel max n l = Some t /\ steps max (t, files) ops = (st, answers) /\
    (forall k, snd st k = files_of s k) /\ (forall k, exec st k = kept s k).
Proof.
  intros max n l files ops answers s F I R. destruct (start_ok max n l files F I) as (t & E & A). destruct (steps_ok max 0 _ _ _ _ _ A R) as (st & E2 & A2).
  exists t, st. split; [exact E|]. split; [exact E2|]. split; [|apply (exec_ok 0), A2].
  intro k. destruct A2 as (_ & A2). specialize (A2 k). unfold files_of. destruct (s k) as [(f, c)|]; apply A2.
Qed.
(* descriptors 0, 1, 2 on file 100 *)
Definition three : nat -> option Z := fun k => if k <? 3 then Some 100%Z else None.
