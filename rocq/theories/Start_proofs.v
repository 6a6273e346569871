(* Lemmas about Start_model. *)
From Verif Require Import Base String_model String_proofs Env_model Env_proofs Libgen_model Libgen_spec Libgen_proofs Start_spec Start_model.

Lemma words_app w : forall l a k, words_at w a (l ++ k) <-> words_at w a l /\ words_at w (a + 8 * len l) k.
Proof.
  induction l as [|x l IH]; intros a k.
  - cbn [app words_at]. rewrite len_nil. replace (a + 8 * 0) with a by lia. tauto.
  - cbn [app words_at]. rewrite IH, len_cons. replace (a + 8 + 8 * len l) with (a + 8 * (len l + 1)) by lia. tauto.
Qed.
Lemma ldw_ok w a v : w a = Some v -> ldw w a = Ok v. Proof. unfold ldw. intros ->. reflexivity. Qed.

Lemma flat_len s ss : len (flat (s :: ss)) = len s + 1 + len (flat ss).
Proof. cbn [flat]. rewrite len_app, len_cons. lia. Qed.
Definition sizes (ss : list (list Z)) : list Z := map (fun s => len s + 1) ss.
Lemma sizes_sum ss : fold_right Z.add 0 (sizes ss) = len (flat ss).
Proof. induction ss as [|s ss IH]; [reflexivity|]. rewrite flat_len. unfold sizes in *. cbn [map fold_right]. lia. Qed.

Lemma lengths_ok fuel m w : forall ps ss a, words_at w a ps -> points m ps ss -> Forall (fun s => (length s < fuel)%nat) ss ->
  lengths_of fuel m w a (length ps) = Ok (sizes ss).
Proof.
  intros ps ss a W P. revert a W. induction P as [|p s ps ss [N C] P IH]; intros a W F; [reflexivity|].
  destruct W as [W1 W2]. inversion F as [|? ? F1 F2]; subst. cbn [length lengths_of]. rewrite (ldw_ok _ _ _ W1). cbn [bind].
  rewrite (strlen_ok s fuel m p N C F1). cbn [bind]. rewrite (IH _ W2 F2). reflexivity.
Qed.

Lemma points_frame m m' a l ps ss : stored m m' a l -> apart a (len l) ps ss -> points m ps ss -> points m' ps ss.
Proof.
  intros S A P. revert A. induction P as [|p s ps ss [N [C1 C2]] P IH]; intros A; [constructor|].
  inversion A as [|? ? ? ? A1 A2]; subst. constructor; [|apply IH, A2]. split; [exact N|]. split; [exact C1|].
  apply (stored_frame m m' a l p (s ++ [0]) S); [|exact C2]. rewrite len_app, len_cons, len_nil. exact A1.
Qed.
Lemma apart_sub a n b k ps ss : apart a n ps ss -> a <= b -> b + k <= a + n -> apart b k ps ss.
Proof.
  intros A L1 L2. induction A as [|p s ps ss A1 A2 IH]; constructor; [|exact IH]. unfold disjoint in *. lia.
Qed.

Lemma copy_all_ok w : forall ps ss m a buf off, words_at w a ps -> points m ps ss -> mapped m (buf + off) (len (flat ss)) ->
  apart (buf + off) (len (flat ss)) ps ss ->
  exists m', copy_all m w a (sizes ss) buf off = Ok (m', places (buf + off) ss ++ [0]) /\ stored m m' (buf + off) (flat ss).
Proof.
  intros ps. induction ps as [|p ps IH]; intros ss m a buf off W P M A.
  - inversion P; subst. exists m. split; [reflexivity|apply stored_nil].
  - inversion P as [|? s ? ss' [N [C1 C2]] P']; subst. destruct W as [W1 W2]. inversion A as [|? ? ? ? A1 A2]; subst.
    rewrite flat_len in *. pose proof (len_nonneg s). pose proof (len_nonneg (flat ss')).
    assert (LS : len (s ++ [0]) = len s + 1) by (rewrite len_app, len_cons, len_nil; lia).
    destruct (copy_nonov_ok m p (buf + off) (s ++ [0]) C2) as (m1 & E1 & S1).
    { apply (mapped_sub _ _ _ _ _ M); lia. }
    { unfold disjoint in *. lia. }
    rewrite LS in E1.
    assert (P1 : points m1 ps ss').
    { apply (points_frame m m1 _ _ ps ss' S1); [|exact P']. apply (apart_sub _ _ _ _ _ _ A2); lia. }
    destruct (IH ss' m1 (a + 8) buf (off + (len s + 1)) W2 P1) as (m2 & E2 & S2).
    { apply (stored_mapped m m1 _ _ _ _ S1). apply (mapped_sub _ _ _ _ _ M); lia. }
    { apply (apart_sub _ _ _ _ _ _ A2); lia. }
    exists m2. split.
    + unfold sizes in *. cbn [map copy_all]. rewrite (ldw_ok _ _ _ W1). cbn [bind]. rewrite E1. cbn [bind]. rewrite E2. cbn [bind].
      cbn [places app]. replace (buf + off + len s + 1) with (buf + (off + (len s + 1))) by lia. reflexivity.
    + cbn [flat]. replace (s ++ 0 :: flat ss') with ((s ++ [0]) ++ flat ss') by (rewrite <- app_assoc; reflexivity).
      apply (stored_app m m1 m2); [exact S1|]. rewrite LS. replace (buf + off + (len s + 1)) with (buf + (off + (len s + 1))) by lia. exact S2.
Qed.
Lemma copy_array_ok fuel m w a ps ss alloc : words_at w a ps -> points m ps ss -> Forall (fun s => (length s < fuel)%nat) ss ->
  let buf := alloc (len (flat ss)) in mapped m buf (len (flat ss)) -> apart buf (len (flat ss)) ps ss ->
  exists m', copy_string_array fuel m w a (len ps) alloc = Ok (m', places buf ss ++ [0]) /\ stored m m' buf (flat ss).
Proof.
  intros W P F buf M A. unfold copy_string_array. unfold len at 1. rewrite Nat2Z.id. rewrite (lengths_ok fuel m w ps ss a W P F). cbn [bind].
  rewrite sizes_sum. fold buf. rewrite <- (Z.add_0_r buf) in M, A.
  pose proof (copy_all_ok w ps ss m a buf 0 W P M A) as H. rewrite Z.add_0_r in H. exact H.
Qed.

Lemma places_ok m : forall ss a, bytes_at m a (flat ss) -> Forall (Forall is_char) ss -> Forall2 (fun p s => cstr m p s) (places a ss) ss.
Proof.
  induction ss as [|s ss IH]; intros a B F; [constructor|]. inversion F as [|? ? F1 F2]; subst. cbn [flat] in B.
  replace (s ++ 0 :: flat ss) with ((s ++ [0]) ++ flat ss) in B by (rewrite <- app_assoc; reflexivity).
  apply bytes_at_app in B. destruct B as [B1 B2]. cbn [places]. constructor; [split; assumption|].
  apply IH; [|exact F2]. rewrite len_app, len_cons, len_nil in B2. replace (a + len s + 1) with (a + (len s + (0 + 1))) by lia. exact B2.
Qed.

(* basename leaves a string that does not end with a slash alone *)
Lemma back_stop f m p e lo P b : m (p + e) = Some b -> P b = false -> lo <= e -> back (S f) m p e lo P = Ok e.
Proof.
  intros M H L. cbn [back]. destruct (Z.leb_spec lo e); [|lia]. rewrite (ld_ok _ _ _ M). cbn [bind]. rewrite H. reflexivity.
Qed.
Lemma back_range f m p lo P : forall e b, back f m p e lo P = Ok b -> lo - 1 <= e -> lo - 1 <= b <= e.
Proof.
  induction f as [|f IH]; intros e b E L; [discriminate|]. cbn [back] in E. destruct (Z.leb_spec lo e); [|injection E as <-; lia].
  destruct (ld m (p + e)); try discriminate. cbn [bind] in E. destruct (P a); [apply IH in E; lia|injection E as <-; lia].
Qed.
Lemma cstr_within m p s q x : cstr m p s -> cstr m q x -> p <= q <= p + len s -> q + len x <= p + len s.
Proof.
  intros C [F B] L. apply cstr_end in C. destruct (Z_le_gt_dec (q + len x) (p + len s)) as [|G]; [assumption|exfalso].
  apply bytes_at_app in B. destruct B as [B _].
  assert (exists y z c, x = y ++ c :: z /\ len y = p + len s - q) as (y & z & c & -> & Y).
  { destruct (nth_split x 0 (n := Z.to_nat (p + len s - q))) as (y & z & E & Y); [unfold len in *; lia|].
    exists y, z, (nth (Z.to_nat (p + len s - q)) x 0). split; [exact E|]. unfold len at 1. rewrite Y. lia. }
  apply bytes_at_app in B. destruct B as [_ [B _]]. rewrite Y in B. replace (q + (p + len s - q)) with (p + len s) in B by lia. rewrite C in B. injection B as <-.
  apply Forall_app in F. destruct F as [_ F]. inversion F as [|? ? F0 _]; subst. unfold is_char in F0. lia.
Qed.
Lemma basename_keep fuel m p s x : p <> NULL -> cstr m p s -> (length s < fuel)%nat -> ~ ends_slash s -> basename_of s x ->
  exists m' r, basename fuel m p = Ok (m', r) /\ result_is m' r x /\ (forall a, m' a = m a) /\ (forall q, r = Ptr q -> p <= q /\ q + len x <= p + len s).
Proof.
  intros N C F NS B. destruct (basename_ok fuel m p s x N C F B) as (m' & r & E & R & _).
  exists m', r. split; [exact E|]. split; [exact R|].
  unfold basename in E. destruct (Z.eqb_spec p NULL); [contradiction|]. rewrite (strlen_ok s fuel m p N C F) in E. cbn [bind] in E.
  destruct (Z.eqb_spec (len s) 0) as [Z0|Z0]; [injection E as <- <-; split; [reflexivity|discriminate]|].
  destruct (exists_last (l := s)) as (q & c & ->); [intros ->; apply Z0; reflexivity|].
  assert (NC : c <> 47) by (intros ->; apply NS; exists q; reflexivity).
  pose proof C as C'. destruct C as [_ C]. rewrite <- app_assoc in C. apply bytes_at_app in C. destruct C as [_ C]. cbn [app bytes_at] in C. destruct C as (C1 & C2 & _).
  rewrite len_app, len_cons, len_nil in E. pose proof (len_nonneg q).
  destruct fuel as [|fuel]; [lia|].
  replace (len q + (0 + 1) - 1) with (len q) in E by lia.
  rewrite (back_stop fuel m p (len q) 0 slash c) in E; [|exact C1|unfold slash; apply Z.eqb_neq, NC|lia]. cbn [bind] in E.
  destruct (Z.eqb_spec (len q) (-1)); [lia|].
  destruct (back (S fuel) m p (len q) 0 noslash) as [b| | |] eqn:BK; cbn [bind] in E; try discriminate.
  apply back_range in BK; [|lia].
  replace (p + (len q + 1)) with (p + len q + 1) in E by lia.
  rewrite (st_ok m _ 0 (ex_intro _ _ C2)) in E. cbn [bind] in E. injection E as EM ER.
  assert (K : forall a, m' a = m a) by (intros a; subst m'; unfold upd; destruct (Z.eqb_spec a (p + len q + 1)) as [->|]; [symmetry; exact C2|reflexivity]).
  split; [exact K|]. intros y Y. rewrite Y in *. cbn [result_is] in R. injection ER as <-.
  split; [lia|]. apply (cstr_within m p (q ++ [c])); [exact C'| |rewrite len_app, len_cons, len_nil; lia].
  apply (cstr_ext m'); [intros; symmetry; apply K|exact R].
Qed.

Lemma count_ok w : forall ps k a, words_at w (a + 8 * k) (ps ++ [0]) -> Forall (fun p => p <> 0) ps -> forall fuel, (length ps < fuel)%nat ->
  count_null fuel w a k = Ok (k + len ps).
Proof.
  induction ps as [|p ps IH]; intros k a W F fuel L; (destruct fuel as [|fuel]; [lia|]); cbn [app] in W; destruct W as [W1 W2]; cbn [count_null].
  - rewrite (ldw_ok _ _ _ W1). cbn [bind]. change (0 =? 0) with true. rewrite len_nil. f_equal. lia.
  - rewrite (ldw_ok _ _ _ W1). cbn [bind]. inversion F; subst. destruct (Z.eqb_spec p 0); [contradiction|].
    replace (a + 8 * k + 8) with (a + 8 * (k + 1)) in W2 by lia. cbn [length] in L. rewrite (IH (k + 1) a W2) by (try assumption; lia).
    rewrite len_cons. f_equal. lia.
Qed.
Lemma skip_ok w : forall ps a, words_at w a (ps ++ [0]) -> Forall (fun p => p <> 0) ps -> forall fuel, (length ps < fuel)%nat ->
  skip_null fuel w a = Ok (a + 8 * len ps).
Proof.
  induction ps as [|p ps IH]; intros a W F fuel L; (destruct fuel as [|fuel]; [lia|]); cbn [app] in W; destruct W as [W1 W2]; cbn [skip_null].
  - rewrite (ldw_ok _ _ _ W1). cbn [bind]. change (0 =? 0) with true. rewrite len_nil. f_equal. lia.
  - rewrite (ldw_ok _ _ _ W1). cbn [bind]. inversion F; subst. destruct (Z.eqb_spec p 0); [contradiction|]. cbn [length] in L.
    rewrite (IH _ W2) by (try assumption; lia). rewrite len_cons. f_equal. lia.
Qed.
Lemma points_nonnull m ps ss : points m ps ss -> Forall (fun p => p <> 0) ps.
Proof. induction 1 as [|p s ps ss [N _] _ IH]; constructor; assumption. Qed.
Lemma points_len m ps ss : points m ps ss -> len ps = len ss.
Proof. induction 1; [reflexivity|]. rewrite !len_cons. lia. Qed.
Lemma points_chars m ps ss : points m ps ss -> Forall (Forall is_char) ss.
Proof. induction 1 as [|p s ps ss [_ [C _]] _ IH]; constructor; assumption. Qed.
Lemma points_same m m' ps ss : (forall a, m' a = m a) -> points m ps ss -> points m' ps ss.
Proof.
  intros H. induction 1 as [|p s ps ss [N [C1 C2]] _ IH]; constructor; [|exact IH]. split; [exact N|]. split; [exact C1|].
  apply (bytes_at_ext m); [intros; apply H|exact C2].
Qed.
Lemma stack_parts w sp args env aux : stack w sp args env aux ->
  w sp = Some (len args) /\ words_at w (argv_of sp) (args ++ [0])
  /\ words_at w (envp_of sp (len args)) (env ++ [0])
  /\ words_at w (envp_of sp (len args) + 8 * (len env + 1)) (flat_map (fun kv => [fst kv; snd kv]) aux ++ [0]).
Proof.
  unfold stack, argv_of, envp_of, argv_of. cbn [words_at]. intros [H1 H2]. split; [exact H1|].
  replace (args ++ 0 :: env ++ 0 :: flat_map (fun kv => [fst kv; snd kv]) aux ++ [0])
    with ((args ++ [0]) ++ (env ++ [0]) ++ flat_map (fun kv => [fst kv; snd kv]) aux ++ [0]) in H2 by (rewrite <- !app_assoc; reflexivity).
  apply words_app in H2. destruct H2 as [H2 H3]. apply words_app in H3. destruct H3 as [H3 H4].
  rewrite len_app, len_cons, len_nil in H3, H4. rewrite len_app, len_cons, len_nil in H4. split; [exact H2|]. split.
  - replace (sp + 8 + 8 * (len args + 1)) with (sp + 8 + 8 * (len args + (0 + 1))) by lia. exact H3.
  - replace (sp + 8 + 8 * (len args + 1) + 8 * (len env + 1)) with (sp + 8 + 8 * (len args + (0 + 1)) + 8 * (len env + (0 + 1))) by lia. exact H4.
Qed.

Lemma auxv_ok fuel w sp args env aux : stack w sp args env aux -> Forall (fun p => p <> 0) env -> (length env < fuel)%nat ->
  auxv_of fuel w sp (len args) = Ok (envp_of sp (len args) + 8 * (len env + 1)).
Proof.
  intros S N F. destruct (stack_parts _ _ _ _ _ S) as (_ & _ & E & _). unfold auxv_of. rewrite (skip_ok w env _ E N fuel F). cbn [bind]. f_equal. lia.
Qed.
Fixpoint lookup (aux : list (Z * Z)) (k : Z) : option Z :=
  match aux with [] => None | (a, v) :: r => if a =? k then Some v else lookup r k end.
Lemma raw_ok w k : forall aux a fuel, words_at w a (flat_map (fun kv => [fst kv; snd kv]) aux ++ [0]) ->
  Forall (fun kv => fst kv <> 0) aux -> (length aux < fuel)%nat -> get_auxv_raw fuel w a k = Ok (lookup aux k).
Proof.
  induction aux as [|[x v] aux IH]; intros a fuel W N F; (destruct fuel as [|fuel]; [lia|]); cbn [get_auxv_raw].
  - cbn in W. destruct W as [W _]. rewrite (ldw_ok _ _ _ W). reflexivity.
  - cbn [flat_map app fst snd] in W. destruct W as (W1 & W2 & W3). inversion N as [|? ? N1 N2]; subst. cbn [fst] in N1.
    rewrite (ldw_ok _ _ _ W1). cbn [bind]. destruct (Z.eqb_spec x 0); [contradiction|]. rewrite (ldw_ok _ _ _ W2). cbn [bind lookup].
    destruct (x =? k); [reflexivity|]. replace (a + 8 + 8) with (a + 16) in W3 by lia. cbn [length] in F. apply IH; [exact W3|exact N2|lia].
Qed.

Lemma start_ok fuel m w sp ps es aux args env alloc alloc2 short :
  stack w sp ps es aux -> points m ps args -> points m es env ->
  Forall (fun s => (length s < fuel)%nat) args -> Forall (fun s => (length s < fuel)%nat) env -> (length es < fuel)%nat ->
  let b1 := alloc (len (flat args)) in let b2 := alloc2 (len (flat env)) in
  b1 <> 0 -> mapped m b1 (len (flat args)) -> mapped m b2 (len (flat env)) -> disjoint b1 (len (flat args)) b2 (len (flat env)) ->
  apart b1 (len (flat args)) ps args -> apart b1 (len (flat args)) es env -> apart b2 (len (flat env)) es env ->
  match args with [] => short = [46] | a0 :: _ => ~ ends_slash a0 /\ basename_of a0 short end ->
  exists m' sn, start fuel m w sp None alloc alloc2
      = Ok (m', P (len args) (places b1 args ++ [0]) (places b2 env ++ [0]) (match args with [] => 0 | _ => b1 end) sn)
    /\ Forall2 (fun p s => cstr m' p s) (places b1 args) args /\ Forall2 (fun p s => cstr m' p s) (places b2 env) env
    /\ (forall x, ~ (b1 <= x < b1 + len (flat args)) -> ~ (b2 <= x < b2 + len (flat env)) -> m' x = m x)
    /\ result_is m' sn short.
Proof.
  intros ST PA PE FA FE FL b1 b2 NB M1 M2 D A1 A2 A3 SH.
  destruct (stack_parts _ _ _ _ _ ST) as (S1 & S2 & S3 & _).
  unfold start. rewrite (ldw_ok _ _ _ S1). cbn [bind].
  assert (LP : len ps = len args) by exact (points_len _ _ _ PA).
  assert (LE : len es = len env) by exact (points_len _ _ _ PE).
  pose proof (proj1 (proj1 (words_app w ps (argv_of sp) [0]) S2)) as S2'.
  pose proof (proj1 (proj1 (words_app w es (envp_of sp (len ps)) [0]) S3)) as S3'.
  destruct (copy_array_ok fuel m w (argv_of sp) ps args alloc S2' PA FA M1 A1) as (m1 & E1 & T1). fold b1 in E1, T1.
  rewrite E1. cbn [bind].
  assert (BN : exists m2 sn, basename fuel m1 (match places b1 args ++ [0] with p :: _ => p | [] => 0 end) = Ok (m2, sn)
     /\ (forall x, m2 x = m1 x) /\ result_is m2 sn short /\ (forall q, sn = Ptr q -> b1 <= q /\ q + len short + 1 <= b1 + len (flat args))).
  { destruct args as [|a0 r].
    - exists m1, (Lit [46]). subst short. split; [reflexivity|]. split; [reflexivity|]. split; [reflexivity|discriminate].
    - destruct SH as [NS BO]. cbn [places app].
      pose proof (points_chars _ _ _ PA) as CH. pose proof (places_ok m1 (a0 :: r) b1 (proj1 T1) CH) as PO. cbn [places] in PO.
      inversion PO as [|? ? ? ? C0 _]; subst. inversion FA; subst.
      destruct (basename_keep fuel m1 b1 a0 short NB C0 ltac:(assumption) NS BO) as (m2 & sn & E & R & K & Q).
      exists m2, sn. split; [exact E|]. split; [exact K|]. split; [exact R|]. intros q Hq. apply Q in Hq. rewrite flat_len. pose proof (len_nonneg (flat r)). lia. }
  destruct BN as (m2 & sn & E2 & K2 & R2 & Q2). rewrite E2. cbn [bind].
  rewrite (count_ok w es 0 (envp_of sp (len ps))) with (fuel := fuel); [|replace (envp_of sp (len ps) + 8 * 0) with (envp_of sp (len ps)) by lia; exact S3|apply (points_nonnull _ _ _ PE)|exact FL].
  cbn [bind]. rewrite Z.add_0_l.
  assert (PE2 : points m2 es env) by (apply (points_same m1 m2); [exact K2|]; apply (points_frame m m1 b1 (flat args)); [exact T1|exact A2|exact PE]).
  assert (M2' : mapped m2 b2 (len (flat env))).
  { intros x Hx. rewrite K2. apply (stored_mapped m m1 _ _ _ _ T1 M2). exact Hx. }
  destruct (copy_array_ok fuel m2 w (envp_of sp (len ps)) es env alloc2 S3' PE2 FE M2' A3) as (m3 & E3 & T3). fold b2 in E3, T3.
  rewrite E3. cbn [bind]. exists m3, sn.
  assert (KB : forall x, b1 <= x < b1 + len (flat args) -> m3 x = m1 x).
  { intros x Hx. rewrite (proj2 T3) by (unfold disjoint in D; lia). apply K2. }
  split; [|split; [|split; [|split]]].
  - rewrite LP. destruct args; reflexivity.
  - apply places_ok; [|apply (points_chars _ _ _ PA)]. apply (bytes_at_ext m1); [exact KB|apply T1].
  - apply places_ok; [apply T3|apply (points_chars _ _ _ PE)].
  - intros x X1 X2. rewrite (proj2 T3) by exact X2. rewrite K2. apply (proj2 T1), X1.
  - destruct sn as [q|l]; [|exact R2]. cbn [result_is] in *. apply (cstr_ext m2); [|exact R2]. intros x Hx.
    specialize (Q2 q eq_refl). rewrite KB by lia. symmetry. apply K2.
Qed.

Lemma aux_find fuel w sp args env aux k : stack w sp args env aux -> Forall (fun p => p <> 0) env -> Forall (fun kv => fst kv <> 0) aux ->
  (length env < fuel)%nat -> (length aux < fuel)%nat ->
  exists a, auxv_of fuel w sp (len args) = Ok a
    /\ (forall pre v rest, aux = pre ++ (k, v) :: rest -> ~ In k (map fst pre) -> get_auxv_raw fuel w a k = Ok (Some v))
    /\ (~ In k (map fst aux) -> get_auxv_raw fuel w a k = Ok None).
Proof.
  intros S N NA F FA. eexists. split; [exact (auxv_ok fuel w sp args env aux S N F)|].
  destruct (stack_parts _ _ _ _ _ S) as (_ & _ & _ & X). rewrite (raw_ok w k aux _ fuel X NA FA). clear. split.
  - intros pre v rest -> NI. f_equal. induction pre as [|[x y] pre IH]; cbn [app lookup]; [rewrite Z.eqb_refl; reflexivity|].
    cbn in NI. destruct (Z.eqb_spec x k); [tauto|]. apply IH. tauto.
  - intros NI. f_equal. induction aux as [|[x y] aux IH]; cbn [lookup]; [reflexivity|]. cbn in NI. destruct (Z.eqb_spec x k); [tauto|]. apply IH. tauto.
Qed.
Lemma start_env fuel m w sp e alloc alloc2 m' p : start fuel m w sp (Some e) alloc alloc2 = Ok (m', p) -> environ p = e.
Proof.
  unfold start. intros H. destruct (ldw w sp); try discriminate. cbn [bind] in H.
  destruct (copy_string_array fuel m w (argv_of sp) a alloc) as [[m1 v]| | |]; try discriminate. cbn [bind] in H.
  destruct (basename fuel m1 _) as [[m2 s]| | |]; try discriminate. cbn [bind] in H. injection H as _ <-. reflexivity.
Qed.

(* a program called with two arguments and one variable *)
Definition eg_words (a0 : Z) : words := fun a =>
  nth (Z.to_nat (a / 8)) [None; Some 2; Some a0; Some 110; Some 0; Some 120; Some 0; Some 6; Some 4096; Some 0] None.
Definition eg_mem : mem := mem_of 100 ([47; 98; 47; 97; 0] ++ [120; 47; 0] ++ [1; 1] ++ [45; 108; 0] ++ [1; 1; 1; 1; 1; 1; 1] ++ [65; 61; 49; 0] ++ repeat 1 76).
Definition eg_stack : stack (eg_words 100) 8 [100; 110] [120] [(6, 4096)].
Proof. unfold stack, eg_words. cbn. repeat split. Qed.
Definition eg_stack2 : stack (eg_words 105) 8 [105; 110] [120] [(6, 4096)].
Proof. unfold stack, eg_words. cbn. repeat split. Qed.
Lemma eg_points : points eg_mem [100; 110] [[47; 98; 47; 97]; [45; 108]] /\ points eg_mem [120] [[65; 61; 49]]
  /\ points eg_mem [105; 110] [[120; 47]; [45; 108]].
Proof.
  unfold points, cstr, eg_mem, is_char.
  split; [|split]; repeat (constructor; [split; [lia|]; split; [repeat constructor; lia|vm_compute; repeat split]|]); constructor.
Qed.
Lemma eg_mapped a n : 100 <= a -> a + n <= 200 -> mapped eg_mem a n.
Proof.
  intros L1 L2 x Hx. unfold eg_mem, mem_of. destruct (Z.leb_spec 100 x); [|lia].
  match goal with |- exists b, nth_error ?l ?i = Some b => destruct (nth_error l i) as [b|] eqn:E; [exists b; reflexivity|] end.
  apply nth_error_None in E. exfalso. cbn [length app repeat] in E. lia.
Qed.
