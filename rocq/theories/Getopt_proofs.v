(* Proofs for C45 and C46. *)
From Verif Require Import Base String_model String_spec String_proofs Inet_model Inet_proofs Getopt_model Getopt_spec.

Lemma schar_id c : c < 128 -> schar c = c.
Proof. intro H. unfold schar. destruct (Z.ltb_spec c 128); [reflexivity|lia]. Qed.
Lemma arg_at argv dn p r i : argv = dn ++ p :: r -> len dn = i -> arg argv i = Ok p.
Proof.
  intros -> L. unfold arg. pose proof (len_nonneg dn). destruct (Z.ltb_spec i 0); [lia|].
  rewrite nth_error_app2 by (unfold len in L; lia). replace (Z.to_nat i - length dn)%nat with 0%nat by (unfold len in L; lia). reflexivity.
Qed.

Lemma find_letter O c k : letter O c k -> 0 < c -> forall fuel m o, cstr m o O -> (length O < fuel)%nat -> find_option fuel m c o = Ok (Some k).
Proof.
  intros (_ & a & b & -> & N & K) C0. revert N. induction a as [|x a IH]; intros N fuel m o C F; (destruct fuel as [|f]; [lia|]); cbn [find_option app length] in *.
  - apply cstr_cons in C. destruct C as (CH & E & C). rewrite (ld_ok _ _ _ E). cbn [bind]. destruct (Z.eqb_spec c 0); [lia|]. rewrite Z.eqb_refl.
    destruct b as [|y b].
    + apply cstr_nil in C. rewrite (ld_ok _ _ _ C). cbn [bind]. cbn in K. destruct k; [exfalso; destruct K as (K & _); specialize (K eq_refl); lia|reflexivity].
    + apply cstr_cons in C. destruct C as (_ & E2 & _). rewrite (ld_ok _ _ _ E2). cbn [bind]. cbn [hd] in K.
      destruct (Z.eqb_spec y 58) as [->|NY]; destruct k; try reflexivity; exfalso; [destruct K as (_ & K); discriminate (K eq_refl)|apply NY, K; reflexivity].
  - apply cstr_cons in C. destruct C as (CH & E & C). rewrite (ld_ok _ _ _ E). cbn [bind]. unfold is_char in CH. destruct (Z.eqb_spec x 0); [lia|].
    destruct (Z.eqb_spec x c) as [->|_]; [exfalso; apply N; left; reflexivity|]. apply IH; [intro; apply N; right; assumption|exact C|lia].
Qed.
Lemma find_unknown O c : ~ In c O -> forall fuel m o, cstr m o O -> (length O < fuel)%nat -> find_option fuel m c o = Ok None.
Proof.
  induction O as [|x O IH]; intros N fuel m o C F; (destruct fuel as [|f]; [lia|]); cbn [find_option length] in *.
  - apply cstr_nil in C. rewrite (ld_ok _ _ _ C). reflexivity.
  - apply cstr_cons in C. destruct C as (CH & E & C). rewrite (ld_ok _ _ _ E). cbn [bind]. unfold is_char in CH. destruct (Z.eqb_spec x 0); [lia|].
    destruct (Z.eqb_spec x c) as [->|_]; [exfalso; apply N; left; reflexivity|]. apply IH; [intro; apply N; right; assumption|exact C|lia].
Qed.

Section Calls.
Variables (fuel : nat) (m : mem) (argv : list Z) (ostr : Z) (O : list Z) (ap : Z) (prog : list Z) (opterr li : Z)
  (T : option (list lopt)) (tp : option (list longopt)).
Notation same_opt := (same_opt m).
Hypothesis HO : cstr m ostr O.
Hypothesis FO : (length O < fuel)%nat.
Hypothesis HP : cstr m ap prog.
Hypothesis FP : (length prog < fuel)%nat.
Hypothesis H0 : arg argv 0 = Ok ap.
Hypothesis HT : match T, tp with None, None => True | Some t, Some p => Forall2 same_opt p t | _, _ => False end.

Definition strs (r : list (Z * list Z)) : Prop :=
  Forall (fun a => 0 < fst a /\ cstr m (fst a) (snd a) /\ (length (snd a) < fuel)%nat) r.
Definition holds (i : Z) (cl : option (Z * list Z)) (r : list (Z * list Z)) (s : gst) : Prop :=
  optind s = i /\ 1 <= i /\ strs r /\ exists dn, argv = dn ++ map fst r /\
  match cl with
  | None => (len dn = i \/ r = [] /\ len argv <= i) /\ (cur s = NULL \/ m (cur s) = Some 0)
  | Some (p, cs) => len dn = i + 1 /\ cur s = p /\ 0 < p /\ cs <> [] /\ cstr m p cs
  end.

Lemma hd_ostr : ld m ostr = Ok (hd 0 O).
Proof. apply ld_ok. destruct O; [apply cstr_nil in HO; exact HO|apply cstr_cons in HO; apply HO]. Qed.
Lemma print_ok s d c : exists t, print_error fuel m argv s d c = Ok (GS (optarg s) (optind s) (optopt s) (cur s) t (ints s)).
Proof. unfold print_error. rewrite H0. cbn [bind]. rewrite (read_str_ok prog) by assumption. cbn [bind]. eexists. reflexivity. Qed.
Lemma maybe_print s d c : exists t, (if negb (opterr =? 0) then print_error fuel m argv s d c else Ok s) = Ok (GS (optarg s) (optind s) (optopt s) (cur s) t (ints s)).
Proof. destruct (negb (opterr =? 0)); [apply print_ok|]. exists (err s). destruct s; reflexivity. Qed.
(* the byte after a letter *)
Lemma after_letter p c cs : cstr m p (c :: cs) -> exists b, m (p + 1) = Some b /\ (b =? 0) = match cs with [] => true | _ => false end.
Proof.
  intro C. apply cstr_cons in C. destruct C as (_ & _ & C). destruct cs as [|x cs].
  - apply cstr_nil in C. exists 0. auto.
  - apply cstr_cons in C. destruct C as (CH & E & _). exists x. split; [exact E|]. unfold is_char in CH. apply Z.eqb_neq. lia.
Qed.

Definition ends (s s' : gst) (e : event) : Prop :=
  optarg s' = e_arg e /\ optind s' = e_ind e /\ (forall c, e_opt e = Some c -> optopt s' = c) /\ ints s' = ints s ++ e_ints e.

Lemma parse_ok i p cs r ev f s dn : opts O T li i (Some (p, cs)) r ev f -> optind s = i -> 1 <= i -> optarg s = NULL -> 0 < p -> cstr m p cs ->
  argv = dn ++ map fst r -> len dn = i + 1 -> strs r ->
  exists e ev' s' i' cl' r', ev = e :: ev' /\ parse_arg fuel m (len argv) argv p ostr opterr s = Ok (s', e_ret e) /\ ends s s' e /\
    opts O T li i' cl' r' ev' f /\ holds i' cl' r' s'.
Proof.
  intros H OI I1 OA P0 C AV LD SR. unfold parse_arg.
  assert (NC : forall c cs', cs = c :: cs' -> ld m p = Ok c /\ 0 < c) by (intros c cs' ->; apply cstr_cons in C; destruct C as (CH & E & _); unfold is_char in CH; split; [apply ld_ok; exact E|lia]).
  (* the state after a letter without argument *)
  assert (UPD : forall c cs' s1, cs = c :: cs' -> optind s1 = i -> optarg s1 = NULL ->
    exists s2, update_current_opt m s1 p = Ok s2 /\ optarg s2 = NULL /\ optind s2 = (match cs' with [] => i + 1 | _ => i end) /\ optopt s2 = optopt s1 /\ ints s2 = ints s1 /\
      forall s3, optind s3 = optind s2 -> cur s3 = cur s2 -> holds (match cs' with [] => i + 1 | _ => i end) (match cs' with [] => None | _ => Some (p + 1, cs') end) r s3).
  { intros c cs' s1 -> O1 A1. destruct (after_letter p c cs' C) as (b & B1 & B2). unfold update_current_opt. rewrite (ld_ok _ _ _ B1). cbn [bind]. rewrite B2, O1, A1.
    eexists. split; [reflexivity|]. cbn. repeat split; try (destruct cs'; reflexivity).
    - rewrite H1. destruct cs'; reflexivity.
    - destruct cs'; lia.
    - exact SR.
    - exists dn. split; [exact AV|]. destruct cs' as [|x cs'].
      + split; [left; exact LD|]. right. rewrite H2. cbn. rewrite B1. f_equal. apply Z.eqb_eq. exact B2.
      + split; [exact LD|]. split; [exact H2|]. split; [lia|]. split; [discriminate|]. apply cstr_cons in C. apply C. }
  inversion H as [| | | |i0 p0 c cs' r0 ev' f0 LT C128 NX|i0 p0 c cs' r0 ev' f0 UN C128 QK NX|i0 p0 c cs' r0 ev' f0 LT C128 CN NX|i0 p0 c q t r0 ev' f0 LT C128 NX|i0 p0 c LT C128| | | |]; subst i0 p0; try subst r0; try subst f0; subst cs ev.
  - destruct (NC c cs' eq_refl) as (L & C0). rewrite L. cbn [bind]. rewrite (find_letter O c false LT C0 fuel m ostr HO FO). cbn [bind].
    destruct (UPD c cs' s eq_refl OI OA) as (s2 & U & A2 & I2 & P2 & N2 & HH). rewrite U. cbn [bind]. rewrite (schar_id c C128).
    eexists. eexists. exists s2. do 3 eexists. split; [reflexivity|]. split; [reflexivity|]. split; [split; [exact A2|]; split; [exact I2|]; split; [discriminate|cbn; rewrite app_nil_r; exact N2]|].
    split; [exact NX|]. apply HH; reflexivity.
  - destruct (NC c cs' eq_refl) as (L & C0). rewrite L. cbn [bind]. rewrite (find_unknown O c) by (auto; destruct UN as [->|UN]; auto). cbn [bind].
    destruct (maybe_print s msg_illegal c) as (t & MP). rewrite MP. cbn [bind].
    destruct (UPD c cs' (GS (optarg s) (optind s) (optopt s) (cur s) t (ints s)) eq_refl OI OA) as (s2 & U & A2 & I2 & P2 & N2 & HH). rewrite U. cbn [bind]. rewrite (schar_id c C128).
    eexists. eexists. eexists. do 3 eexists. split; [reflexivity|]. split; [reflexivity|].
    split; [split; [exact A2|]; split; [exact I2|]; split; [intros c' [= <-]; reflexivity|cbn in *; rewrite app_nil_r; exact N2]|].
    split; [exact NX|]. apply HH; reflexivity.
  - destruct (NC c cs' eq_refl) as (L & C0). rewrite L. cbn [bind]. rewrite (find_letter O c true LT C0 fuel m ostr HO FO). cbn [bind].
    destruct (after_letter p c cs' C) as (b & B1 & B2). rewrite (ld_ok _ _ _ B1). cbn [bind]. rewrite B2. destruct cs' as [|x cs']; [congruence|]. rewrite (schar_id c C128).
    eexists. eexists. eexists. do 3 eexists. split; [reflexivity|]. split; [reflexivity|]. split; [repeat split; cbn; [rewrite OI; reflexivity|discriminate|rewrite app_nil_r; reflexivity]|].
    split; [exact NX|]. split; [cbn; rewrite OI; reflexivity|]. split; [lia|]. split; [exact SR|]. exists dn. split; [exact AV|]. split; [left; exact LD|left; reflexivity].
  - destruct (NC c [] eq_refl) as (L & C0). rewrite L. cbn [bind]. rewrite (find_letter O c true LT C0 fuel m ostr HO FO). cbn [bind].
    destruct (after_letter p c [] C) as (b & B1 & B2). rewrite (ld_ok _ _ _ B1). cbn [bind]. rewrite B2. cbn [optind optarg optopt cur err ints]. rewrite OI. subst r. cbn [map fst] in AV.
    destruct (Z.ltb_spec (len argv) (i + 2)) as [X|X].
    { exfalso. rewrite AV, len_app, len_cons in X. pose proof (len_nonneg (map fst r0)). lia. }
    rewrite (arg_at argv dn q (map fst r0) (i + 2 - 1) AV) by lia. cbn [bind]. rewrite (schar_id c C128). inversion SR as [|? ? S1 S2]; subst.
    eexists. eexists. eexists. do 3 eexists. split; [reflexivity|]. split; [reflexivity|]. split; [repeat split; cbn; [discriminate|rewrite app_nil_r; reflexivity]|].
    split; [exact NX|]. split; [reflexivity|]. split; [lia|]. split; [exact S2|]. exists (dn ++ [q]). rewrite <- app_assoc. split; [exact AV|].
    split; [left; rewrite len_app; change (len [q]) with 1; lia|left; reflexivity].
  - destruct (NC c [] eq_refl) as (L & C0). rewrite L. cbn [bind]. rewrite (find_letter O c true LT C0 fuel m ostr HO FO). cbn [bind].
    destruct (after_letter p c [] C) as (b & B1 & B2). rewrite (ld_ok _ _ _ B1). cbn [bind]. rewrite B2. cbn [optind optarg optopt cur err ints]. rewrite OI. subst r. cbn [map] in AV. rewrite app_nil_r in AV.
    destruct (Z.ltb_spec (len argv) (i + 2)) as [X|X]; [|exfalso; rewrite AV in X; lia].
    rewrite hd_ostr. cbn [bind]. rewrite (schar_id c C128). unfold missing.
    assert (RES : exists t, (if hd 0 O =? 58 then Ok (GS (optarg s) (i + 2) c NULL (err s) (ints s), 58)
       else s0 <- (if negb (opterr =? 0) then print_error fuel m argv (GS (optarg s) (i + 2) c NULL (err s) (ints s)) msg_requires c else Ok (GS (optarg s) (i + 2) c NULL (err s) (ints s))) ;; Ok (s0, 63))
      = Ok (GS (optarg s) (i + 2) c NULL t (ints s), if hd 0 O =? 58 then 58 else 63)).
    { destruct (hd 0 O =? 58); [eexists; reflexivity|]. destruct (maybe_print (GS (optarg s) (i + 2) c NULL (err s) (ints s)) msg_requires c) as (t & ->). cbn [bind]. eexists. reflexivity. }
    destruct RES as (t & RES). rewrite RES. eexists. eexists. eexists. exists (i + 2), None, []. split; [reflexivity|]. split; [reflexivity|].
    split; [split; [exact OA|]; split; [reflexivity|]; split; [intros c' [= <-]; reflexivity|cbn; rewrite app_nil_r; reflexivity]|].
    split; [constructor|]. split; [reflexivity|]. split; [lia|]. split; [constructor|]. exists argv. split; [rewrite app_nil_r; reflexivity|].
    split; [right; split; [reflexivity|lia]|left; reflexivity].
Qed.

Lemma dashes_ok p s : cstr m p s -> exists b, is_dashes m p = Ok b /\ (b = true <-> s = [45; 45]).
Proof.
  intro C. unfold is_dashes. destruct s as [|a s].
  - apply cstr_nil in C. rewrite (ld_ok _ _ _ C). exists false. split; [reflexivity|]. split; discriminate.
  - apply cstr_cons in C. destruct C as (CA & EA & C). rewrite (ld_ok _ _ _ EA). cbn [bind].
    destruct (Z.eqb_spec a 45) as [->|NA]; cbn [negb]; [|exists false; split; [reflexivity|]; split; [discriminate|intros [= ->]; congruence]].
    destruct s as [|b s].
    + apply cstr_nil in C. rewrite (ld_ok _ _ _ C). exists false. split; [reflexivity|]. split; discriminate.
    + apply cstr_cons in C. destruct C as (CB & EB & C). rewrite (ld_ok _ _ _ EB). cbn [bind].
      destruct (Z.eqb_spec b 45) as [->|NB]; cbn [negb]; [|exists false; split; [reflexivity|]; split; [discriminate|intros [= ->]; congruence]].
      replace (p + 1 + 1) with (p + 2) in C by lia. destruct s as [|c s].
      * apply cstr_nil in C. rewrite (ld_ok _ _ _ C). exists true. split; [reflexivity|]. split; reflexivity.
      * apply cstr_cons in C. destruct C as (CC & EC & _). rewrite (ld_ok _ _ _ EC). cbn [bind]. unfold is_char in CC.
        exists (c =? 0). split; [reflexivity|]. split; [intro X; apply Z.eqb_eq in X; lia|discriminate].
Qed.

(* ---- long options ---- *)
(* the name at ca is t, ended by z *)
Definition name_at (ca : Z) (t : list Z) (z : Z) : Prop :=
  Forall (fun c => is_char c /\ c <> 61) t /\ bytes_at m ca t /\ m (ca + len t) = Some z /\ (z = 0 \/ z = 61) /\ (length t < fuel)%nat.

Lemma name_end_ok t z : forall f ca n, Forall (fun c => is_char c /\ c <> 61) t -> bytes_at m (ca + n) t -> m (ca + n + len t) = Some z -> z = 0 \/ z = 61 ->
  (length t < f)%nat -> name_end f m ca n = Ok (n + len t).
Proof.
  induction t as [|c t IH]; intros f ca n F B E Z1 FU; (destruct f as [|f]; [lia|]); cbn [name_end].
  - change (len []) with 0 in *. rewrite Z.add_0_r in *. rewrite (ld_ok _ _ _ E). cbn [bind]. replace ((z =? 0) || (z =? 61)) with true by lia. reflexivity.
  - destruct B as (B1 & B2). rewrite (ld_ok _ _ _ B1). cbn [bind]. inversion F as [|? ? (CH & N61) F2]; subst. unfold is_char in CH.
    replace ((c =? 0) || (c =? 61)) with false by lia. rewrite len_cons in *. rewrite IH; auto.
    + f_equal. lia.
    + replace (ca + (n + 1)) with (ca + n + 1) by lia. exact B2.
    + replace (ca + (n + 1) + len t) with (ca + n + (len t + 1)) by lia. exact E.
    + cbn [length] in FU. lia.
Qed.
Lemma lex_eq l : forall k, lex l k = Eq <-> l = k.
Proof.
  induction l as [|x l IH]; intros [|y k]; cbn; try (split; congruence).
  destruct (Z.compare_spec x y) as [->|X|X]; [rewrite IH; split; congruence| |]; (split; [discriminate|intros [= -> _]; lia]).
Qed.
Lemma prefix_firstn (t s : list Z) : prefix t s <-> firstn (length t) s = t.
Proof.
  split.
  - intros (r & ->). rewrite firstn_app, Nat.sub_diag, firstn_all. cbn. apply app_nil_r.
  - intro E. exists (skipn (length t) s). rewrite <- E at 1. symmetry. apply firstn_skipn.
Qed.
Lemma cmp_name ca t z np s : name_at ca t z -> cstr m np s ->
  exists r, strncmp fuel m ca np (len t) = Ok r /\ (r = 0 <-> prefix t s).
Proof.
  intros (F & B & E & Z1 & FU) C.
  destruct (strncmp_ok t (firstn (length t) s) fuel m ca np (len t)) as (r & S1 & S2).
  - split; [eapply Forall_impl; [|exact F]; intros c (X & _); exact X|]. split; [exact B|]. left. reflexivity.
  - destruct C as (CS & BS). split; [apply Forall_forall; intros x X; rewrite Forall_forall in CS; apply CS; rewrite <- (firstn_skipn (length t) s); apply in_or_app; left; exact X|].
    split.
    + rewrite <- (firstn_skipn (length t) s), <- app_assoc in BS. apply bytes_at_app in BS. apply BS.
    + destruct (le_lt_dec (length t) (length s)) as [LE|LT].
      * left. unfold len. rewrite firstn_length. lia.
      * right. rewrite firstn_all2 by lia. split; [unfold len; lia|]. apply bytes_at_app in BS. apply BS.
  - exact FU.
  - exists r. split; [exact S1|]. rewrite prefix_firstn. unfold sign_is in S2. destruct (lex t (firstn (length t) s)) eqn:X.
    + apply lex_eq in X. split; [intros _; symmetry; exact X|intros _; lia].
    + split; [lia|]. intro Y. rewrite Y in X. assert (Q : lex t t = Eq) by (apply lex_eq; reflexivity). congruence.
    + split; [lia|]. intro Y. rewrite Y in X. assert (Q : lex t t = Eq) by (apply lex_eq; reflexivity). congruence.
Qed.
Lemma long_loop_ok ca t z s : name_at ca t z -> forall tabp tab, Forall2 same_opt tabp tab -> forall k o i0,
  nth_error tab k = Some o -> prefix t (l_name o) -> none_before tab t k ->
  exists op, same_opt op o /\
    long_loop fuel m (len argv) argv ca ostr li i0 tabp s =
    (r <- take_long fuel m (len argv) argv ca (len t) ostr li (i0 + Z.of_nat k) op s ;; Ok (Some r)).
Proof.
  intros NA tabp tab F. pose proof NA as (F1 & B1 & E1 & Z1 & FU).
  induction F as [|op1 o1 tabp tab SO1 F IH]; intros k o i0 N P NB; [destruct k; discriminate|]. cbn [long_loop].
  rewrite (name_end_ok t z fuel ca 0) by (auto; rewrite Z.add_0_r; auto). cbn [bind]. rewrite Z.add_0_l.
  destruct (cmp_name ca t z (lo_name op1) (l_name o1) NA (proj1 SO1)) as (r & R1 & R2). rewrite R1. cbn [bind].
  destruct k as [|k].
  - injection N as ->. destruct (Z.eqb_spec r 0) as [_|X]; [|exfalso; apply X, R2, P]. exists op1. split; [exact SO1|]. rewrite Z.add_0_r. reflexivity.
  - destruct (Z.eqb_spec r 0) as [X|_]; [exfalso; apply (NB 0%nat o1); [lia|reflexivity|apply R2; exact X]|].
    destruct (IH k o (i0 + 1)) as (op & S2 & E); auto.
    { intros j o' J J2. apply (NB (S j) o'); [lia|exact J2]. }
    exists op. split; [exact S2|]. rewrite E. replace (i0 + 1 + Z.of_nat k) with (i0 + Z.of_nat (S k)) by lia. reflexivity.
Qed.

Definition call := getopt_long fuel m argv ostr tp li opterr.

Lemma name_split p t rest z : cstr m p (45 :: 45 :: t ++ rest) -> ~ In 61 t -> hd 0 rest = z -> z = 0 \/ z = 61 -> (length t < fuel)%nat -> name_at (p + 2) t z.
Proof.
  intros C N HZ Z1 FU. apply cstr_cons in C. destruct C as (_ & _ & C). apply cstr_cons in C. destruct C as (_ & _ & C). replace (p + 1 + 1) with (p + 2) in C by lia.
  destruct C as (CS & B). apply Forall_app in CS. destruct CS as (CT & CR). rewrite <- app_assoc in B. apply bytes_at_app in B. destruct B as (B1 & B2).
  split; [apply Forall_forall; intros c I; rewrite Forall_forall in CT; split; [apply CT; exact I|intros ->; contradiction]|]. split; [exact B1|].
  split; [|auto]. destruct rest as [|x rest]; cbn in HZ; subst; apply B2.
Qed.

(* the part of a call before the search *)
Lemma call_fresh i p s r st dn : holds i None ((p, s) :: r) st -> argv = dn ++ map fst ((p, s) :: r) -> len dn = i ->
  call st = let s0 := GS NULL i (optopt st) (cur st) (err st) (ints st) in
    a <- ld m p ;;
    if negb (a =? 45) then Ok (s0, -1)
    else b <- ld m (p + 1) ;;
      if b =? 0 then Ok (s0, -1)
      else dd <- is_dashes m p ;;
        if dd : bool then Ok (GS NULL (i + 1) (optopt st) (cur st) (err st) (ints st), -1)
        else match tp with
             | Some tab => if b =? 45 then
                 r <- long_loop fuel m (len argv) argv (p + 2) ostr li 0 tab s0 ;;
                 match r with Some r => Ok r | None => parse_arg fuel m (len argv) argv (p + 1) ostr opterr s0 end
               else parse_arg fuel m (len argv) argv (p + 1) ostr opterr s0
             | None => parse_arg fuel m (len argv) argv (p + 1) ostr opterr s0
             end.
Proof.
  intros (OI & I1 & SR & dn' & _ & _ & CU) AV LD. unfold call, getopt_long. destruct (Z.eqb_spec (optind st) 0); [lia|]. cbn [cur optind].
  assert (FR : (if cur st =? NULL then Ok true else b <- ld m (cur st) ;; Ok (b =? 0)) = Ok true).
  { destruct (Z.eqb_spec (cur st) NULL); [reflexivity|]. destruct CU as [CU|CU]; [contradiction|]. rewrite (ld_ok _ _ _ CU). reflexivity. }
  rewrite FR. cbn [bind]. rewrite OI. destruct (Z.leb_spec (len argv) i) as [X|X].
  { exfalso. rewrite AV, len_app in X. cbn [map fst] in X. rewrite len_cons in X. pose proof (len_nonneg (map fst r)). lia. }
  cbn [map fst] in AV. rewrite (arg_at argv dn p (map fst r) i AV LD). cbn [bind]. inversion SR as [|? ? (S1 & _) S2]; subst. cbn [fst] in S1.
  unfold NULL. destruct (Z.eqb_spec p 0); [lia|]. reflexivity.
Qed.

Lemma take_plain ca t z i k op o s : same_opt op o -> name_at ca t z -> z = 0 -> l_arg o = 0 \/ l_arg o = 2 -> optind s = i -> optarg s = NULL ->
  exists s', take_long fuel m (len argv) argv ca (len t) ostr li (0 + Z.of_nat k) op s = Ok (s', long_ret o) /\
    optarg s' = NULL /\ optind s' = i + 1 /\ ints s' = ints s ++ long_ints li k o /\ cur s' = cur s.
Proof.
  intros (_ & SA & SF & SV) (_ & _ & E & _) -> AR OI OA. unfold take_long, long_ret, long_ints. rewrite SA, SF, SV, Z.add_0_l. 
  assert (FIN : forall s1 : gst, (if l_flag o =? NULL then Ok (s1, l_val o)
     else Ok (GS (optarg s1) (optind s1) (optopt s1) (cur s1) (err s1) (ints s1 ++ [(l_flag o, l_val o)]), 0)) =
     Ok (if l_flag o =? NULL then s1 else GS (optarg s1) (optind s1) (optopt s1) (cur s1) (err s1) (ints s1 ++ [(l_flag o, l_val o)]), if l_flag o =? NULL then l_val o else 0)).
  { intro s1. destruct (l_flag o =? NULL); reflexivity. }
  destruct AR as [A|A]; rewrite A; cbn [Z.eqb Pos.eqb].
  - rewrite FIN. eexists. split; [reflexivity|]. destruct (l_flag o =? NULL); destruct (li =? NULL); cbn; rewrite ?OI, ?OA, ?app_nil_r, <- ?app_assoc; auto.
  - rewrite (ld_ok _ _ _ E). cbn [bind Z.eqb]. rewrite FIN. eexists. split; [reflexivity|]. destruct (l_flag o =? NULL); destruct (li =? NULL); cbn; rewrite ?OI, ?OA, ?app_nil_r, <- ?app_assoc; auto.
Qed.
Lemma take_value ca t z i k op o s : same_opt op o -> name_at ca t z -> z = 61 -> l_arg o = 1 \/ l_arg o = 2 -> optind s = i ->
  exists s', take_long fuel m (len argv) argv ca (len t) ostr li (0 + Z.of_nat k) op s = Ok (s', long_ret o) /\
    optarg s' = ca + len t + 1 /\ optind s' = i + 1 /\ ints s' = ints s ++ long_ints li k o /\ cur s' = cur s.
Proof.
  intros (_ & SA & SF & SV) (_ & _ & E & _) -> AR OI. unfold take_long, long_ret, long_ints. rewrite SA, SF, SV, Z.add_0_l. 
  destruct AR as [A|A]; rewrite A; cbn [Z.eqb Pos.eqb]; rewrite (ld_ok _ _ _ E); cbn [bind Z.eqb Pos.eqb]; destruct (l_flag o =? NULL); destruct (li =? NULL);
    eexists; (split; [reflexivity|]); cbn; rewrite ?OI, ?app_nil_r, <- ?app_assoc; auto.
Qed.
Lemma take_next ca t z i k op o s q : same_opt op o -> name_at ca t z -> z = 0 -> l_arg o = 1 -> optind s = i -> i + 1 < len argv -> arg argv (i + 1) = Ok q ->
  exists s', take_long fuel m (len argv) argv ca (len t) ostr li (0 + Z.of_nat k) op s = Ok (s', long_ret o) /\
    optarg s' = q /\ optind s' = i + 2 /\ ints s' = ints s ++ long_ints li k o /\ cur s' = cur s.
Proof.
  intros (_ & SA & SF & SV) (_ & _ & E & _) -> A OI LT AQ. unfold take_long, long_ret, long_ints. rewrite SA, SF, SV, Z.add_0_l.
  rewrite A; cbn [Z.eqb Pos.eqb]; rewrite (ld_ok _ _ _ E); cbn [bind Z.eqb Pos.eqb optind]. rewrite OI. destruct (Z.ltb_spec (i + 1) (len argv)); [|lia].
  rewrite AQ. cbn [bind optarg optopt cur err ints]. replace (i + 1 + 1) with (i + 2) by lia. destruct (l_flag o =? NULL); destruct (li =? NULL);
    eexists; (split; [reflexivity|]); cbn; rewrite ?app_nil_r, <- ?app_assoc; auto.
Qed.
Lemma take_missing ca t z i k op o s : same_opt op o -> name_at ca t z -> z = 0 -> cstr m ca t -> l_arg o = 1 -> optind s = i -> len argv <= i + 1 -> optarg s = NULL ->
  exists s', take_long fuel m (len argv) argv ca (len t) ostr li (0 + Z.of_nat k) op s = Ok (s', missing O) /\
    optarg s' = NULL /\ optind s' = i + 1 /\ ints s' = ints s ++ (if li =? NULL then [] else [(li, Z.of_nat k)]) /\ cur s' = cur s.
Proof.
  intros (_ & SA & SF & SV) (_ & _ & E & _ & FT) -> CT A OI LT OA. unfold take_long, missing. rewrite SA, Z.add_0_l.
  rewrite A; cbn [Z.eqb Pos.eqb]; rewrite (ld_ok _ _ _ E); cbn [bind Z.eqb Pos.eqb optind]. rewrite OI. destruct (Z.ltb_spec (i + 1) (len argv)); [lia|].
  rewrite hd_ostr. cbn [bind]. rewrite H0. cbn [bind]. rewrite (read_str_ok prog), (read_str_ok t) by assumption. cbn [bind optarg optopt cur err ints]. rewrite OA.
  destruct (hd 0 O =? 58); eexists; (split; [reflexivity|]); cbn; destruct (li =? NULL); rewrite ?app_nil_r; auto.
Qed.

Lemma selects_prefix tab t k o : selects tab t k o -> nth_error tab k = Some o /\ prefix t (l_name o).
Proof. intros (N & [E|(P & _)]); split; auto. exists []. rewrite app_nil_r. exact E. Qed.

Lemma run ev : forall i cl r s f, opts O T li i cl r ev f -> holds i cl r s -> history call s ev f.
Proof.
  induction ev as [|e ev IH]; intros i cl r s f H HO'.
  - (* the last call *)
    destruct cl as [(p, cs)|].
    { exfalso. inversion H. }
    pose proof HO' as (OI & I1 & SR & dn & AV & LD & CU).
    assert (KEY : forall p0 s0 r0, r = (p0, s0) :: r0 -> len dn = i) by (intros p0 s0 r0 ->; destruct LD as [LD|(LD & _)]; [exact LD|discriminate]).
    inversion H as [i0|i0 p t r0 OP|i0 p r0|i0 p c cs r0 ev0 f0 NL X| | | | | | | | |]; subst.
    + apply h_end with (s' := (GS NULL (optind s) (optopt s) (cur s) (err s) (ints s))); [|reflexivity].
      unfold call, getopt_long. destruct (Z.eqb_spec (optind s) 0); [lia|]. cbn [cur optind].
      assert (FR : (if cur s =? NULL then Ok true else b <- ld m (cur s) ;; Ok (b =? 0)) = Ok true).
      { destruct (Z.eqb_spec (cur s) NULL); [reflexivity|]. destruct CU as [CU|CU]; [contradiction|]. rewrite (ld_ok _ _ _ CU). reflexivity. }
      rewrite FR. cbn [bind]. assert (LA : len argv <= optind s) by (destruct LD as [LD|(_ & LD)]; [rewrite AV, len_app; change (len (map fst [])) with 0; lia|exact LD]).
      destruct (Z.leb_spec (len argv) (optind s)); [reflexivity|lia].
    + apply h_end with (s' := (GS NULL (optind s) (optopt s) (cur s) (err s) (ints s))); [|reflexivity].
      rewrite (call_fresh _ _ _ _ _ dn HO' AV (KEY _ _ _ eq_refl)). cbn zeta. inversion SR as [|? ? (S1 & S2 & S3) S4]; subst. cbn [fst snd] in *.
      destruct OP as [N|E].
      * destruct t as [|a t]; [apply cstr_nil in S2; rewrite (ld_ok _ _ _ S2); reflexivity|]. apply cstr_cons in S2. destruct S2 as (_ & S2 & _). rewrite (ld_ok _ _ _ S2). cbn [bind].
        cbn [hd] in N. destruct (Z.eqb_spec a 45); [contradiction|]. reflexivity.
      * subst t. pose proof S2 as S2'. apply cstr_cons in S2. destruct S2 as (_ & S2 & S5). rewrite (ld_ok _ _ _ S2). cbn [bind Z.eqb Pos.eqb negb]. apply cstr_nil in S5. rewrite (ld_ok _ _ _ S5). reflexivity.
    + apply h_end with (s' := (GS NULL (optind s + 1) (optopt s) (cur s) (err s) (ints s))); [|reflexivity].
      rewrite (call_fresh _ _ _ _ _ dn HO' AV (KEY _ _ _ eq_refl)). cbn zeta. inversion SR as [|? ? (S1 & S2 & S3) S4]; subst. cbn [fst snd] in *.
      destruct (dashes_ok p [45; 45] S2) as (b & D1 & D2). destruct b; [|destruct D2 as (_ & D2); discriminate (D2 eq_refl)].
      apply cstr_cons in S2. destruct S2 as (_ & E1 & S2). apply cstr_cons in S2. destruct S2 as (_ & E2 & _).
      rewrite (ld_ok _ _ _ E1). cbn [bind Z.eqb Pos.eqb negb]. rewrite (ld_ok _ _ _ E2). cbn [bind Z.eqb Pos.eqb negb]. rewrite D1. reflexivity.
    + exfalso. inversion X.
  - destruct cl as [(p, cs)|].
    + pose proof HO' as (OI & I1 & SR & dn & AV & LD & CU & P0 & CN & CS).
      destruct (parse_ok i p cs r (e :: ev) f (GS NULL (optind s) (optopt s) (cur s) (err s) (ints s)) dn H OI I1 eq_refl P0 CS AV LD SR)
        as (e' & ev' & s' & i' & cl' & r' & EV & PA & EN & NX & HH). injection EV as <- <-.
      destruct EN as (N1 & N2 & N3 & N4). eapply h_step with (s' := s'); auto; [|eapply IH; eassumption].
      unfold call, getopt_long. destruct (Z.eqb_spec (optind s) 0); [lia|]. cbn [cur optind]. destruct cs as [|c cs]; [congruence|].
      unfold NULL at 1. destruct (Z.eqb_spec (cur s) 0); [lia|]. rewrite CU. apply cstr_cons in CS. destruct CS as (CH & E & _). rewrite (ld_ok _ _ _ E). cbn [bind].
      unfold is_char in CH. destruct (Z.eqb_spec c 0); [lia|]. rewrite <- CU in *. exact PA.
    + pose proof HO' as (OI & I1 & SR & dn & AV & LD & CU).
      assert (KEY : forall p0 s0 r0, r = (p0, s0) :: r0 -> len dn = i) by (intros p0 s0 r0 ->; destruct LD as [LD|(LD & _)]; [exact LD|discriminate]).
      (* a long option *)
      assert (LONG : forall p t rest z r0 tab k o,
        r = (p, 45 :: 45 :: t ++ rest) :: r0 -> T = Some tab -> selects tab t k o -> none_before tab t k -> ~ In 61 t -> hd 0 rest = z -> z = 0 \/ z = 61 -> t ++ rest <> [] ->
        exists op, same_opt op o /\ name_at (p + 2) t z /\ forall s' v,
           take_long fuel m (len argv) argv (p + 2) (len t) ostr li (0 + Z.of_nat k) op (GS NULL i (optopt s) (cur s) (err s) (ints s)) = Ok (s', v) ->
           call s = Ok (s', v)).
      { intros p t rest z r0 tab k o -> TT SE NB N61 HZ Z1 NN.
        pose proof (Forall_inv SR) as (S1 & S2 & S3). pose proof (Forall_inv_tail SR) as S4. cbn [fst snd] in *. subst i z.
        destruct (dashes_ok p _ S2) as (b & D1 & D2). destruct b; [destruct D2 as (D2 & _); specialize (D2 eq_refl); injection D2; intro; contradiction|].
        assert (NA : name_at (p + 2) t (hd 0 rest)) by (eapply name_split; eauto; cbn [length] in S3; rewrite app_length in S3; lia).
        destruct (selects_prefix _ _ _ _ SE) as (NT & PT).
        pose proof HT as HT'. rewrite TT in HT'. destruct tp as [tabp|] eqn:TP; [|destruct HT'].
        destruct (long_loop_ok (p + 2) t _ (GS NULL (optind s) (optopt s) (cur s) (err s) (ints s)) NA tabp tab HT' k o 0 NT PT NB) as (op & SO & LL).
        exists op. split; [exact SO|]. split; [exact NA|]. intros s' v TK.
        rewrite (call_fresh _ _ _ _ _ dn HO' AV (KEY _ _ _ eq_refl)). cbn zeta.
        apply cstr_cons in S2. destruct S2 as (_ & E1 & S2). apply cstr_cons in S2. destruct S2 as (_ & E2 & _).
        rewrite (ld_ok _ _ _ E1). cbn [bind Z.eqb Pos.eqb negb]. rewrite (ld_ok _ _ _ E2). cbn [bind Z.eqb Pos.eqb negb]. rewrite D1. cbn [bind].
        rewrite TP, LL, TK. reflexivity. }
      inversion H as [|? ? ? ? ?|? ? ?|i0 p c cs r0 ev0 f0 NL X| | | | | |i0 p t r0 k o tab ev0 f0 TT TN SE NB N61 AR NX|i0 p t v r0 k o tab ev0 f0 TT SE NB N61 AR NX|i0 p t q t2 r0 k o tab ev0 f0 TT TN SE NB N61 AR NX|i0 p t k o tab TT TN SE NB N61 AR]; subst.
      * (* letters *)
        pose proof (Forall_inv SR) as (S1 & S2 & S3). pose proof (Forall_inv_tail SR) as S4. cbn [fst snd] in *.
        assert (CS : cstr m (p + 1) (c :: cs)) by (apply cstr_cons in S2; apply S2).
        assert (AV' : argv = (dn ++ [p]) ++ map fst r0) by (rewrite <- app_assoc; exact AV).
        specialize (KEY _ _ _ eq_refl).
        destruct (parse_ok (optind s) (p + 1) (c :: cs) r0 (e :: ev) f (GS NULL (optind s) (optopt s) (cur s) (err s) (ints s)) (dn ++ [p]) X eq_refl I1 eq_refl ltac:(lia) CS AV'
          ltac:(rewrite len_app; change (len [p]) with 1; lia) S4) as (e' & ev' & s' & i' & cl' & r' & EV & PA & EN & NX & HH). injection EV as <- <-.
        destruct EN as (N1 & N2 & N3 & N4). eapply h_step with (s' := s'); auto; [|eapply IH; eassumption].
        rewrite (call_fresh _ _ _ _ _ dn HO' AV KEY). cbn zeta.
        destruct (dashes_ok p _ S2) as (b & D1 & D2).
        assert (b = false) by (destruct b; [|reflexivity]; destruct D2 as (D2 & _); specialize (D2 eq_refl); injection D2 as -> ->; destruct NL as [NL|(_ & NL)]; congruence). subst b.
        apply cstr_cons in S2. destruct S2 as (_ & E1 & S2). apply cstr_cons in S2. destruct S2 as (CH & E2 & _). unfold is_char in CH.
        rewrite (ld_ok _ _ _ E1). cbn [bind Z.eqb Pos.eqb negb]. rewrite (ld_ok _ _ _ E2). cbn [bind]. destruct (Z.eqb_spec c 0); [lia|]. rewrite D1. cbn [bind].
        destruct tp as [tabp|]; [|exact PA]. destruct NL as [NL|(NL & _)]; [|rewrite NL in HT; destruct HT]. destruct (Z.eqb_spec c 45); [contradiction|exact PA].
      * (* --name *)
        pose proof (KEY _ _ _ eq_refl) as LDI. pose proof (Forall_inv_tail SR) as S4.
        destruct (LONG p t [] 0 r0 tab k o) as (op & SO & NA & CA); auto; try (rewrite app_nil_r; auto).
        destruct (take_plain (p + 2) t 0 (optind s) k op o (GS NULL (optind s) (optopt s) (cur s) (err s) (ints s)) SO NA eq_refl AR eq_refl eq_refl) as (s' & TK & A1 & A2 & A3 & A4).
        eapply h_step with (s' := s'); [apply CA; exact TK|exact A1|exact A2|discriminate|exact A3|].
        eapply IH; [exact NX|]. split; [exact A2|]. split; [lia|]. split; [exact S4|]. exists (dn ++ [p]). rewrite <- app_assoc. split; [exact AV|].
        split; [left; rewrite len_app; change (len [p]) with 1; lia|]. rewrite A4. exact CU.
      * (* --name=value *)
        pose proof (KEY _ _ _ eq_refl) as LDI. pose proof (Forall_inv_tail SR) as S4.
        destruct (LONG p t (61 :: v) 61 r0 tab k o) as (op & SO & NA & CA); auto; [intro X; apply app_eq_nil in X; destruct X; discriminate|].
        destruct (take_value (p + 2) t 61 (optind s) k op o (GS NULL (optind s) (optopt s) (cur s) (err s) (ints s)) SO NA eq_refl AR eq_refl) as (s' & TK & A1 & A2 & A3 & A4).
        eapply h_step with (s' := s'); [apply CA; exact TK| |exact A2|discriminate|exact A3|].
        { rewrite A1. cbn. lia. }
        eapply IH; [exact NX|]. split; [exact A2|]. split; [lia|]. split; [exact S4|]. exists (dn ++ [p]). rewrite <- app_assoc. split; [exact AV|].
        split; [left; rewrite len_app; change (len [p]) with 1; lia|]. rewrite A4. exact CU.
      * (* --name value *)
        pose proof (KEY _ _ _ eq_refl) as LDI. pose proof (Forall_inv_tail SR) as S4. pose proof (Forall_inv_tail S4) as S6.
        destruct (LONG p t [] 0 ((q, t2) :: r0) tab k o) as (op & SO & NA & CA); auto; try (rewrite app_nil_r; auto).
        assert (AV' : argv = (dn ++ [p]) ++ q :: map fst r0) by (rewrite <- app_assoc; exact AV).
        assert (L1 : len (dn ++ [p]) = optind s + 1) by (rewrite len_app; change (len [p]) with 1; lia).
        destruct (take_next (p + 2) t 0 (optind s) k op o (GS NULL (optind s) (optopt s) (cur s) (err s) (ints s)) q SO NA eq_refl AR eq_refl) as (s' & TK & A1 & A2 & A3 & A4).
        { rewrite AV', len_app, len_cons, L1. pose proof (len_nonneg (map fst r0)). lia. }
        { eapply arg_at; [exact AV'|exact L1]. }
        eapply h_step with (s' := s'); [apply CA; exact TK|exact A1|exact A2|discriminate|exact A3|].
        eapply IH; [exact NX|]. split; [exact A2|]. split; [lia|]. split; [exact S6|]. exists ((dn ++ [p]) ++ [q]). rewrite <- app_assoc. split; [exact AV'|].
        split; [left; rewrite len_app; change (len [q]) with 1; lia|]. rewrite A4. exact CU.
      * (* --name at the end *)
        pose proof (KEY _ _ _ eq_refl) as LDI. pose proof (Forall_inv SR) as (S1 & S2 & S3). pose proof (Forall_inv_tail SR) as S4. cbn [fst snd] in *.
        destruct (LONG p t [] 0 [] tab k o) as (op & SO & NA & CA); auto; try (rewrite app_nil_r; auto).
        destruct (take_missing (p + 2) t 0 (optind s) k op o (GS NULL (optind s) (optopt s) (cur s) (err s) (ints s)) SO NA eq_refl) as (s' & TK & A1 & A2 & A3 & A4); auto.
        { apply cstr_cons in S2. destruct S2 as (_ & _ & S2). apply cstr_cons in S2. destruct S2 as (_ & _ & S2). replace (p + 2) with (p + 1 + 1) by lia. exact S2. }
        { rewrite AV, len_app. change (len (map fst [(p, 45 :: 45 :: t)])) with 1. lia. }
        eapply h_step with (s' := s'); [apply CA; exact TK|exact A1|exact A2|discriminate|exact A3|].
        eapply IH; [apply o_end|]. split; [exact A2|]. split; [lia|]. split; [constructor|]. exists (dn ++ [p]). rewrite <- app_assoc. split; [exact AV|].
        split; [left; rewrite len_app; change (len [p]) with 1; lia|]. rewrite A4. exact CU.
Qed.
End Calls.

(* ---- a whole run ---- *)
Lemma run_start fuel m argv ostr O prog opterr li T tp args ev f s : cstr m ostr O -> (length O < fuel)%nat -> args_at fuel m argv prog args -> table_at m tp T -> start s ->
  opts O T li 1 None args ev f -> history (getopt_long fuel m argv ostr tp li opterr) s ev f.
Proof.
  intros HO FO (ap & AV & P & F) HT ST H. pose proof (Forall_inv F) as (C0 & F0). pose proof (Forall_inv_tail F) as FT. cbn [fst snd] in *.
  assert (H0 : arg argv 0 = Ok ap) by (rewrite AV; reflexivity).
  assert (SR : strs fuel m args).
  { unfold strs. rewrite Forall_forall in *. intros a I. specialize (P a I). destruct (FT a I). auto. }
  assert (R : forall s1, optind s1 = 1 -> cur s1 = NULL -> history (getopt_long fuel m argv ostr tp li opterr) s1 ev f).
  { intros s1 O1 C1. eapply (run fuel m argv ostr O ap prog opterr li T tp HO FO C0 F0 H0 HT ev 1 None args s1 f H).
    split; [exact O1|]. split; [lia|]. split; [exact SR|]. exists [ap]. split; [exact AV|]. split; [left; reflexivity|left; exact C1]. }
  destruct ST as [ST|(ST & CU)]; [|apply R; assumption].
  specialize (R (GS (optarg s) 1 (optopt s) NULL (err s) (ints s)) eq_refl eq_refl).
  assert (E : getopt_long fuel m argv ostr tp li opterr s = getopt_long fuel m argv ostr tp li opterr (GS (optarg s) 1 (optopt s) NULL (err s) (ints s))) by (unfold getopt_long; rewrite ST; reflexivity).
  inversion R as [s1 s' f1 CA OI|s1 s' e ev1 f1 CA A1 A2 A3 A4 NX]; subst.
  - eapply h_end; [rewrite E; exact CA|reflexivity].
  - eapply h_step; [rewrite E; exact CA| | | | |]; eauto.
Qed.

(* every argument list of plain options has a history *)
Lemma first_split (c : Z) l : In c l -> exists a b, l = a ++ c :: b /\ ~ In c a.
Proof.
  induction l as [|x l IH]; [intros []|]. intro I. destruct (Z.eq_dec x c) as [->|N].
  - exists [], l. split; [reflexivity|]. intros [].
  - destruct I as [->|I]; [contradiction|]. destruct (IH I) as (a & b & -> & N2). exists (x :: a), b. split; [reflexivity|]. intros [->|Q]; contradiction.
Qed.
Lemma letter_dec O c : plain_opt O c -> letter O c true \/ letter O c false \/ unknown O c.
Proof.
  intros (_ & P). destruct (in_dec Z.eq_dec c O) as [I|N]; [|right; right; right; exact N].
  destruct (Z.eq_dec c 58) as [E|E]; [right; right; left; exact E|]. destruct (first_split c O I) as (a & b & -> & NI).
  destruct (Z.eq_dec (hd 0 b) 58) as [K|K]; [left|right; left]; (split; [exact E|exists a, b; split; [reflexivity|split; [exact NI|]]]); [tauto|split; [discriminate|contradiction]].
Qed.
Lemma opts_total O li : forall r, Forall (fun a => operand (snd a) \/ Forall (plain_opt O) (snd a)) r -> forall i, exists ev f, opts O None li i None r ev f.
Proof.
  assert (CLU : forall r cs, (forall i, exists ev f, opts O None li i None r ev f) -> (forall i, exists ev f, opts O None li i None (tl r) ev f) ->
     Forall (plain_opt O) cs -> cs <> [] -> forall i p, exists ev f, opts O None li i (Some (p, cs)) r ev f).
  { intros r cs R1 R2. induction cs as [|c cs IH]; intros F N i p; [congruence|]. pose proof (Forall_inv F) as PC. pose proof (Forall_inv_tail F) as FT.
    assert (C : c < 128) by (destruct PC; lia).
    assert (NXT : exists ev f, opts O None li (match cs with [] => i + 1 | _ => i end) (match cs with [] => None | _ => Some (p + 1, cs) end) r ev f).
    { destruct cs as [|d cs]; [apply R1|]. apply IH; [exact FT|discriminate]. }
    destruct (letter_dec O c PC) as [L|[L|U]].
    - destruct cs as [|d cs].
      + destruct r as [|(q, t) r]; [eexists; eexists; apply o_missing; assumption|]. destruct (R2 (i + 2)) as (ev & f & E). eexists; eexists; eapply o_next; eassumption.
      + destruct (R1 (i + 1)) as (ev & f & E). eexists; eexists; eapply o_attached; try eassumption. discriminate.
    - destruct NXT as (ev & f & E). eexists; eexists; eapply o_flag; eassumption.
    - destruct NXT as (ev & f & E). eexists; eexists; eapply o_unknown; try eassumption. apply PC. }
  assert (ALL : forall r, Forall (fun a => operand (snd a) \/ Forall (plain_opt O) (snd a)) r ->
    (forall i, exists ev f, opts O None li i None r ev f) /\ (forall i, exists ev f, opts O None li i None (tl r) ev f)).
  { induction r as [|(p, s) r IH]; intro F.
    - split; intro i; eexists; eexists; constructor.
    - pose proof (Forall_inv F) as PC. destruct (IH (Forall_inv_tail F)) as (R1 & R2). split; [|exact R1]. intro i. cbn [snd] in PC.
      destruct PC as [OP|PC]; [eexists; eexists; apply o_operand; exact OP|].
      destruct s as [|a s]; [eexists; eexists; apply o_operand; left; cbn; lia|].
      destruct (Z.eq_dec a 45) as [->|NA]; [|eexists; eexists; apply o_operand; left; exact NA].
      destruct s as [|c s]; [eexists; eexists; apply o_operand; right; reflexivity|].
      destruct (list_eq_dec Z.eq_dec (c :: s) [45]) as [E|NE]; [injection E as -> ->; eexists; eexists; apply o_dashes|].
      destruct (CLU r (c :: s) R1 R2 (Forall_inv_tail PC) ltac:(discriminate) i (p + 1)) as (ev & f & E).
      exists ev, f. apply o_letters; [|exact E]. destruct (Z.eq_dec c 45) as [->|NC]; [|left; exact NC]. right. split; [reflexivity|]. congruence. }
  intros r F. apply ALL. exact F.
Qed.

Lemma silent fuel m argv ostr s s' v : getopt fuel m argv ostr 0 s = Ok (s', v) -> err s' = err s.
Proof.
  unfold getopt, getopt_long. set (s0 := if optind s =? 0 then _ else _). assert (E0 : err s0 = err s) by (subst s0; destruct (optind s =? 0); reflexivity). clearbody s0. rewrite <- E0. clear E0.
  assert (PA : forall ca, parse_arg fuel m (len argv) argv ca ostr 0 s0 = Ok (s', v) -> err s' = err s0).
  { intros ca. unfold parse_arg. cbn [Z.eqb negb]. destruct (ld m ca) as [c| | |]; try discriminate. cbn [bind]. destruct (find_option fuel m c ostr) as [[[]|]| | |]; try discriminate; cbn [bind].
    - destruct (ld m (ca + 1)) as [d| | |]; try discriminate. cbn [bind]. destruct (d =? 0).
      + cbn [optind]. destruct (len argv <? optind s0 + 2).
        * destruct (ld m ostr) as [o| | |]; try discriminate. cbn [bind]. destruct (o =? 58); intros [= <- <-]; reflexivity.
        * destruct (arg argv (optind s0 + 2 - 1)); try discriminate. cbn [bind]. intros [= <- <-]; reflexivity.
      + intros [= <- <-]; reflexivity.
    - unfold update_current_opt. destruct (ld m (ca + 1)); try discriminate. cbn [bind]. intros [= <- <-]; reflexivity.
    - unfold update_current_opt. destruct (ld m (ca + 1)); try discriminate. cbn [bind]. intros [= <- <-]; reflexivity. }
  destruct (if cur s0 =? NULL then Ok true else _) as [[]| | |]; try discriminate; cbn [bind]; [|apply PA].
  destruct (len argv <=? optind s0); [intros [= <- <-]; reflexivity|]. destruct (arg argv (optind s0)) as [ca| | |]; try discriminate. cbn [bind].
  destruct (ca =? NULL); [intros [= <- <-]; reflexivity|]. destruct (ld m ca) as [a| | |]; try discriminate. cbn [bind].
  destruct (negb (a =? 45)); [intros [= <- <-]; reflexivity|]. destruct (ld m (ca + 1)) as [b| | |]; try discriminate. cbn [bind].
  destruct (b =? 0); [intros [= <- <-]; reflexivity|]. destruct (is_dashes m ca) as [[]| | |]; try discriminate; cbn [bind]; [intros [= <- <-]; reflexivity|apply PA].
Qed.
