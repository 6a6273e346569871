(* Proofs for C42 and C43. *)
From Verif Require Import Base Numeral Utf8_model Word_mem Writer_model Writer_proofs Sort_model Printf_model Printf_spec.

(* ---- parsing ---- *)

Definition stops (r : list Z) : Prop := match r with c :: _ => is_dec c = false | [] => True end.

Lemma pop_digits_stop r acc : stops r -> pop_digits r acc = (acc, r).
Proof. destruct r as [|c r]; intro H; cbn; [reflexivity|]. cbn in H. rewrite H. reflexivity. Qed.

Lemma is_dec_digit d : 0 <= d < 10 -> is_dec (48 + d) = true.
Proof. unfold is_dec. intro H. lia. Qed.

Lemma fold_mono ds : forall a, 0 <= a -> Forall (fun x => 0 <= x < 10) ds -> a <= fold_left (fun a d => a * 10 + d) ds a.
Proof.
  induction ds as [|d ds IH]; intros a A H; cbn [fold_left]; [lia|]. inversion H; subst.
  specialize (IH (a * 10 + d) ltac:(lia) H3). lia.
Qed.

Lemma pop_digits_num ds : forall r a acc, stops r -> Forall (fun x => 0 <= x < 10) ds -> 0 <= a ->
  a = match acc with Some x => x | None => 0 end ->
  fold_left (fun a d => a * 10 + d) ds a < two64 -> ds <> [] ->
  pop_digits (map (fun d => 48 + d) ds ++ r) acc = (Some (fold_left (fun a d => a * 10 + d) ds a), r).
Proof.
  induction ds as [|d ds IH]; intros r a acc S H A E L NE; [congruence|]. inversion H; subst. cbn [map app pop_digits].
  rewrite is_dec_digit by assumption. cbn [fold_left] in *.
  pose proof (fold_mono ds (match acc with Some x => x | None => 0 end * 10 + d) ltac:(lia) H3) as M.
  replace (48 + d - 48) with d by lia. rewrite Z.mod_small by lia.
  destruct ds as [|e ds].
  - cbn [map app fold_left]. apply pop_digits_stop. exact S.
  - apply IH; auto; try lia. discriminate.
Qed.

Lemma pop_num ds r : is_num ds -> stops r -> pop_int_raw (map (fun d => 48 + d) ds ++ r) = (Some (dvalue 10 ds), r).
Proof.
  intros (NE & F & L) S. unfold pop_int_raw. apply pop_digits_num; auto; try lia.
  unfold dvalue in L. assert (2 ^ 31 < two64) by reflexivity. lia.
Qed.

Lemma pop_digits_split f : forall acc, exists a r, f = a ++ r /\ snd (pop_digits f acc) = r /\ stops r /\ Forall (fun c => is_dec c = true) a.
Proof.
  induction f as [|c f IH]; intro acc; cbn [pop_digits].
  - exists [], []. repeat split; auto.
  - destruct (is_dec c) eqn:E.
    + destruct (IH (Some ((match acc with Some x => x | None => 0 end * 10 + (c - 48)) mod two64))) as (a & r & -> & H & S & F).
      exists (c :: a), r. repeat split; auto.
    + exists [], (c :: f). repeat split; auto.
Qed.

Lemma pop_index_none b r : Forall (fun c => c <> 36) b -> Exists (fun c => is_dec c = false) b -> pop_index (b ++ r) = (None, b ++ r).
Proof.
  intros N E. unfold pop_index, pop_int_raw.
  destruct (pop_digits_split (b ++ r) None) as (a & r' & EQ & H & S & F).
  destruct (pop_digits (b ++ r) None) as [o r1]. cbn [snd] in H. subst r1.
  destruct r' as [|c r']; [destruct o; reflexivity|].
  assert (NC : c <> 36).
  { (* the first non-digit lies in b *)
    clear o. revert a F EQ. induction b as [|x b IH]; intros a F EQ; [inversion E|]. inversion N; subst.
    destruct a as [|y a]; cbn [app] in EQ; injection EQ as <- EQ; [assumption|].
    inversion F; subst. inversion E; subst; [congruence|]. eapply IH; eauto. }
  destruct o; [|reflexivity]. destruct (Z.eqb_spec c 36); [contradiction|reflexivity].
Qed.

Definition is_flag (c : Z) : Prop := In c [35; 48; 45; 32; 43].
Definition no_flag (r : list Z) : Prop := match r with c :: _ => ~ is_flag c | [] => True end.

Lemma pop_flags_spec fs : forall r fl, Forall is_flag fs -> no_flag r ->
  pop_flags (fs ++ r) fl =
  (PF (f_alt fl || existsb (Z.eqb 35) fs) (f_zero fl || existsb (Z.eqb 48) fs) (f_left fl || existsb (Z.eqb 45) fs)
      (f_space fl || existsb (Z.eqb 32) fs) (f_plus fl || existsb (Z.eqb 43) fs), r).
Proof.
  induction fs as [|c fs IH]; intros r fl F N.
  - cbn [app existsb]. rewrite !orb_false_r. destruct fl as [a b c d e]. cbn [f_alt f_zero f_left f_space f_plus].
    destruct r as [|x r]; [reflexivity|]. cbn in N. cbn [pop_flags].
    destruct (Z.eqb_spec x 35); [exfalso; apply N; subst; unfold is_flag; cbn; auto|].
    destruct (Z.eqb_spec x 48); [exfalso; apply N; subst; unfold is_flag; cbn; auto|].
    destruct (Z.eqb_spec x 45); [exfalso; apply N; subst; unfold is_flag; cbn; auto|].
    destruct (Z.eqb_spec x 32); [exfalso; apply N; subst; unfold is_flag; cbn; auto|].
    destruct (Z.eqb_spec x 43); [exfalso; apply N; subst; unfold is_flag; cbn; auto 10|]. reflexivity.
  - inversion F; subst. cbn [app]. destruct fl as [a b d e f].
    destruct H1 as [<-|[<-|[<-|[<-|[<-|[]]]]]]; cbn [pop_flags Z.eqb Pos.eqb existsb orb]; rewrite IH by assumption;
      cbn [f_alt f_zero f_left f_space f_plus orb]; rewrite ?orb_true_r; reflexivity.
Qed.

Definition no_mod (r : list Z) : Prop := match r with c :: _ => ~ In c [104; 106; 108; 113; 76; 116; 122] | [] => True end.
Lemma pop_size_spec k r : no_mod r -> pop_size (modifier k ++ r) IInt = (k, r).
Proof.
  intro N. assert (X : forall k, pop_size r k = (k, r)).
  { intro k0. destruct r as [|x r]; [reflexivity|]. cbn in N. cbn [pop_size].
    destruct (Z.eqb_spec x 104); [exfalso; apply N; subst; auto 10|].
    destruct (Z.eqb_spec x 106); [exfalso; apply N; subst; auto 10|].
    destruct (Z.eqb_spec x 108); [exfalso; apply N; subst; auto 10|].
    destruct (Z.eqb_spec x 113); [exfalso; apply N; subst; auto 10|].
    destruct (Z.eqb_spec x 76); [exfalso; apply N; subst; auto 10|].
    destruct (Z.eqb_spec x 116); [exfalso; apply N; subst; auto 10|].
    destruct (Z.eqb_spec x 122); [exfalso; apply N; subst; auto 10|]. reflexivity. }
  destruct k; cbn [modifier app pop_size Z.eqb Pos.eqb orb]; apply X.
Qed.

Definition any_conv (c : Z) : Prop := In c [100; 105; 117; 111; 120; 88; 98; 66; 115; 99; 37].
(* A string that can follow flags and a width. *)
Definition tail_ok (b : list Z) : Prop :=
  Forall (fun c => c <> 36) b /\ match b with c :: _ => is_dec c = false /\ c <> 42 /\ ~ is_flag c | [] => False end.

Lemma not_flag c : c <> 35 -> c <> 48 -> c <> 45 -> c <> 32 -> c <> 43 -> ~ is_flag c.
Proof. unfold is_flag. cbn. intuition. Qed.

Lemma tail_mod k c : any_conv c -> tail_ok (modifier k ++ [c]) /\ hd 0 (modifier k ++ [c]) <> 46.
Proof.
  intro H. unfold any_conv in H. cbn [In] in H.
  assert (C : c <> 36 /\ is_dec c = false /\ c <> 42 /\ ~ is_flag c /\ c <> 46).
  { unfold is_dec. repeat split; try lia. apply not_flag; lia. }
  destruct C as (C1 & C2 & C3 & C4 & C5). unfold tail_ok.
  destruct k; cbn [modifier app hd]; (split; [split; [repeat constructor; lia|]|lia]); auto;
    (split; [reflexivity|split; [lia|apply not_flag; lia]]).
Qed.

Lemma tail_exists b : tail_ok b -> Exists (fun c => is_dec c = false) b.
Proof. intros (_ & H). destruct b; [destruct H|]. constructor. apply H. Qed.
Lemma tail_stops b r : tail_ok b -> stops (b ++ r).
Proof. intros (_ & H). destruct b; [destruct H|]. apply H. Qed.
Lemma tail_nofl b r : tail_ok b -> no_flag (b ++ r).
Proof. intros (_ & H). destruct b; [destruct H|]. apply H. Qed.
Lemma tail_prec b : tail_ok b -> forall f, good_field f -> tail_ok (46 :: ffield f ++ b).
Proof.
  intros (H & _) f G. split; [|split; [reflexivity|split; [lia|apply not_flag; lia]]].
  constructor; [lia|]. apply Forall_app. split; [|exact H]. destruct f as [ds|v]; cbn [ffield].
  - destruct G as (_ & F & _). apply Forall_map. eapply Forall_impl; [|exact F]. cbn. intros; lia.
  - repeat constructor. lia.
Qed.

Definition num_of (f : field) : number := match f with FNum ds => NStatic (dvalue 10 ds) | FStar _ => NNext end.

Lemma pop_field f b r : good_field f -> tail_ok b -> pop_int (ffield f ++ b ++ r) = (Some (num_of f), b ++ r).
Proof.
  intros G T. unfold pop_int. destruct f as [ds|v]; cbn [ffield num_of].
  - destruct ds as [|d ds]; [destruct G as (G & _); congruence|]. cbn [map app hd].
    destruct G as (NE & F & L). inversion F; subst. destruct (Z.eqb_spec (48 + d) 42); [lia|].
    change (48 + d :: map (fun d0 => 48 + d0) ds ++ b ++ r) with (map (fun d0 => 48 + d0) (d :: ds) ++ b ++ r).
    rewrite pop_num; [reflexivity|split; auto|apply tail_stops; exact T].
  - cbn [app hd tl Z.eqb Pos.eqb]. rewrite pop_index_none; [reflexivity|apply T|apply tail_exists; exact T].
Qed.
Lemma pop_nofield b r : tail_ok b -> pop_int (b ++ r) = (None, b ++ r).
Proof.
  intro T. unfold pop_int. pose proof (tail_stops b r T) as S. destruct T as (_ & H). destruct b as [|c b]; [destruct H|].
  cbn [app hd]. destruct (Z.eqb_spec c 42); [destruct H; lia|]. cbn [app] in S. unfold pop_int_raw. rewrite pop_digits_stop by exact S. reflexivity.
Qed.

Definition kind (c : Z) : fmtkind :=
  if c =? 37 then KPercent else if (c =? 100) || (c =? 105) then KSigned
  else if c =? 115 then KString else if c =? 99 then KChar else KUnsigned.
Definition iconv (c : Z) : bool := negb ((c =? 37) || (c =? 115) || (c =? 99)).

Definition arg_of (d : dir) : parg :=
  PArg None (has 35 d) (has 48 d && negb (iconv (d_conv d) && match d_prec d with Some _ => true | None => false end))
    (has 45 d) (has 32 d) (has 43 d)
    (match d_width d with Some f => num_of f | None => NStatic 0 end)
    (option_map num_of (d_prec d)) (d_size d) (d_conv d) (kind (d_conv d)).

Lemma good_conv d : good_dir d -> any_conv (d_conv d).
Proof.
  intros ([H|[(H & _)|H]] & _).
  - unfold int_conv in H. unfold any_conv. cbn [In] in *. intuition.
  - destruct H as [->| ->]; unfold any_conv; cbn; auto 20.
  - subst. unfold any_conv. cbn. auto 20.
Qed.

Lemma pop_arg_spec em d r : good_dir d -> pop_arg em (body_of d ++ r) = Some (Arg (arg_of d), r).
Proof.
  intro G. pose proof (good_conv d G) as AC. destruct G as (_ & FL & GW & GP).
  destruct d as [fs w p k c a]. cbn [d_conv d_flags d_width d_prec d_size] in *.
  set (B3 := modifier k ++ [c]). destruct (tail_mod k c AC) as (T3 & N46). fold B3 in T3, N46.
  set (B2 := (match p with Some f => 46 :: ffield f | None => [] end) ++ B3).
  assert (T2 : tail_ok B2).
  { unfold B2. destruct p as [f|]; [|exact T3]. cbn [app]. apply tail_prec; auto. }
  set (B1 := (match w with Some f => ffield f | None => [] end) ++ B2).
  assert (BE : body_of (D fs w p k c a) = fs ++ B1) by reflexivity. rewrite BE.
  assert (N1 : Forall (fun c => c <> 36) B1 /\ Exists (fun c => is_dec c = false) B1 /\ no_flag (B1 ++ r)).
  { unfold B1. destruct w as [f|].
    - destruct (GW f eq_refl) as (GF & NZ). split; [|split].
      + apply Forall_app. split; [|apply T2]. destruct f as [ds|v]; cbn [ffield].
        * destruct GF as (_ & F & _). apply Forall_map. eapply Forall_impl; [|exact F]. cbn. intros; lia.
        * repeat constructor. lia.
      + apply Exists_app. right. apply tail_exists. exact T2.
      + destruct f as [ds|v]; cbn [ffield].
        * specialize (NZ ds eq_refl). destruct ds as [|x ds]; [destruct GF; congruence|]. cbn [hd] in NZ.
          destruct GF as (_ & F & _). inversion F; subst. cbn. apply not_flag; lia.
        * cbn. apply not_flag; lia.
    - cbn [app]. split; [apply T2|]. split; [apply tail_exists; exact T2|apply tail_nofl; exact T2]. }
  destruct N1 as (N36 & EX & NF).
  unfold pop_arg. rewrite pop_index_none.
  2:{ apply Forall_app. split; [|exact N36]. eapply Forall_impl; [|exact FL]. cbn. intros x Hx. lia. }
  2:{ apply Exists_app. right. exact EX. }
  rewrite <- app_assoc, pop_flags_spec by assumption. cbn [f_alt f_zero f_left f_space f_plus orb].
  assert (PW : pop_int (B1 ++ r) = (option_map num_of w, B2 ++ r)).
  { unfold B1. destruct w as [f|].
    - rewrite <- app_assoc. rewrite pop_field; [reflexivity|apply (GW f eq_refl)|exact T2].
    - cbn [app option_map]. apply pop_nofield. exact T2. }
  rewrite PW.
  assert (PP : (if hd 0 (B2 ++ r) =? 46
    then match pop_int (tl (B2 ++ r)) with (Some n, r') => Some (Some n, r') | (None, _) => None end
    else Some (None, B2 ++ r)) = Some (option_map num_of p, B3 ++ r)).
  { unfold B2. destruct p as [f|]; cbn [app option_map].
    - cbn [hd tl Z.eqb Pos.eqb]. rewrite <- app_assoc, pop_field; [reflexivity|auto|exact T3].
    - destruct B3 as [|x B3']; [destruct T3 as (_ & [])|]. cbn [app hd] in *. destruct (Z.eqb_spec x 46); [contradiction|reflexivity]. }
  rewrite PP. unfold B3. rewrite <- app_assoc. cbn [app].
  rewrite pop_size_spec.
  2:{ cbn. unfold any_conv in AC. cbn [In] in AC. lia. }
  unfold arg_of. cbn [d_conv d_width d_prec d_size].
  unfold any_conv in AC. cbn [In] in AC.
  assert (KO : kind_of c = Some (inl (kind c)) /\ is_int_conv c = iconv c).
  { destruct AC as [<-|[<-|[<-|[<-|[<-|[<-|[<-|[<-|[<-|[<-|[<-|[]]]]]]]]]]]]; split; reflexivity. }
  destruct KO as (-> & ->). unfold has. cbn [d_flags].
  destruct w as [f|]; destruct p as [g|]; cbn [option_map]; destruct (iconv c); cbn [andb negb];
    rewrite ?andb_true_r, ?andb_false_r; reflexivity.
Qed.

Lemma until_text t r : good_text t -> (r = [] \/ hd 0 r = 37) -> until_percent (t ++ r) = (t, r).
Proof.
  induction t as [|c t IH]; intros G H; cbn [app].
  - destruct r as [|x r]; [reflexivity|]. destruct H as [H|H]; [discriminate|]. cbn in H. subst. reflexivity.
  - cbn [until_percent]. destruct (Z.eqb_spec c 37); [exfalso; apply G; left; auto|].
    rewrite IH; auto. intro X. apply G. right. exact X.
Qed.

Definition items_of (l : list (list Z * dir)) (last : list Z) : list item :=
  concat (map (fun x => (match fst x with [] => [] | _ => [Plain (fst x)] end) ++ [Arg (arg_of (snd x))]) l) ++
  match last with [] => [] | _ => [Plain last] end.

Definition good_fmt (l : list (list Z * dir)) (last : list Z) : Prop :=
  Forall (fun x => good_text (fst x) /\ good_dir (snd x)) l /\ good_text last.

Lemma parse_spec em last : good_text last -> forall l fuel, Forall (fun x => good_text (fst x) /\ good_dir (snd x)) l ->
  (length (format_of l last) < fuel)%nat -> parse fuel em (format_of l last) = Some (items_of l last).
Proof.
  intros GL. induction l as [|[t d] l IH]; intros fuel G L.
  - cbn [format_of map concat app] in *. unfold format_of in *. cbn [map concat app] in *. unfold items_of. cbn [map concat app].
    destruct fuel as [|fu]; [lia|]. cbn [parse].
    assert (U : until_percent last = (last, [])) by (rewrite <- (app_nil_r last) at 1; apply until_text; auto). rewrite U.
    destruct last as [|c t]; [reflexivity|]. destruct fu as [|fu]; [cbn in L; lia|]. reflexivity.
  - inversion G as [|? ? [GT GD] G']; subst. cbn [fst snd] in *.
    assert (EQ : format_of ((t, d) :: l) last = t ++ 37 :: body_of d ++ format_of l last).
    { unfold format_of. cbn [map concat fst snd render]. unfold render. rewrite <- !app_assoc. cbn [app]. reflexivity. }
    rewrite EQ in *. rewrite app_length in L. cbn [length] in L. rewrite app_length in L.
    assert (IT : items_of ((t, d) :: l) last = (match t with [] => [] | _ => [Plain t] end) ++ Arg (arg_of d) :: items_of l last).
    { unfold items_of. cbn [map concat fst snd]. rewrite <- !app_assoc. reflexivity. }
    rewrite IT.
    assert (AR : forall fu, (length (format_of l last) < fu)%nat ->
      parse (S fu) em (37 :: body_of d ++ format_of l last) = Some (Arg (arg_of d) :: items_of l last)).
    { intros fu LF. cbn [parse until_percent Z.eqb Pos.eqb]. rewrite pop_arg_spec by assumption. rewrite IH by assumption. reflexivity. }
    destruct fuel as [|fu]; [lia|]. destruct t as [|c t].
    + cbn [app length] in *. apply AR. lia.
    + cbn [parse]. rewrite until_text by (auto; right; reflexivity).
      destruct fu as [|fu]; [cbn [length] in L; lia|]. rewrite AR by (cbn [length] in L; lia). reflexivity.
Qed.

(* ---- arguments ---- *)
Lemma sgn_id k x : 0 < k -> - 2 ^ (k - 1) <= x < 2 ^ (k - 1) -> sgn k x = x.
Proof.
  intros K H. unfold sgn. assert (2 ^ k = 2 * 2 ^ (k - 1)) by (rewrite <- Z.pow_succ_r by lia; f_equal; lia).
  rewrite Z.mod_small; lia.
Qed.
Lemma sgn_mod k x y : 0 < k -> x mod 2 ^ k = y mod 2 ^ k -> sgn k x = sgn k y.
Proof. intros K H. unfold sgn. rewrite (Zplus_mod x), (Zplus_mod y), H. reflexivity. Qed.
Lemma sgn_cong k x : 0 < k -> (2 ^ k | x - sgn k x) /\ - 2 ^ (k - 1) <= sgn k x < 2 ^ (k - 1).
Proof.
  intro K. assert (P : 0 < 2 ^ k) by (apply Z.pow_pos_nonneg; lia).
  assert (2 ^ k = 2 * 2 ^ (k - 1)) by (rewrite <- Z.pow_succ_r by lia; f_equal; lia).
  unfold sgn. pose proof (Z.mod_pos_bound (x + 2 ^ (k - 1)) (2 ^ k) P). split; [|lia].
  exists ((x + 2 ^ (k - 1)) / 2 ^ k). pose proof (Z.div_mod (x + 2 ^ (k - 1)) (2 ^ k) ltac:(lia)). lia.
Qed.

Definition star (f : option field) : list varg := match f with Some (FStar v) => [(TInt, v)] | _ => [] end.
Definition vt (d : dir) : vty := vty_of (kind (d_conv d)) (d_size d).
Definition targs (d : dir) : list varg :=
  if d_conv d =? 37 then [] else star (d_width d) ++ star (d_prec d) ++ [(vt d, as_vty (vt d) (d_arg d))].

Lemma pre_star f cache ap pos : (forall g, f = Some g -> good_field g) ->
  pre_number (match f with Some g => num_of g | None => NStatic 0 end) (cache, fargs f ++ ap, pos) = Ok (cache ++ star f, ap, pos).
Proof.
  intro G. destruct f as [[ds|v]|]; cbn [num_of pre_number fargs star app]; rewrite ?app_nil_r; try reflexivity.
  cbn [next_arg bind]. specialize (G _ eq_refl). cbn in G. unfold is_int32 in G.
  unfold as_vty. cbn [vbits]. rewrite sgn_id by (try exact G; lia). reflexivity.
Qed.

Lemma kind_pct d : good_dir d -> d_conv d <> 37 -> kind (d_conv d) <> KPercent.
Proof.
  intros _ H. unfold kind. destruct (Z.eqb_spec (d_conv d) 37); [contradiction|].
  destruct ((d_conv d =? 100) || (d_conv d =? 105)), (d_conv d =? 115), (d_conv d =? 99); discriminate.
Qed.

Lemma pre_dir d cache ap pos : good_dir d ->
  pre_item (Arg (arg_of d)) (cache, dargs d ++ ap, pos) = Ok (cache ++ targs d, ap, pos).
Proof.
  intros G. unfold dargs, targs. cbn [pre_item arg_of a_kind a_width a_prec a_index a_int].
  destruct (Z.eqb_spec (d_conv d) 37) as [E|N].
  - rewrite E. cbn [kind Z.eqb Pos.eqb app]. rewrite app_nil_r. reflexivity.
  - pose proof (kind_pct d G N) as K. destruct G as (_ & _ & GW & GP).
    assert (X : (s <- pre_number match d_width d with Some f => num_of f | None => NStatic 0 end
        (cache, (fargs (d_width d) ++ fargs (d_prec d) ++ [d_arg d]) ++ ap, pos) ;;
      s <- pre_number match option_map num_of (d_prec d) with Some n => n | None => NStatic 0 end s ;;
      (let '(cache0, ap0, pos0) := s in
       '(v, ap1) <- next_arg (vty_of (kind (d_conv d)) (d_size d)) ap0 ;; Ok (cache0 ++ [v], ap1, pos0)))
      = Ok (cache ++ star (d_width d) ++ star (d_prec d) ++ [(vt d, as_vty (vt d) (d_arg d))], ap, pos)).
    { rewrite <- !app_assoc. rewrite pre_star by (intros g Hg; apply GW; exact Hg). cbn [bind].
      replace (match option_map num_of (d_prec d) with Some n => n | None => NStatic 0 end)
        with (match d_prec d with Some g => num_of g | None => NStatic 0 end) by (destruct (d_prec d); reflexivity).
      rewrite pre_star by exact GP. cbn [bind app next_arg]. rewrite <- !app_assoc. reflexivity. }
    destruct (kind (d_conv d)); try exact X. congruence.
Qed.

Lemma pre_spec last l : Forall (fun x => good_text (fst x) /\ good_dir (snd x)) l -> forall cache ap pos,
  pre_items (items_of l last) (cache, args_of l ++ ap, pos) =
  Ok (cache ++ concat (map (fun x => targs (snd x)) l), ap, pos).
Proof.
  intro G. induction G as [|[t d] l [GT GD] G IH]; intros cache ap pos; cbn [fst snd] in *.
  - unfold items_of, args_of. cbn [map concat app]. rewrite app_nil_r. destruct last; reflexivity.
  - assert (X : pre_items (Arg (arg_of d) :: items_of l last) (cache, args_of ((t, d) :: l) ++ ap, pos) =
      Ok (cache ++ concat (map (fun x => targs (snd x)) ((t, d) :: l)), ap, pos)).
    { cbn [pre_items]. unfold args_of. cbn [map concat snd]. rewrite <- app_assoc. rewrite pre_dir by assumption.
      cbn [bind]. change (concat (map (fun x => dargs (snd x)) l)) with (args_of l). rewrite IH, <- app_assoc. reflexivity. }
    assert (IT : items_of ((t, d) :: l) last = (match t with [] => [] | _ => [Plain t] end) ++ Arg (arg_of d) :: items_of l last).
    { unfold items_of. cbn [map concat fst snd]. rewrite <- !app_assoc. reflexivity. }
    rewrite IT. destruct t; exact X.
Qed.

Lemma get_next (dn T : list varg) v ap o : (match o with Some t => t = fst v | None => True end) ->
  va_get (dn ++ v :: T) ap (len dn) o = Ok (v, dn ++ v :: T, ap).
Proof.
  intro H. unfold va_get. rewrite len_app, len_cons. pose proof (len_nonneg T). destruct (Z.ltb_spec (len dn) (len dn + (len T + 1))); [|lia].
  unfold len at 1. rewrite Nat2Z.id. rewrite nth_error_app2 by lia. rewrite Nat.sub_diag. cbn [nth_error].
  destruct o as [t|]; [|reflexivity]. subst t. unfold transmute.
  assert (E : vty_eqb (fst v) (fst v) = true) by (destruct (fst v); reflexivity). rewrite E. reflexivity.
Qed.

(* The raw value read for a width or precision. *)
Definition raw (f : field) : Z := match f with FNum ds => dvalue 10 ds | FStar v => v mod two64 end.
Lemma resolve_field f dn T ap : 
  resolve (num_of f) (dn ++ star (Some f) ++ T) ap (len dn) =
  Ok (raw f, dn ++ star (Some f) ++ T, ap, len (dn ++ star (Some f))).
Proof.
  destruct f as [ds|v]; cbn [num_of resolve star app raw].
  - rewrite app_nil_r. reflexivity.
  - rewrite get_next by exact I. cbn [bind]. unfold to_usize. cbn [fst snd vty_eqb bind]. rewrite len_app. reflexivity.
Qed.

Lemma raw_bounds f : good_field f -> is_int32 (fvalue f) /\ sgn 32 (raw f) = fvalue f /\ sgn 64 (raw f) = fvalue f /\ (0 <= fvalue f -> raw f = fvalue f).
Proof.
  intro G. destruct f as [ds|v]; cbn [fvalue raw].
  - destruct G as (_ & F & L). pose proof (dvalue_range 10 ds ltac:(lia) F) as R.
    unfold is_int32. split; [lia|]. split; [apply sgn_id; lia|]. split; [apply sgn_id; [lia|]|auto].
    split; [|apply Z.lt_trans with (2 ^ 31); [lia|reflexivity]]. apply Z.le_trans with 0; [discriminate|lia].
  - cbn in G. split; [exact G|]. unfold is_int32 in G.
    split; [|split].
    + transitivity (sgn 32 v); [|apply sgn_id; [lia|exact G]]. apply sgn_mod; [lia|].
      change two64 with (2 ^ 32 * 2 ^ 32). rewrite Z.rem_mul_r by lia.
      rewrite Z.mul_comm, Z.mod_add by lia. apply Z.mod_mod. lia.
    + transitivity (sgn 64 v).
      * apply sgn_mod; [lia|]. change two64 with (2 ^ 64). apply Z.mod_mod. lia.
      * apply sgn_id; [lia|]. change (2 ^ (64 - 1)) with (2 ^ 31 * 2 ^ 32). lia.
    + intro. apply Z.mod_small. split; [lia|]. apply Z.lt_trans with (2 ^ 31); [lia|reflexivity].
Qed.

Definition the_val (d : dir) : varg := if d_conv d =? 37 then (TInt, 0) else (vt d, as_vty (vt d) (d_arg d)).
Definition zpad (d : dir) : bool := a_zero (arg_of d).

Lemma p_main_dir fuel m wm d r dn T ap w out : good_dir d -> (zpad d = true -> is_left d = false) ->
  p_main fuel m wm (Arg (arg_of d) :: r) (dn ++ targs d ++ T) ap (len dn) w out =
  ('(m, ps, ok) <- conv fuel m wm (arg_of d) (if zpad d then false else is_left d) (the_prec d)
     (if zpad d then the_width d else 0) (if zpad d then 0 else the_width d) w (the_val d) ;;
   if ok : bool then p_main fuel m wm r ((dn ++ targs d) ++ T) ap (len (dn ++ targs d)) ((w + len (concat ps)) mod two64) (out ++ ps)
   else Ok (m, out ++ ps, false)).
Proof.
  intros G Q. unfold targs, the_val. destruct (Z.eqb_spec (d_conv d) 37) as [E|N].
  - destruct G as ([G|[G|G]] & _).
    + unfold int_conv in G. rewrite E in G. cbn in G. lia.
    + destruct G as ([G|G] & _); lia.
    + subst d. cbn. rewrite app_nil_r. reflexivity.
  - pose proof (kind_pct d G N) as K. destruct G as (_ & _ & GW & GP).
    set (V := (vt d, as_vty (vt d) (d_arg d))).
    cbn [p_main].
    (* width *)
    assert (RW : exists mw, resolve (a_width (arg_of d)) (dn ++ (star (d_width d) ++ star (d_prec d) ++ [V]) ++ T) ap (len dn) =
        Ok (mw, (dn ++ star (d_width d)) ++ star (d_prec d) ++ V :: T, ap, len (dn ++ star (d_width d))) /\
        sgn 64 mw = (match d_width d with Some f => fvalue f | None => 0 end) /\ is_int32 (sgn 64 mw) /\
        (0 <= sgn 64 mw -> mw = sgn 64 mw)).
    { cbn [arg_of a_width]. rewrite <- !app_assoc. cbn [app]. destruct (d_width d) as [f|].
      - exists (raw f). destruct (raw_bounds f (proj1 (GW f eq_refl))) as (B1 & _ & B2 & B3). rewrite <- B2 in B1.
        split; [|split; [exact B2|split; [exact B1|rewrite B2; exact B3]]].
        rewrite resolve_field. reflexivity.
      - exists 0. cbn [star app]. rewrite app_nil_r. split; [reflexivity|]. split; [reflexivity|]. split; [|reflexivity].
        change (sgn 64 0) with 0. unfold is_int32. lia. }
    destruct RW as (mw & RW & SW & BW & PW). rewrite RW. cbn [bind].
    (* precision *)
    assert (RP : match a_prec (arg_of d) with
         | Some n => '(p, cache0, ap0, vi0) <- resolve n ((dn ++ star (d_width d)) ++ star (d_prec d) ++ V :: T) ap (len (dn ++ star (d_width d))) ;;
              Ok (if 0 <=? sgn 32 p then Some p else None, cache0, ap0, vi0)
         | None => Ok (None, (dn ++ star (d_width d)) ++ star (d_prec d) ++ V :: T, ap, len (dn ++ star (d_width d)))
         end = Ok (the_prec d, (dn ++ star (d_width d) ++ star (d_prec d)) ++ V :: T, ap, len (dn ++ star (d_width d) ++ star (d_prec d)))).
    { cbn [arg_of a_prec]. unfold the_prec. destruct (d_prec d) as [f|].
      - cbn [option_map]. rewrite resolve_field. cbn [bind]. destruct (raw_bounds f (GP f eq_refl)) as (_ & B1 & _ & B3).
        rewrite B1. rewrite <- !app_assoc. destruct (Z.leb_spec 0 (fvalue f)), (Z.ltb_spec (fvalue f) 0); try lia; [rewrite B3 by assumption|]; reflexivity.
      - cbn [option_map star app]. rewrite !app_nil_r. reflexivity. }
    rewrite RP. cbn [bind]. clear RP RW.
    set (dn2 := dn ++ star (d_width d) ++ star (d_prec d)).
    assert (GV : match a_kind (arg_of d) with
      | KPercent => Ok (TInt, 0, dn2 ++ V :: T, ap, len dn2)
      | k => let (index, vi) := match a_index (arg_of d) with Some i => ((i - 1) mod two64, len dn2) | None => (len dn2, len dn2 + 1) end in
             '(v, cache, ap) <- va_get (dn2 ++ V :: T) ap index (Some (vty_of k (a_int (arg_of d)))) ;; Ok (v, cache, ap, vi)
      end = Ok (V, dn2 ++ V :: T, ap, len dn2 + 1)).
    { cbn [arg_of a_kind a_index a_int].
      assert (X : va_get (dn2 ++ V :: T) ap (len dn2) (Some (vty_of (kind (d_conv d)) (d_size d))) = Ok (V, dn2 ++ V :: T, ap)).
      { apply get_next. reflexivity. }
      destruct (kind (d_conv d)); rewrite ?X; try reflexivity. congruence. }
    rewrite GV. cbn [bind]. clear GV.
    assert (PADS : (if a_zero (arg_of d) then mw else 0) = (if zpad d then the_width d else 0) /\
      (let signed_space := if (if a_zero (arg_of d) then mw else 0) =? 0 then sgn 64 mw else 0 in
       (if signed_space <? 0 then true else a_left (arg_of d)) = (if zpad d then false else is_left d) /\
       (if signed_space <? 0 then (- signed_space) mod two64 else signed_space) = (if zpad d then 0 else the_width d))).
    { fold (zpad d). unfold is_left in *. unfold the_width. cbn [arg_of a_left].
      assert (TW : (match d_width d with Some f => Z.abs (fvalue f) | None => 0 end) = Z.abs (sgn 64 mw)) by (rewrite SW; destruct (d_width d); reflexivity).
      assert (TL : (match d_width d with Some f => fvalue f <? 0 | None => false end) = (sgn 64 mw <? 0)) by (rewrite SW; destruct (d_width d); reflexivity).
      rewrite TW. rewrite TL in *. cbv zeta. destruct (zpad d).
      - specialize (Q eq_refl). apply orb_false_iff in Q. destruct Q as (Q1 & Q2). rewrite Q1. apply Z.ltb_ge in Q2.
        specialize (PW Q2). rewrite Z.abs_eq by exact Q2. split; [exact PW|]. rewrite <- PW.
        destruct (Z.eqb_spec mw 0) as [E0|]; [|split; reflexivity]. rewrite E0. split; reflexivity.
      - split; [reflexivity|]. cbn [Z.eqb]. destruct (Z.ltb_spec (sgn 64 mw) 0); cbn [orb].
        + rewrite orb_true_r. split; [reflexivity|]. unfold is_int32 in BW. rewrite Z.mod_small; [lia|].
          split; [lia|]. apply Z.le_lt_trans with (2 ^ 31); [lia|reflexivity].
        + rewrite orb_false_r. split; [reflexivity|lia]. }
    destruct PADS as (P1 & P2 & P3). cbv zeta in P2, P3. rewrite P2, P3, P1.
    replace ((dn ++ star (d_width d) ++ star (d_prec d) ++ [V]) ++ T) with (dn2 ++ V :: T)
      by (unfold dn2; rewrite <- !app_assoc; reflexivity).
    replace (len (dn ++ star (d_width d) ++ star (d_prec d) ++ [V])) with (len dn2 + 1); [reflexivity|].
    unfold dn2. rewrite !len_app, len_cons. unfold len at 7. cbn [length]. lia.
Qed.

(* ---- conversions ---- *)
Lemma concat_padding side c f t : concat (padding side c f t) = if side then rep c (t - f) else [].
Proof.
  unfold padding, rep. destruct side; [|reflexivity]. induction (Z.to_nat (t - f)) as [|n IH]; [reflexivity|].
  cbn [repeat concat app]. rewrite IH. reflexivity.
Qed.
Lemma rep_none c n : n <= 0 -> rep c n = [].
Proof. intro H. unfold rep. replace (Z.to_nat n) with 0%nat by lia. reflexivity. Qed.
Lemma len_rep c n : len (rep c n) = Z.max 0 n.
Proof. unfold rep, len. rewrite repeat_length. lia. Qed.
Lemma len_map {A B} (f : A -> B) l : len (map f l) = len l.
Proof. unfold len. rewrite map_length. reflexivity. Qed.

Lemma digit_char_text c d : digit_char (c =? 88) d = digit_text c d.
Proof. unfold digit_char, digit_text. destruct (d <? 10); [reflexivity|]. destruct (c =? 88); lia. Qed.
Lemma show_text b c n : show b (c =? 88) n = map (digit_text c) (to_digits b n).
Proof. unfold show. apply map_ext. intro d. apply digit_char_text. Qed.

Lemma zero_str_iff b u n : 2 <= b <= 16 -> 0 <= n -> is_zero_str (show b u n) = (n =? 0).
Proof.
  intros B N. unfold show. pose proof (to_digits_numeral b n ltac:(lia) N) as (F & V & NE & H0).
  destruct (to_digits b n) as [|x [|y l]]; [congruence| |].
  - cbn [map is_zero_str]. unfold dvalue in V. cbn in V. inversion F; subst. unfold digit_char.
    destruct (Z.ltb_spec x 10), u; lia.
  - cbn [map is_zero_str]. destruct (Z.eqb_spec n 0) as [E|]; [|reflexivity]. exfalso.
    assert (numeral b (x :: y :: l) n) as NU by (repeat split; auto). 
    pose proof (numeral_1 b _ n ltac:(lia) NU ltac:(lia)). congruence.
Qed.

Lemma size_bits_vbits d : int_conv (d_conv d) -> vbits (vt d) = size_bits (d_size d) /\ as_vty (vt d) (d_arg d) = sgn (vbits (vt d)) (d_arg d).
Proof.
  intro H. unfold vt, kind. unfold int_conv in H. cbn [In] in H.
  destruct (Z.eqb_spec (d_conv d) 37); [lia|]. destruct (Z.eqb_spec (d_conv d) 115); [lia|]. destruct (Z.eqb_spec (d_conv d) 99); [lia|].
  destruct ((d_conv d =? 100) || (d_conv d =? 105)), (d_size d); split; reflexivity.
Qed.
Lemma size_pos k : 0 < size_bits k <= 64.
Proof. destruct k; cbn; lia. Qed.

Lemma zero_pad_spec d : int_conv (d_conv d) -> no_quirk d ->
  zpad d = (has 48 d && match the_prec d with None => true | _ => false end) /\ (zpad d = true -> is_left d = false /\ d_prec d = None /\ the_prec d = None /\ has 48 d = true).
Proof.
  intros I Q. destruct (Q I) as (Q1 & Q2 & _). unfold zpad. cbn [arg_of a_zero].
  assert (IC : iconv (d_conv d) = true) by (unfold int_conv in I; cbn [In] in I; unfold iconv; lia). rewrite IC.
  destruct (has 48 d); cbn [andb]; [|split; [reflexivity|discriminate]]. specialize (Q1 eq_refl). specialize (Q2 eq_refl).
  unfold the_prec in *. destruct (d_prec d) as [f|].
  - specialize (Q2 ltac:(discriminate)). destruct (fvalue f <? 0); [congruence|]. cbn. split; [reflexivity|discriminate].
  - cbn. split; auto.
Qed.

Lemma signed_spec d v : int_conv (d_conv d) -> is_signed (d_conv d) = true -> no_quirk d -> converted d v ->
  concat (conv_signed (has 43 d) (has 32 d) (if zpad d then false else is_left d) (the_prec d)
    (if zpad d then the_width d else 0) (if zpad d then 0 else the_width d) v) =
  the_field d (has 48 d && match the_prec d with None => true | _ => false end) (the_prefix d v) (the_digits d (to_digits 10 (Z.abs v)) v).
Proof.
  intros I SG Q CV. destruct (zero_pad_spec d I Q) as (ZP & ZT). rewrite <- ZP.
  destruct (Q I) as (_ & _ & Q3). 
  assert (TB : the_base (d_conv d) = 10). { unfold is_signed in SG. assert (d_conv d = 100 \/ d_conv d = 105) as [-> | ->] by lia; reflexivity. }
  assert (TX : d_conv d =? 88 = false) by (unfold is_signed in SG; lia).
  assert (TO : d_conv d =? 111 = false) by (unfold is_signed in SG; lia).
  pose proof (to_digits_numeral 10 (Z.abs v) ltac:(lia) ltac:(lia)) as NU.
  assert (NU' := NU). rewrite <- TB in NU' at 1. specialize (Q3 v _ CV NU'). destruct Q3 as (Q3 & _). destruct (Q3 SG) as (QA & QB & QC & QD). clear Q3 NU'.
  set (ds := to_digits 10 (Z.abs v)) in *. set (S := map (digit_text (d_conv d)) ds).
  assert (SH : show 10 false (Z.abs v) = S). { rewrite <- TX. rewrite show_text. reflexivity. }
  assert (LS : len S = len ds) by apply len_map.
  assert (LP : 0 < len ds). { destruct NU as (_ & _ & NE & _). fold ds in NE. destruct ds; [congruence|]. rewrite len_cons. pose proof (len_nonneg ds). lia. }
  assert (P0 : forall p, the_prec d = Some p -> 0 <= p).
  { unfold the_prec. destruct (d_prec d) as [f|]; [|discriminate]. destruct (Z.ltb_spec (fvalue f) 0); [discriminate|]. intros p X. injection X as <-. assumption. }
  unfold conv_signed. rewrite !concat_app, !concat_padding. unfold the_prefix, the_digits, the_field. rewrite SG, TO, andb_false_r. clear ZP CV Q I TX TO TB.
  assert (ISZ : is_zero_str (show_signed v) = (v =? 0)).
  { unfold show_signed. destruct (Z.ltb_spec v 0).
    - rewrite Z.abs_neq in SH by lia. rewrite SH. destruct S; [change (len (@nil Z)) with 0 in LS; lia|]. cbn. lia.
    - rewrite zero_str_iff by lia. reflexivity. }
  fold S. rewrite ISZ. unfold show_signed. clear ISZ NU. destruct (Z.ltb_spec v 0) as [NEG|POS].
  - (* negative *)
    rewrite Z.abs_neq in SH by lia. rewrite SH. destruct (Z.eqb_spec v 0); [lia|]. rewrite !andb_false_r. cbn [negb andb].
    assert (ZF : (match the_prec d with Some p => (p =? 0) && false | None => false end) = false) by (destruct (the_prec d); rewrite ?andb_false_r; reflexivity).
    rewrite ZF. cbn [concat app tl]. rewrite !len_cons, LS, !app_nil_r.
    destruct (zpad d) eqn:EZ.
    + destruct (ZT eq_refl) as (Z1 & Z2 & Z3 & Z4). rewrite Z1, Z3. cbn [or_else negb]. rewrite (rep_none 32) by lia. cbn [app].
      rewrite (rep_none 48 (1 - len ds)) by lia. cbn [app]. rewrite LS, ?app_nil_r. reflexivity.
    + assert (PL : or_else (the_prec d) 0 <= len ds). { destruct (the_prec d) as [p|]; [apply QB; auto|cbn [or_else]; lia]. }
      assert (RP : rep 48 ((match the_prec d with Some p => p | None => 1 end) - len ds) = []).
      { apply rep_none. destruct (the_prec d) as [p|]; [cbn [or_else] in PL; lia|lia]. }
      rewrite RP. rewrite (rep_none 48) by lia. cbn [app]. rewrite LS.
      replace (Z.max (len ds + 1) (or_else (the_prec d) 0) + 0) with (len ds + 1) by lia.
      destruct (is_left d); cbn [negb app]; rewrite ?app_nil_r; reflexivity.
  - (* non-negative *)
    rewrite Z.abs_eq in SH by lia. rewrite SH. cbn [negb andb].
    specialize (QA POS). specialize (QC POS).
    set (SP := if has 32 d then [[32]] else if has 43 d then [[43]] else []).
    assert (PF : concat SP = (if has 43 d then [43] else if has 32 d then [32] else [])).
    { unfold SP. destruct (has 43 d), (has 32 d); try discriminate; reflexivity. }
    rewrite PF. set (pf := if has 43 d then [43] else if has 32 d then [32] else []) in *.
    assert (LF : (if has 32 d || has 43 d then 1 else 0) = len pf). { unfold pf. destruct (has 43 d), (has 32 d); reflexivity. }
    rewrite LF.
    destruct (zpad d) eqn:EZ.
    + destruct (ZT eq_refl) as (Z1 & Z2 & Z3 & Z4). rewrite Z1, Z3. cbn [or_else negb]. specialize (QC Z4 Z2).
      apply orb_false_iff in QC. destruct QC as (H43 & H32). unfold pf. rewrite H43, H32. cbn [app].
      change (len []) with 0. pose proof (len_nonneg S).
      rewrite (rep_none 32) by lia. cbn [app concat]. rewrite LS. cbn [Z.eqb andb]. change (1 =? 0) with false. cbn [andb].
      rewrite (rep_none 48 (1 - len ds)) by lia. cbn [app]. rewrite LS, !app_nil_r. reflexivity.
    + destruct (the_prec d) as [p|] eqn:EP.
      * specialize (P0 p eq_refl). cbn [or_else]. destruct (Z.eqb_spec p 0) as [->|NP]; cbn [andb].
        -- destruct (Z.eqb_spec v 0) as [->|NV].
           ++ specialize (QD eq_refl eq_refl). apply orb_false_iff in QD. destruct QD as (H43 & H32). unfold pf. rewrite H43, H32.
              change (rep 48 (0 - 0)) with (@nil Z). cbn [concat app]. change (len []) with 0.
              destruct (is_left d); cbn [negb app]; rewrite ?app_nil_r; reflexivity.
           ++ rewrite LS. rewrite (rep_none 48 (0 - len ds)) by lia. cbn [concat app]. rewrite !app_nil_r, len_app, LS.
              replace (Z.max (len ds) 0 + len pf) with (len pf + len ds) by lia.
              destruct (is_left d); cbn [negb app]; rewrite ?app_nil_r, <- ?app_assoc; reflexivity.
        -- rewrite LS. cbn [concat app]. rewrite !app_nil_r, !len_app, len_rep, LS.
           replace (Z.max (len ds) p + len pf) with (len pf + (Z.max 0 (p - len ds) + len ds)) by lia.
           destruct (is_left d); cbn [negb app]; rewrite ?app_nil_r, <- ?app_assoc; reflexivity.
      * cbn [or_else]. change (1 =? 0) with false. cbn [andb]. rewrite LS, (rep_none 48 (1 - len ds)), (rep_none 48 (0 - len ds)) by lia.
        cbn [concat app]. rewrite !app_nil_r, len_app, LS.
        replace (Z.max (len ds) 0 + len pf) with (len pf + len ds) by lia.
        destruct (is_left d); cbn [negb app]; rewrite ?app_nil_r, <- ?app_assoc; reflexivity.
Qed.

Lemma unsigned_base d : int_conv (d_conv d) -> is_signed (d_conv d) = false ->
  2 <= the_base (d_conv d) <= 16 /\ forall n, fmt_int (d_conv d) n = show (the_base (d_conv d)) (d_conv d =? 88) n.
Proof.
  intros I SG. unfold int_conv in I. cbn [In] in I. unfold is_signed in SG.
  assert (d_conv d = 117 \/ d_conv d = 111 \/ d_conv d = 120 \/ d_conv d = 88 \/ d_conv d = 98 \/ d_conv d = 66) as H by lia.
  destruct H as [->|[->|[->|[->|[->| ->]]]]]; (split; [cbn; lia|reflexivity]).
Qed.

Lemma hd_digits c ds b : 2 <= b <= 16 -> numeral b ds (dvalue b ds) -> dvalue b ds <> 0 -> hd 0 (map (digit_text c) ds) <> 48.
Proof.
  intros B (F & V & NE & H0) NZ. destruct ds as [|x ds]; [congruence|]. cbn [map hd] in *. inversion F; subst.
  intro E. assert (x = 0). { unfold digit_text in E. destruct (Z.ltb_spec x 10); [lia|]. destruct (c =? 88); lia. }
  subst. specialize (H0 eq_refl). injection H0 as ->. apply NZ. reflexivity.
Qed.

Lemma unsigned_spec d v : int_conv (d_conv d) -> is_signed (d_conv d) = false -> no_quirk d -> converted d v ->
  concat (conv_unsigned (d_conv d) (has 35 d) (if zpad d then false else is_left d) (the_prec d)
    (if zpad d then the_width d else 0) (if zpad d then 0 else the_width d) v) =
  the_field d (has 48 d && match the_prec d with None => true | _ => false end) (the_prefix d v)
    (the_digits d (to_digits (the_base (d_conv d)) (Z.abs v)) v).
Proof.
  intros I SG Q CV. destruct (zero_pad_spec d I Q) as (ZP & ZT). rewrite <- ZP.
  destruct (Q I) as (_ & _ & Q3). destruct (unsigned_base d I SG) as (TB & FI).
  assert (V0 : 0 <= v). { destruct CV as (CV & _). rewrite SG in CV. lia. }
  pose proof (to_digits_numeral (the_base (d_conv d)) (Z.abs v) ltac:(lia) ltac:(lia)) as NU.
  specialize (Q3 v _ CV NU). destruct Q3 as (_ & Q3). specialize (Q3 SG). clear ZP Q CV.
  rewrite Z.abs_eq in * by exact V0.
  set (ds := to_digits (the_base (d_conv d)) v) in *. set (S := map (digit_text (d_conv d)) ds).
  assert (SH : fmt_int (d_conv d) v = S). { rewrite FI, show_text. reflexivity. }
  assert (LS : len S = len ds) by apply len_map.
  assert (LP : 0 < len ds). { destruct NU as (_ & _ & NE & _). fold ds in NE. destruct ds; [congruence|]. rewrite len_cons. pose proof (len_nonneg ds). lia. }
  assert (P0 : forall p, the_prec d = Some p -> 0 <= p).
  { unfold the_prec. destruct (d_prec d) as [f|]; [|discriminate]. destruct (Z.ltb_spec (fvalue f) 0); [discriminate|]. intros p X. injection X as <-. assumption. }
  assert (ISZ : is_zero_str S = (v =? 0)). { rewrite <- SH, FI. apply zero_str_iff; [exact TB|exact V0]. }
  assert (HD : v <> 0 -> hd 0 S <> 48).
  { intro NZ. destruct NU as (N1 & N2 & N3 & N4). apply (hd_digits _ _ (the_base (d_conv d))); [exact TB|repeat split; auto|congruence]. }
  assert (S0 : v = 0 -> S = [48]).
  { intro E. assert (ds = [0]) as D0. { apply (numeral_1 (the_base (d_conv d)) ds 0); [lia|rewrite <- E; exact NU|lia]. }
    unfold S. rewrite D0. cbn [map]. unfold digit_text. reflexivity. }
  unfold conv_unsigned. rewrite SH, ISZ, LS, !concat_app, !concat_padding. unfold the_prefix, the_digits. rewrite SG. fold S.
  clear FI NU SH SG ISZ.
  set (PC := if has 35 d && negb (v =? 0) then
    if d_conv d =? 111 then if match the_prec d with Some p => p <? len ds | None => true end then [48] else []
    else if d_conv d =? 120 then [48; 120] else if d_conv d =? 88 then [48; 88]
    else if d_conv d =? 98 then [48; 98] else if d_conv d =? 66 then [48; 66] else [] else []).
  assert (CP : concat (match PC with [] => [] | _ => [PC] end) = PC).
  { destruct PC; [reflexivity|]. cbn [concat]. apply app_nil_r. }
  rewrite CP. clear CP.
  set (pf := if has 35 d && negb (v =? 0) then _ else _).
  set (t := if (_ =? 0) && (v =? 0) then _ else _).
  set (dg := if has 35 d && (d_conv d =? 111) then _ else _).
  destruct (zpad d) eqn:EZ.
  - destruct (ZT eq_refl) as (Z1 & Z2 & Z3 & Z4). unfold the_field. rewrite Z1.
    assert (TS : t = S). { unfold t. rewrite Z3. change (1 =? 0) with false. cbn [andb]. rewrite rep_none by lia. reflexivity. }
    assert (PE : PC = if has 35 d && negb (v =? 0) then
      if d_conv d =? 111 then [48] else if d_conv d =? 120 then [48; 120] else if d_conv d =? 88 then [48; 88]
      else if d_conv d =? 98 then [48; 98] else if d_conv d =? 66 then [48; 66] else [] else []).
    { unfold PC. rewrite Z3. reflexivity. }
    rewrite PE, Z3. cbn [or_else negb].
    assert (X : (if has 35 d && negb (v =? 0) then
      if d_conv d =? 111 then [48] else if d_conv d =? 120 then [48; 120] else if d_conv d =? 88 then [48; 88]
      else if d_conv d =? 98 then [48; 98] else if d_conv d =? 66 then [48; 66] else [] else []) = [] /\ pf = [] /\ dg = S).
    { unfold pf, dg. rewrite TS. clear PE PC pf t dg TS. destruct (has 35 d); cbn [andb]; [|auto]. specialize (Q3 eq_refl).
      destruct (Z.eqb_spec v 0) as [E|NV]; cbn [negb].
      - rewrite (S0 E). destruct (d_conv d =? 111); auto.
      - destruct (Z.eq_dec (d_conv d) 117) as [E|N117]; [rewrite E; auto|].
        destruct (Q3 N117) as (QA & _). rewrite (QA NV Z2) in Z4. discriminate. }
    destruct X as (X1 & -> & ->). rewrite X1. cbn [app]. change (len []) with 0.
    rewrite !(rep_none 32) by lia. cbn [concat app]. rewrite !app_nil_r, LS. reflexivity.
  - (* padded with spaces *)
    set (zero := match the_prec d with Some p => (p =? 0) && (v =? 0) | None => false end).
    assert (X : PC ++ rep 48 (or_else (the_prec d) 0 - (if zero then 0 else len ds)) ++ concat (if zero then [] else [S]) = pf ++ dg /\
      (if zero then 0 else Z.max (len ds) (or_else (the_prec d) 0) + len PC) = len (pf ++ dg)).
    { assert (TZ : t = rep 48 (or_else (the_prec d) 0 - (if zero then 0 else len ds)) ++ concat (if zero then [] else [S])).
      { unfold t, zero. destruct (the_prec d) as [p|]; cbn [or_else].
        - destruct (Z.eqb_spec p 0) as [->|]; cbn [andb]; [destruct (v =? 0); [reflexivity|]|]; cbn [concat]; rewrite app_nil_r; reflexivity.
        - change (1 =? 0) with false. cbn [andb concat]. rewrite !rep_none by lia. rewrite app_nil_r. reflexivity. }
      assert (LT : len t = if zero then 0 else Z.max (len ds) (or_else (the_prec d) 0)).
      { rewrite TZ, len_app, len_rep. unfold zero. destruct (the_prec d) as [p|]; cbn [or_else].
        - specialize (P0 p eq_refl). destruct (Z.eqb_spec p 0) as [->|]; cbn [andb]; [destruct (v =? 0); [reflexivity|]|]; cbn [concat]; rewrite app_nil_r, LS; lia.
        - cbn [concat]; rewrite app_nil_r, LS; lia. }
      rewrite <- TZ.
      assert (Y : PC ++ t = pf ++ dg /\ (zero = true -> PC = [])).
      { unfold PC, pf, dg. destruct (has 35 d); cbn [andb]; [|auto]. specialize (Q3 eq_refl).
        destruct (Z.eqb_spec (d_conv d) 111) as [E|N111].
        - rewrite E in Q3. destruct (Q3 ltac:(lia)) as (_ & Q8 & Q9). specialize (Q8 eq_refl). specialize (Q9 eq_refl). rewrite E. cbn [Z.eqb Pos.eqb].
          destruct (Z.eqb_spec v 0) as [V|NV]; cbn [negb].
          + specialize (Q9 V). cbn [app]. split; [|reflexivity]. rewrite TZ, (S0 V). unfold zero. destruct (the_prec d) as [p|].
            * specialize (P0 p eq_refl). destruct (Z.eqb_spec p 0) as [->|NP]; [congruence|]. cbn [andb concat or_else].
              unfold rep. destruct (Z.to_nat (p - len ds)); reflexivity.
            * cbn [or_else concat]. rewrite rep_none by lia. reflexivity.
          + specialize (Q8 NV). specialize (HD NV).
            assert (ZE : zero = false). { unfold zero. destruct (the_prec d); [|reflexivity]. destruct (Z.eqb_spec v 0); [lia|apply andb_false_r]. }
            rewrite ZE in *. cbn [concat] in TZ. rewrite app_nil_r in TZ. split; [|discriminate].
            rewrite TZ. destruct (the_prec d) as [p|]; cbn [or_else].
            * assert (p <> len ds) by congruence. destruct (Z.ltb_spec p (len ds)).
              -- rewrite rep_none by lia. cbn [app]. destruct (Z.eqb_spec (hd 0 S) 48); [contradiction|reflexivity].
              -- cbn [app]. unfold rep. destruct (Z.to_nat (p - len ds)) eqn:EN; [lia|]. cbn [repeat app hd Z.eqb Pos.eqb]. reflexivity.
            * rewrite rep_none by lia. cbn [app].
              destruct (Z.eqb_spec (hd 0 S) 48); [contradiction|reflexivity].
        - split; [reflexivity|]. unfold zero. intro H. destruct (the_prec d); [|discriminate]. apply andb_true_iff in H. destruct H as (_ & ->). reflexivity. }
      destruct Y as (Y1 & Y2). split; [exact Y1|]. rewrite <- Y1, len_app, LT. destruct zero; [rewrite (Y2 eq_refl); reflexivity|lia]. }
    destruct X as (X1 & X2). rewrite X2. unfold the_field.
    destruct (is_left d); cbn [negb app].
    + rewrite (app_assoc pf dg), <- X1, <- !app_assoc. reflexivity.
    + rewrite app_nil_r, X1. reflexivity.
Qed.

Lemma str_len_spec m s : forall p l max fuel, cstr m (p + l) s -> 0 <= l <= max -> (length s < fuel)%nat ->
  str_len fuel m p l max = Ok (Z.min (l + len s) max).
Proof.
  induction s as [|c s IH]; intros p l max fuel C L F; (destruct fuel as [|fu]; [lia|]); cbn [str_len].
  - apply cstr_nil in C. unfold ld. rewrite C. cbn [bind]. cbn [Z.eqb negb andb]. rewrite len_nil. f_equal. lia.
  - apply cstr_cons in C. destruct C as (IC & E & C). unfold ld. rewrite E. cbn [bind]. unfold is_char in IC.
    destruct (Z.eqb_spec c 0); [lia|]. cbn [negb andb]. rewrite len_cons. pose proof (len_nonneg s).
    destruct (Z.ltb_spec l max).
    + rewrite IH; [f_equal; lia|replace (p + (l + 1)) with (p + l + 1) by lia; exact C|lia|cbn [length] in F; lia].
    + f_equal. lia.
Qed.
Lemma ld_list_spec m l : forall a, bytes_at m a l -> ld_list m a (length l) = Ok l.
Proof.
  induction l as [|b l IH]; intros a H; cbn [length ld_list]; [reflexivity|]. destruct H as (H1 & H2).
  unfold ld. rewrite H1. cbn [bind]. rewrite (IH _ H2). reflexivity.
Qed.
Lemma bytes_firstn m a l n : bytes_at m a l -> bytes_at m a (firstn n l).
Proof. intro H. rewrite <- (firstn_skipn n l) in H. apply bytes_at_app in H. apply H. Qed.

Lemma pad_field d s : concat (padding (negb (is_left d)) 32 (len s) (the_width d) ++ [s] ++ padding (is_left d) 32 (len s) (the_width d)) =
  the_field d false [] s.
Proof.
  rewrite !concat_app, !concat_padding. unfold the_field. cbn [app concat].
  destruct (is_left d); cbn [negb app]; rewrite ?app_nil_r, ?app_nil_r; reflexivity.
Qed.

Lemma conv_dir fuel m wm d w : good_dir d -> no_quirk d ->
  (forall s, d_conv d = 115 -> cstr m (d_arg d) s -> len s < 2 ^ 64 /\ (length s < fuel)%nat) ->
  (d_conv d = 115 -> exists s, cstr m (d_arg d) s) ->
  (zpad d = true -> is_left d = false) /\
  exists ps, conv fuel m wm (arg_of d) (if zpad d then false else is_left d) (the_prec d)
     (if zpad d then the_width d else 0) (if zpad d then 0 else the_width d) w (the_val d) = Ok (m, ps, true) /\ prints m d (concat ps).
Proof.
  intros G Q FU ST. pose proof G as (K & _ & _ & GP). destruct K as [I|[(SC & SZ & NZ & AR)|E]].
  - (* integers *)
    split; [apply (zero_pad_spec d I Q)|].
    destruct (size_bits_vbits d I) as (VB & AV). pose proof (size_pos (d_size d)) as SP.
    destruct (sgn_cong (size_bits (d_size d)) (d_arg d) ltac:(lia)) as (CG & RG).
    assert (NP : d_conv d =? 37 = false /\ d_conv d =? 99 = false /\ d_conv d =? 115 = false).
    { unfold int_conv in I. cbn [In] in I. lia. }
    destruct NP as (N1 & N2 & N3). unfold prints, the_val. rewrite N1, N2, N3. cbn [conv arg_of a_kind a_plus a_space a_fmt a_alt].
    unfold conv. cbn [conv arg_of a_kind a_plus a_space a_fmt a_alt]. unfold kind. rewrite N1, N2, N3. cbn [fst snd]. rewrite AV, VB.
    fold (is_signed (d_conv d)). destruct (is_signed (d_conv d)) eqn:SG.
    + eexists. split; [reflexivity|].
      assert (CV : converted d (sgn (size_bits (d_size d)) (d_arg d))) by (unfold converted; rewrite SG; split; assumption).
      exists (sgn (size_bits (d_size d)) (d_arg d)), (to_digits 10 (Z.abs (sgn (size_bits (d_size d)) (d_arg d)))).
      split; [exact CV|]. split; [|apply signed_spec; assumption].
      assert (TB : the_base (d_conv d) = 10). { unfold is_signed in SG. assert (d_conv d = 100 \/ d_conv d = 105) as [-> | ->] by lia; reflexivity. }
      rewrite TB. apply to_digits_numeral; lia.
    + eexists. split; [reflexivity|].
      set (b := size_bits (d_size d)) in *. assert (PB : 0 < 2 ^ b) by (apply Z.pow_pos_nonneg; lia).
      set (v := sgn b (d_arg d) mod 2 ^ b).
      assert (CV : converted d v).
      { unfold converted. rewrite SG. fold b. split; [apply Z.mod_pos_bound; exact PB|].
        destruct CG as (q & CG). exists (q + sgn b (d_arg d) / 2 ^ b). unfold v.
        pose proof (Z.div_mod (sgn b (d_arg d)) (2 ^ b) ltac:(lia)). lia. }
      exists v, (to_digits (the_base (d_conv d)) (Z.abs v)). split; [exact CV|]. split; [|apply unsigned_spec; assumption].
      destruct (unsigned_base d I SG) as (TB & _). apply to_digits_numeral; lia.
  - (* characters and strings *)
    assert (ZP : zpad d = false). { unfold zpad. cbn [arg_of a_zero]. rewrite NZ. reflexivity. }
    rewrite ZP. split; [discriminate|]. unfold prints, the_val, vt, kind, conv. cbn [arg_of a_kind a_int]. unfold kind.
    destruct SC as [E|E]; rewrite E, SZ in *; cbn [Z.eqb Pos.eqb orb fst snd vty_of].
    + destruct (ST eq_refl) as (s & C). destruct (FU s eq_refl C) as (L64 & LF). specialize (AR eq_refl).
      unfold as_vty. cbn [vbits]. rewrite Z.mod_small by lia. destruct (Z.eqb_spec (d_arg d) 0); [lia|].
      set (mx := or_else (the_prec d) USIZE_MAX).
      assert (P0 : 0 <= mx). { unfold mx, the_prec. destruct (d_prec d) as [f|]; [destruct (Z.ltb_spec (fvalue f) 0)|]; cbn [or_else]; unfold USIZE_MAX; lia. }
      rewrite (str_len_spec m s) with (fuel := fuel); [|rewrite Z.add_0_r; exact C|lia|exact LF]. cbn [bind].
      set (t := match the_prec d with Some p => firstn (Z.to_nat p) s | None => s end).
      assert (LT : Z.min (0 + len s) mx = len t /\ bytes_at m (d_arg d) t).
      { apply cstr_bytes in C. pose proof (len_nonneg s). unfold t, mx in *. destruct (the_prec d) as [p|]; cbn [or_else] in *.
        - rewrite len_firstn. split; [lia|apply bytes_firstn; exact C].
        - change USIZE_MAX with (2 ^ 64 - 1) in *. split; [lia|exact C]. }
      destruct LT as (LT & BT). rewrite LT. unfold len at 1. rewrite Nat2Z.id, (ld_list_spec _ _ _ BT). cbn [bind].
      eexists. split; [reflexivity|]. exists s. split; [exact C|]. apply pad_field.
    + unfold as_vty. cbn [vbits].
      replace (sgn 8 (d_arg d) mod 256) with (d_arg d mod 256).
      2:{ destruct (sgn_cong 8 (d_arg d) ltac:(lia)) as ((q & CG) & _). change (2 ^ 8) with 256 in CG.
          replace (d_arg d) with (sgn 8 (d_arg d) + q * 256) at 1 by lia. apply Z.mod_add. lia. }
      eexists. split; [reflexivity|]. exact (pad_field d [d_arg d mod 256]).
  - subst d. split; [discriminate|]. eexists. split; [reflexivity|]. reflexivity.
Qed.

Lemma cstr_inj m a s s' : cstr m a s -> cstr m a s' -> s = s'.
Proof.
  revert a s'. induction s as [|c s IH]; intros a s' H H'.
  - destruct s' as [|x s']; [reflexivity|]. apply cstr_nil in H. apply cstr_cons in H'. destruct H' as (I & E & _).
    rewrite H in E. injection E as <-. unfold is_char in I. lia.
  - apply cstr_cons in H. destruct H as (I & E & H). destruct s' as [|x s'].
    + apply cstr_nil in H'. rewrite H' in E. injection E as <-. unfold is_char in I. lia.
    + apply cstr_cons in H'. destruct H' as (I' & E' & H'). rewrite E in E'. injection E' as <-. f_equal. eapply IH; eauto.
Qed.

Lemma main_spec fuel m wm last : forall l dn ap w out, Forall (fun x => good_text (fst x) /\ good_dir (snd x)) l ->
  Forall (fun x => no_quirk (snd x)) l -> strings_at m l (Z.min (2 ^ 64) (Z.of_nat fuel)) ->
  exists o outs, prints_all m last l o /\ concat outs = o /\
    p_main fuel m wm (items_of l last) (dn ++ concat (map (fun x => targs (snd x)) l)) ap (len dn) w out = Ok (m, out ++ outs, true).
Proof.
  induction l as [|[t d] l IH]; intros dn ap w out G Q S.
  - exists last, (match last with [] => [] | _ => [last] end). split; [constructor|].
    split; [destruct last; [reflexivity|cbn [concat]; apply app_nil_r]|].
    unfold items_of. cbn [map concat app]. destruct last; cbn [p_main]; rewrite ?app_nil_r; reflexivity.
  - inversion G as [|? ? (GT & GD) G']; inversion Q as [|? ? QD Q']; subst. cbn [fst snd] in *.
    assert (IT : items_of ((t, d) :: l) last = (match t with [] => [] | _ => [Plain t] end) ++ Arg (arg_of d) :: items_of l last).
    { unfold items_of. cbn [map concat fst snd]. rewrite <- !app_assoc. reflexivity. }
    rewrite IT. cbn [map concat snd].
    assert (X : forall w out, exists o ps os outs, prints m d o /\ prints_all m last l os /\ concat ps = o /\ concat outs = os /\
      p_main fuel m wm (Arg (arg_of d) :: items_of l last) (dn ++ targs d ++ concat (map (fun x => targs (snd x)) l)) ap (len dn) w out =
        Ok (m, (out ++ ps) ++ outs, true)).
    { intros w' out'. destruct (conv_dir fuel m wm d w' GD QD) as (ZL & ps & CE & PR).
      - intros s E C. destruct (S t d (or_introl eq_refl) E) as (s' & C' & L). rewrite (cstr_inj _ _ _ _ C C'). unfold len in *. lia.
      - intro E. destruct (S t d (or_introl eq_refl) E) as (s' & C' & _). eauto.
      - destruct (IH (dn ++ targs d) ap ((w' + len (concat ps)) mod two64) (out' ++ ps) G' Q') as (os & outs & P1 & P2 & P3).
        { intros t' d' HI. apply (S t' d'). right. exact HI. }
        exists (concat ps), ps, os, outs. split; [exact PR|]. split; [exact P1|]. split; [reflexivity|]. split; [exact P2|].
        rewrite p_main_dir by assumption. rewrite CE. cbn [bind]. exact P3. }
    destruct t as [|c t].
    + destruct (X w out) as (o & ps & os & outs & P1 & P2 & P3 & P4 & P5). exists ([] ++ o ++ os), (ps ++ outs).
      split; [constructor; assumption|]. split; [rewrite concat_app, P3, P4; reflexivity|].
      cbn [app]. rewrite P5, <- app_assoc. reflexivity.
    + destruct (X ((w + len (c :: t)) mod two64) (out ++ [c :: t])) as (o & ps & os & outs & P1 & P2 & P3 & P4 & P5).
      exists ((c :: t) ++ o ++ os), ([c :: t] ++ ps ++ outs). split; [constructor; assumption|].
      split; [rewrite !concat_app, P3, P4; cbn [concat]; rewrite app_nil_r; reflexivity|].
      cbn [app]. etransitivity; [exact P5|]. rewrite <- !app_assoc. reflexivity.
Qed.

Lemma printf_spec m wm em l last fuel : Forall (fun x => good_text (fst x) /\ good_dir (snd x)) l -> good_text last ->
  Forall (fun x => no_quirk (snd x)) l -> strings_at m l (Z.min (2 ^ 64) (Z.of_nat fuel)) ->
  exists o outs, prints_all m last l o /\ concat outs = o /\
    p_printf fuel m wm em (format_of l last) (args_of l) = Ok (m, Some (outs, true)).
Proof.
  intros G GL Q S. destruct (main_spec fuel m wm last l [] [] 0 [] G Q S) as (o & outs & P1 & P2 & P3).
  exists o, outs. split; [exact P1|]. split; [exact P2|]. unfold p_printf. rewrite parse_spec by (auto; lia).
  pose proof (pre_spec last l G [] [] []) as PS. rewrite app_nil_r in PS. rewrite PS. cbn [bind pre_pos app] in *.
  change (len []) with 0 in P3. rewrite P3. reflexivity.
Qed.

Lemma converted_inj d v v' : converted d v -> converted d v' -> v = v'.
Proof.
  intros (R & q & E) (R' & q' & E'). pose proof (size_pos (d_size d)) as SP.
  set (b := size_bits (d_size d)) in *. assert (PB : 0 < 2 ^ b) by (apply Z.pow_pos_nonneg; lia).
  assert (HB : 2 ^ b = 2 * 2 ^ (b - 1)) by (rewrite <- Z.pow_succ_r by lia; f_equal; lia).
  assert (B : - 2 ^ b < v - v' < 2 ^ b) by (destruct (is_signed (d_conv d)); lia).
  assert (q' - q = 0) by nia. nia.
Qed.
Lemma base_ge d : 2 <= the_base (d_conv d).
Proof.
  unfold the_base. destruct (_ =? 111); [lia|]. destruct (_ || _); [lia|]. destruct (_ || _); lia.
Qed.
Lemma prints_inj m d o o' : prints m d o -> prints m d o' -> o = o'.
Proof.
  unfold prints. destruct (d_conv d =? 37); [congruence|]. destruct (d_conv d =? 99); [congruence|]. destruct (d_conv d =? 115).
  - intros (s & C & ->) (s' & C' & ->). rewrite (cstr_inj _ _ _ _ C C'). reflexivity.
  - intros (v & ds & C & N & ->) (v' & ds' & C' & N' & ->). rewrite (converted_inj _ _ _ C' C) in *.
    rewrite (numeral_inj _ _ _ _ (base_ge d) N' N). reflexivity.
Qed.
Lemma prints_all_inj m last l o : prints_all m last l o -> forall o', prints_all m last l o' -> o' = o.
Proof.
  intro H. induction H as [|t d o l os P PA IH]; intros o' H'; inversion H' as [|? ? ? ? ? P' PA']; subst; [reflexivity|].
  rewrite (prints_inj _ _ _ _ P' P), (IH _ PA'). reflexivity.
Qed.

Lemma printf_denotes m wm em l last fuel : Forall (fun x => good_text (fst x) /\ good_dir (snd x)) l -> good_text last ->
  Forall (fun x => no_quirk (snd x)) l -> strings_at m l (Z.min (2 ^ 64) (Z.of_nat fuel)) ->
  exists out, p_printf fuel m wm em (format_of l last) (args_of l) = Ok (m, Some (out, true)) /\
    forall o, prints_all m last l o <-> o = concat out.
Proof.
  intros G GL Q S. destruct (printf_spec m wm em l last fuel G GL Q S) as (o & outs & P1 & P2 & P3).
  exists outs. split; [exact P3|]. intro o'. rewrite P2. split; [apply prints_all_inj; exact P1|intros ->; exact P1].
Qed.

(* ---- C42 ---- *)
Lemma concat_nonempty out : concat (filter nonempty out) = concat out.
Proof. induction out as [|[|c t] out IH]; cbn [filter nonempty concat app]; [reflexivity|exact IH|rewrite IH; reflexivity]. Qed.
Lemma nonempty_some out : concat out <> [] -> filter nonempty out <> [].
Proof. intros H E. apply H. rewrite <- concat_nonempty, E. reflexivity. Qed.

Lemma to_i32_small x : 0 <= x < 2 ^ 31 -> to_i32 x = x.
Proof. intro H. unfold to_i32. rewrite Z.mod_small by lia. lia. Qed.

Lemma snprintf_spec fuel m wm em fmt args m1 out s n : p_printf fuel m wm em fmt args = Ok (m1, Some (out, true)) ->
  len (concat out) < 2 ^ 31 ->
  (concat out <> [] -> 1 < n -> mapped m1 s n ->
   exists m', vsnprintf fuel m wm em s n fmt args = Ok (m', len (concat out)) /\
     stored m1 m' s (firstn (Z.to_nat (n - 1)) (concat out) ++ [0])) /\
  (n <= 1 \/ concat out = [] -> vsnprintf fuel m wm em s n fmt args = Ok (m1, len (concat out))) /\
  (concat out <> [] -> mapped m1 s (len (concat out) + 1) ->
   exists m', vsprintf fuel m wm em s fmt args = Ok (m', len (concat out)) /\ stored m1 m' s (concat out ++ [0])).
Proof.
  intros E L. pose proof (len_nonneg (concat out)) as L0. unfold vsnprintf, vsprintf. rewrite E. cbn [bind].
  assert (LW : len (concat (filter nonempty out)) < WRAP). { rewrite concat_nonempty. apply Z.lt_trans with (2 ^ 31); [exact L|reflexivity]. }
  split; [|split].
  - intros NE N M. destruct (cw_write_top (filter nonempty out) m1 s n (nonempty_some out NE) N M LW) as (m' & E' & S').
    rewrite E', concat_nonempty in *. cbn [bind]. rewrite to_i32_small by lia. eauto.
  - intros [N|NE].
    + rewrite cw_write_small; [|exact N|lia|rewrite Z.add_0_l; exact LW]. cbn [bind]. rewrite concat_nonempty, Z.add_0_l, to_i32_small by lia. reflexivity.
    + assert (F : filter nonempty out = []).
      { clear - NE. induction out as [|[|c t] out IH]; [reflexivity| |discriminate]. cbn [filter nonempty]. apply IH. exact NE. }
      rewrite F, NE. cbn [cw_write_all bind]. reflexivity.
  - intros NE M. destruct (usw_ok (filter nonempty out) m1 s (nonempty_some out NE)) as (m' & E' & S').
    { rewrite concat_nonempty. exact M. }
    rewrite E', concat_nonempty in *. cbn [bind]. rewrite Z.mod_small by (change two64 with WRAP; lia).
    rewrite to_i32_small by lia. eauto.
Qed.
