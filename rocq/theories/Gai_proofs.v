From Coq Require Import ZArith List Bool Lia.
From Verif Require Import Base Word_mem Sort_model Shadow_model Inet_model Dns_model Shadow_proofs Gai_model Gai_spec.
Import ListNotations.
Open Scope Z_scope.

Lemma get_put h p b q : get (put h p b) q = if q =? p then Some b else get h q.
Proof. reflexivity. Qed.
Lemma get_del h p q : get (del h p) q = if q =? p then None else get h q.
Proof.
  induction h as [|[x b] h IH]; cbn [del filter get]; [destruct (_ =? _); reflexivity|].
  fold (del h p). cbn [fst]. destruct (Z.eqb_spec p x); cbn [negb].
  - subst. rewrite IH. destruct (Z.eqb_spec q x); reflexivity.
  - cbn [get]. rewrite IH. destruct (Z.eqb_spec q x); [|reflexivity]. destruct (Z.eqb_spec q p); [congruence|reflexivity].
Qed.

Definition ptrs (x : Z * ainfo) : list Z := fst x :: ai_addr (snd x) :: (if ai_canonname (snd x) =? 0 then [] else [ai_canonname (snd x)]).
Definition allp (ns : list (Z * ainfo)) : list Z := concat (map ptrs ns).
Fixpoint links (h : heap) (first : Z) (ns : list (Z * ainfo)) : Prop :=
  match ns with [] => first = 0 | (p, n) :: r => first = p /\ p <> 0 /\ get h p = Some (BNode n) /\ links h (ai_next n) r end.
Definition shape (h : heap) (e : entry) (x : Z * ainfo) : Prop :=
  let n := snd x in
  ai_family n = 2 /\ ai_socktype n = e_socktype e /\ ai_addrlen n = Z.of_nat (length (e_sockaddr e)) /\ get h (ai_addr n) = Some (BAddr (e_sockaddr e)) /\
  ai_addrlen n = 16 /\ ai_addr n <> 0 /\
  match e_canon e with None => ai_canonname n = 0 | Some s => ai_canonname n <> 0 /\ get h (ai_canonname n) = Some (BName s) end.
Record Inv (h0 h : heap) (first : Z) (ns : list (Z * ainfo)) (es : list entry) : Prop := {
  I_links : links h first ns;
  I_nodup : NoDup (allp ns);
  I_new : forall p, In p (allp ns) -> p <> 0 /\ get h0 p = None;
  I_frame : forall p, ~ In p (allp ns) -> get h p = get h0 p;
  I_shape : Forall2 (shape h) es ns }.

Lemma allp_cons x ns : allp (x :: ns) = ptrs x ++ allp ns.
Proof. reflexivity. Qed.
Lemma allp_app a b : allp (a ++ b) = allp a ++ allp b.
Proof. unfold allp. rewrite map_app, concat_app. reflexivity. Qed.
Lemma fst_in x ns : In x ns -> In (fst x) (allp ns).
Proof. intros I. unfold allp. apply in_concat. exists (ptrs x). split; [apply in_map, I|left; reflexivity]. Qed.

Lemma linked_of h first ns es : links h first ns -> Forall2 (shape h) es ns -> linked h first es.
Proof.
  intros L F. revert first L. induction F as [|e [p n] es ns S F IH]; intros first L; cbn [links] in L.
  - subst. constructor.
  - destruct L as (-> & P & G & L). destruct S as (S1 & S2 & S3 & S4 & _ & _ & S5). cbn [snd] in *. econstructor; eauto.
Qed.
Lemma used h first ns es p : links h first ns -> Forall2 (shape h) es ns -> In p (allp ns) -> get h p <> None.
Proof.
  intros L F. revert first L. induction F as [|e [q n] es ns S F IH]; intros first L; cbn [links] in L; [intros []|].
  destruct L as (-> & P & G & L). destruct S as (S1 & S2 & S3 & S4 & _ & _ & S5). cbn [snd] in *.
  rewrite allp_cons. unfold ptrs. cbn [fst snd app In]. intros [<-|[<-|I]]; [congruence|congruence|].
  apply in_app_iff in I. destruct I as [I|I]; [|eapply IH; eauto].
  destruct (Z.eqb_spec (ai_canonname n) 0); [contradiction|]. destruct I as [<-|[]].
  destruct (e_canon e); [destruct S5; congruence|contradiction].
Qed.
Lemma links_ext h h' ns : forall first, (forall p, In p (map fst ns) -> get h' p = get h p) -> links h first ns -> links h' first ns.
Proof.
  induction ns as [|[p n] ns IH]; intros first X L; cbn [links] in *; [exact L|].
  destruct L as (E & P & G & L). split; [exact E|]. split; [exact P|]. split; [rewrite X; [exact G|left; reflexivity]|].
  apply IH; [|exact L]. intros q Q. apply X. right. exact Q.
Qed.
Lemma shape_ext h h' es ns : (forall p, In p (allp ns) -> ~ In p (map fst ns) -> get h' p = get h p) ->
  (forall x p, In x ns -> In p (ai_addr (snd x) :: (if ai_canonname (snd x) =? 0 then [] else [ai_canonname (snd x)])) -> ~ In p (map fst ns)) ->
  Forall2 (shape h) es ns -> Forall2 (shape h') es ns.
Proof.
  intros X D F.
  assert (Q : forall e x, In x ns -> shape h e x -> shape h' e x).
  { intros e x I (S1 & S2 & S3 & S4 & S6 & S7 & S5). unfold shape.
    assert (Y : forall p, In p (ai_addr (snd x) :: (if ai_canonname (snd x) =? 0 then [] else [ai_canonname (snd x)])) -> get h' p = get h p).
    { intros p P. apply X; [|exact (D x p I P)]. unfold allp. apply in_concat. exists (ptrs x). split; [apply in_map, I|right; exact P]. }
    split; [exact S1|]. split; [exact S2|]. split; [exact S3|]. split; [rewrite Y; [exact S4|left; reflexivity]|]. split; [exact S6|]. split; [exact S7|].
    destruct (e_canon e); [|exact S5]. destruct S5 as [S5 S8]. split; [exact S5|]. rewrite Y; [exact S8|].
    right. destruct (Z.eqb_spec (ai_canonname (snd x)) 0); [contradiction|left; reflexivity]. }
  clear X D. revert Q. induction F as [|e x es ns S F IH]; intros Q; constructor.
  - apply Q; [left; reflexivity|exact S].
  - apply IH. intros e' x' I. apply Q. right. exact I.
Qed.
Lemma nodup_split ns : NoDup (allp ns) -> NoDup (map fst ns) /\
  (forall x p, In x ns -> In p (ai_addr (snd x) :: (if ai_canonname (snd x) =? 0 then [] else [ai_canonname (snd x)])) -> ~ In p (map fst ns)).
Proof.
  induction ns as [|x ns IH]; intros N; [split; [constructor|intros ? ? []]|].
  rewrite allp_cons in N. unfold ptrs in N. set (own := ai_addr (snd x) :: _) in N. cbn [app] in N.
  assert (N1 : ~ In (fst x) (own ++ allp ns)) by (inversion N; assumption).
  assert (N2 : NoDup (own ++ allp ns)) by (inversion N; assumption).
  assert (N3 : NoDup (allp ns)). { clear -N2. induction own; cbn in N2; [exact N2|]. inversion N2; auto. }
  assert (N4 : forall p, In p own -> ~ In p (allp ns)).
  { clear -N2. induction own as [|o own IH]; intros p I; [destruct I|]. cbn in N2. inversion N2; subst. destruct I as [->|I]; [|auto].
    intros J. apply H1. apply in_app_iff. auto. }
  destruct (IH N3) as [A B]. split.
  - cbn [map]. constructor; [|exact A]. intros I. apply in_map_iff in I. destruct I as (y & E & I). apply N1. apply in_app_iff. right. rewrite <- E. apply fst_in, I.
  - intros y p [<-|I] P; cbn [map]; intros [E|J].
    + apply N1. rewrite E. apply in_app_iff. left. exact P.
    + apply in_map_iff in J. destruct J as (z & E & J). apply (N4 p P). rewrite <- E. apply fst_in, J.
    + apply N1. rewrite E. apply in_app_iff. right. unfold allp. apply in_concat. exists (ptrs y). split; [apply in_map, I|right; exact P].
    + exact (B y p I P J).
Qed.

(* the end of the list now points to new *)
Fixpoint relink (ns : list (Z * ainfo)) (new : Z) : list (Z * ainfo) :=
  match ns with [] => [] | [(p, n)] => [(p, set_next n new)] | x :: r => x :: relink r new end.
Lemma relink_fst ns new : map fst (relink ns new) = map fst ns.
Proof. induction ns as [|[p n] [|y ns] IH]; [reflexivity|reflexivity|]. change (relink ((p, n) :: y :: ns) new) with ((p, n) :: relink (y :: ns) new). cbn [map]. rewrite IH. reflexivity. Qed.
Lemma relink_allp ns new : allp (relink ns new) = allp ns.
Proof.
  induction ns as [|[p n] [|y ns] IH]; [reflexivity|reflexivity|]. change (relink ((p, n) :: y :: ns) new) with ((p, n) :: relink (y :: ns) new).
  rewrite !(allp_cons (p, n)), IH. reflexivity.
Qed.
Lemma relink_shape h es ns new : Forall2 (shape h) es ns -> Forall2 (shape h) es (relink ns new).
Proof.
  intros F. induction F as [|e [p n] es ns S F IH]; [constructor|]. destruct ns as [|y ns].
  - inversion F; subst. cbn [relink]. constructor; [exact S|constructor].
  - change (relink ((p, n) :: y :: ns) new) with ((p, n) :: relink (y :: ns) new). constructor; assumption.
Qed.
Lemma walk_ok ns : forall fuel h first new m, links h first ns -> ns <> [] -> (length ns <= fuel)%nat -> NoDup (map fst ns) ->
  new <> 0 -> get h new = Some (BNode m) -> ai_next m = 0 -> ~ In new (map fst ns) ->
  exists h', walk fuel h first new = Ok h' /\ links h' first (relink ns new ++ [(new, m)]) /\
    forall q, ~ In q (map fst ns) -> get h' q = get h q.
Proof.
  induction ns as [|[p n] ns IH]; intros fuel h first new m L NE LT ND N0 G NX NI; [congruence|].
  destruct fuel as [|f]; [cbn in LT; lia|]. cbn [links] in L. destruct L as (-> & P & GP & L). cbn [walk]. rewrite GP.
  cbn [map fst In] in ND, NI. destruct ns as [|[p2 n2] ns].
  - cbn [links] in L. rewrite L. change (0 =? 0) with true. cbv iota. eexists. split; [reflexivity|]. split.
    + cbn [relink app links set_next ai_next]. rewrite !get_put, Z.eqb_refl.
      destruct (Z.eqb_spec new p); [exfalso; apply NI; left; congruence|]. repeat split; auto.
    + intros q Q. rewrite get_put. destruct (Z.eqb_spec q p); [exfalso; apply Q; left; subst; reflexivity|reflexivity].
  - pose proof L as L'. cbn [links] in L'. destruct L' as (E & P2 & _). destruct (Z.eqb_spec (ai_next n) 0); [congruence|].
    assert (ND2 : NoDup (map fst ((p2, n2) :: ns))) by (inversion ND; assumption).
    assert (NP : ~ In p (map fst ((p2, n2) :: ns))) by (inversion ND; assumption).
    destruct (IH f h (ai_next n) new m L ltac:(discriminate) ltac:(cbn in *; lia) ND2 N0 G NX ltac:(tauto)) as (h' & W & L2 & FR).
    exists h'. split; [exact W|]. split.
    + change (relink ((p, n) :: (p2, n2) :: ns) new) with ((p, n) :: relink ((p2, n2) :: ns) new). cbn [app links].
      split; [reflexivity|]. split; [exact P|]. split; [|exact L2]. rewrite FR; [exact GP|exact NP].
    + intros q Q. apply FR. intros Y. apply Q. right. exact Y.
Qed.

Section Alloc.
Variable fresh : heap -> Z.
Hypothesis FO : fresh_ok fresh.

(* The three allocations of one entry and its appending, for the pointers that are in use already *)
Lemma grow h0 h first ns es fuel a nm sa st : Inv h0 h first ns es -> (length ns <= fuel)%nat ->
  sa = sockaddr_in a nm -> length nm = 4%nat -> forall canon,
  let '(h1, addr) := box fresh h (BAddr sa) in
  let '(h2, name) := match canon with Some s => box fresh h1 (BName s) | None => (h1, 0) end in
  let '(h3, new) := box fresh h2 (BNode (AI 0 AF_INET st 0 16 name addr 0)) in
  exists h' first' ns', append fuel h3 first new = Ok (h', first') /\ length ns' = S (length ns) /\ Inv h0 h' first' ns' (es ++ [Ent sa st canon]).
Proof.
  intros [L ND NW FR SH] LT SA L4 canon. unfold box.
  set (addr := fresh h). destruct (FO h) as [A0 A1]. fold addr in A0, A1.
  set (h1 := put h addr (BAddr sa)).
  assert (AN : ~ In addr (allp ns)) by (intros I; exact (used _ _ _ _ _ L SH I A1)).
  set (r := match canon with Some s => (put h1 (fresh h1) (BName s), fresh h1) | None => (h1, 0) end).
  destruct r as [h2 name] eqn:R. subst r.
  assert (NAME : match canon with Some s => name <> 0 /\ get h2 name = Some (BName s) /\ ~ In name (allp ns) /\ name <> addr /\ get h0 name = None | None => name = 0 end /\
    (forall q, get h1 q <> None -> get h2 q = get h1 q) /\ (forall q, match canon with Some _ => q <> name | None => True end -> get h2 q = get h1 q)).
  { destruct canon as [s|]; injection R as <- <-; [|split; [reflexivity|split; intros; reflexivity]].
    destruct (FO h1) as [B0 B1]. set (nmp := fresh h1) in *.
    assert (nmp <> addr). { intros E. rewrite E in B1. unfold h1 in B1. rewrite get_put, Z.eqb_refl in B1. discriminate. }
    assert (get h nmp = None). { unfold h1 in B1. rewrite get_put in B1. destruct (Z.eqb_spec nmp addr); [contradiction|exact B1]. }
    assert (~ In nmp (allp ns)) by (intros I; exact (used _ _ _ _ _ L SH I ltac:(assumption))).
    split.
    - split; [exact B0|]. split; [rewrite get_put, Z.eqb_refl; reflexivity|]. split; [assumption|]. split; [assumption|]. rewrite <- FR by assumption. assumption.
    - split; intros q Q; rewrite get_put; destruct (Z.eqb_spec q nmp); try congruence. }
  destruct NAME as (NM & K1 & K2). clear R.
  set (new := fresh h2). destruct (FO h2) as [C0 C1]. fold new in C0, C1.
  set (node := AI 0 AF_INET st 0 16 name addr 0). set (h3 := put h2 new (BNode node)).
  assert (H1 : forall q, In q (allp ns) -> get h1 q = get h q).
  { intros q I. unfold h1. rewrite get_put. destruct (Z.eqb_spec q addr); [congruence|reflexivity]. }
  assert (H2 : forall q, In q (allp ns) -> get h2 q = get h q).
  { intros q I. rewrite K1; [apply H1, I|]. rewrite H1 by exact I. exact (used _ _ _ _ _ L SH I). }
  assert (NN : ~ In new (allp ns)). { intros I. rewrite H2 in C1 by exact I. exact (used _ _ _ _ _ L SH I C1). }
  assert (NA : new <> addr).
  { intros E. rewrite E in C1. rewrite K1 in C1; unfold h1 in C1 |- *; rewrite get_put, Z.eqb_refl in *; discriminate. }
  assert (NNM : match canon with Some _ => new <> name | None => True end).
  { destruct canon; [|exact I]. destruct NM as (_ & G & _). intros E. rewrite E in C1. congruence. }
  assert (H3 : forall q, In q (allp ns) -> get h3 q = get h q).
  { intros q I. unfold h3. rewrite get_put. destruct (Z.eqb_spec q new); [congruence|apply H2, I]. }
  destruct (nodup_split ns ND) as [ND1 ND2].
  assert (IN1 : forall q, In q (map fst ns) -> In q (allp ns)).
  { intros q I. apply in_map_iff in I. destruct I as (x & <- & I). apply fst_in, I. }
  assert (P3 : ptrs (new, node) = new :: addr :: match canon with Some _ => [name] | None => [] end).
  { unfold ptrs, node. cbn [fst snd ai_addr ai_canonname]. destruct canon; [destruct (Z.eqb_spec name 0); [tauto|reflexivity]|]. subst name. reflexivity. }
  assert (FINAL : forall h' first' ns', links h' first' (ns' ++ [(new, node)]) -> allp ns' = allp ns -> Forall2 (shape h) es ns' ->
      map fst ns' = map fst ns -> (forall q, ~ In q (map fst ns) -> get h' q = get h3 q) ->
      (forall x p, In x ns' -> In p (ai_addr (snd x) :: (if ai_canonname (snd x) =? 0 then [] else [ai_canonname (snd x)])) -> ~ In p (map fst ns')) ->
      Inv h0 h' first' (ns' ++ [(new, node)]) (es ++ [Ent sa st canon])).
  { intros h' first' ns' L' AP SH' FS FR' ND'.
    assert (AP' : allp (ns' ++ [(new, node)]) = allp ns ++ new :: addr :: match canon with Some _ => [name] | None => [] end).
    { rewrite allp_app, AP, allp_cons, P3, app_nil_r. reflexivity. }
    constructor.
    - exact L'.
    - rewrite AP'.
      assert (Q : forall u v : list Z, NoDup u -> NoDup v -> (forall x, In x v -> ~ In x u) -> NoDup (u ++ v)).
      { induction u as [|x u IH]; intros v NA' NB D; [exact NB|]. inversion NA'; subst. cbn. constructor.
        - intros I. apply in_app_iff in I. destruct I as [I|I]; [contradiction|]. exact (D x I (or_introl eq_refl)).
        - apply IH; auto. intros y Y Z0. exact (D y Y (or_intror Z0)). }
      apply Q; [exact ND| |].
      + destruct canon.
        * destruct NM as (M1 & M2 & M3 & M4 & M5). repeat constructor; cbn [In]; intuition congruence.
        * repeat constructor; cbn [In]; intuition congruence.
      + intros x [<-|[<-|I]]; auto. destruct canon; [|destruct I]. destruct I as [<-|[]]. tauto.
    - rewrite AP'. intros p I. apply in_app_iff in I. destruct I as [I|[<-|[<-|I]]]; [exact (NW p I)| | |].
      + split; [exact C0|]. rewrite <- FR by exact NN.
        destruct (get h new) eqn:E; [|reflexivity]. exfalso.
        assert (get h1 new <> None). { unfold h1. rewrite get_put. destruct (Z.eqb_spec new addr); congruence. }
        rewrite K1 in C1 by assumption. congruence.
      + split; [exact A0|]. rewrite <- FR by exact AN. exact A1.
      + destruct canon; [|destruct I]. destruct I as [<-|[]]. tauto.
    - rewrite AP'. intros p NI. rewrite FR'.
      + unfold h3. rewrite get_put. destruct (Z.eqb_spec p new) as [->|]; [exfalso; apply NI, in_app_iff; right; left; reflexivity|].
        assert (p <> addr) by (intros ->; apply NI, in_app_iff; right; right; left; reflexivity).
        assert (PN : get h2 p = get h1 p).
        { apply K2. destruct canon; [|exact I]. intros ->. apply NI, in_app_iff. right. right. right. left. reflexivity. }
        rewrite PN. unfold h1. rewrite get_put. destruct (Z.eqb_spec p addr); [contradiction|]. apply FR. intros I. apply NI, in_app_iff. left. exact I.
      + intros I. apply NI, in_app_iff. left. apply IN1, I.
    - apply Forall2_app.
      + apply (shape_ext h); [|exact ND'|exact SH']. rewrite AP, FS. intros p I NF. rewrite FR' by exact NF. apply H3, I.
      + constructor; [|constructor]. unfold shape, node. cbn [snd ai_family ai_socktype e_socktype ai_addrlen e_sockaddr ai_addr ai_canonname e_canon].
        assert (GA : get h' addr = Some (BAddr sa)).
        { rewrite FR' by (intros I; apply AN, IN1, I). unfold h3. rewrite get_put. destruct (Z.eqb_spec addr new); [congruence|].
          rewrite K1; unfold h1; rewrite get_put, Z.eqb_refl; [reflexivity|discriminate]. }
        assert (LS : Z.of_nat (length sa) = 16). { subst sa. unfold sockaddr_in. rewrite !app_length, L4. reflexivity. }
        split; [reflexivity|]. split; [reflexivity|]. split; [lia|]. split; [exact GA|]. split; [reflexivity|]. split; [exact A0|].
        destruct canon; [|exact NM]. destruct NM as (M1 & M2 & M3 & M4 & M5). split; [exact M1|].
        rewrite FR' by (intros I; apply M3, IN1, I). unfold h3. rewrite get_put. destruct (Z.eqb_spec name new); [congruence|exact M2]. }
  unfold append. destruct ns as [|x ns].
  - cbn [links] in L. subst first. change (0 =? 0) with true. cbv iota. exists h3, new, [(new, node)]. split; [reflexivity|]. split; [reflexivity|].
    apply (FINAL h3 new []); auto.
    + cbn [app links]. unfold h3. rewrite get_put, Z.eqb_refl. repeat split; auto.
  - pose proof L as L'. destruct x as [p n]. cbn [links] in L'. destruct L' as (-> & P & _). destruct (Z.eqb_spec p 0); [contradiction|].
    destruct (walk_ok ((p, n) :: ns) fuel h3 p new node) as (h' & W & L2 & FRW); auto.
    + eapply links_ext; [|exact L]. intros q I. apply H3, IN1, I.
    + discriminate.
    + unfold h3. rewrite get_put, Z.eqb_refl. reflexivity.
    + rewrite W. cbn [bind]. exists h', p, (relink ((p, n) :: ns) new ++ [(new, node)]). split; [reflexivity|]. split.
      * rewrite app_length, Nat.add_comm. rewrite <- (map_length fst (relink _ _)), relink_fst, map_length. reflexivity.
      * apply FINAL; [exact L2|apply relink_allp|apply relink_shape, SH|apply relink_fst|exact FRW|].
        apply nodup_split. rewrite relink_allp. exact ND.
Qed.

Lemma sockaddr_eq port a : 0 <= port < 65536 -> sockaddr_in port a = inet_sockaddr port a.
Proof.
  intros P. unfold sockaddr_in, inet_sockaddr. cbn [le_bytes]. change (2 mod 256) with 2. change (2 / 256 mod 256) with 0.
  cbn [repeat app]. unfold htobe, swap_bytes. unfold of_le. cbn [app le_bytes rev fold_right].
  replace (port / 256 mod 256 + 256 * (port mod 256 + 256 * 0)) with (port / 256 + (port mod 256) * 256) by (rewrite (Z.mod_small (port / 256)) by (split; [apply Z.div_pos; lia|apply Z.div_lt_upper_bound; lia]); lia).
  rewrite Z_mod_plus_full, Z.div_add by lia. rewrite (Z.mod_small (port / 256)), (Z.div_small (port / 256)) by (split; [apply Z.div_pos; lia|apply Z.div_lt_upper_bound; lia]).
  rewrite Z.add_0_l, Z.mod_mod by lia. reflexivity.
Qed.
Lemma clear_canon f : has (Z.land f (Z.lnot AI_CANONNAME)) AI_CANONNAME = false.
Proof. unfold has. rewrite <- Z.land_assoc. change (Z.land (Z.lnot AI_CANONNAME) AI_CANONNAME) with 0. rewrite Z.land_0_r. reflexivity. Qed.

Lemma fill_ok h0 given node port st l : 0 <= port < 65536 -> Forall (fun a => length a = 4%nat) l -> forall fuel flags h first ns es,
  Inv h0 h first ns es -> (length ns + length l <= fuel)%nat -> (has flags AI_CANONNAME = true -> given = true) ->
  exists h' first' ns', fill fresh fuel given node port st flags l h first = Ok (h', first', 0) /\ length ns' = (length ns + length l)%nat /\
    Inv h0 h' first' ns' (es ++ entries port st (if has flags AI_CANONNAME then Some node else None) l).
Proof.
  intros P. induction l as [|a l IH]; intros F4 fuel flags h first ns es I LT G.
  - exists h, first, ns. cbn [fill length entries]. rewrite app_nil_r. split; [reflexivity|]. split; [lia|exact I].
  - cbn [length] in LT. pose proof (Forall_inv F4) as L4. pose proof (Forall_inv_tail F4) as F4'. cbv beta in L4.
    set (canon := if has flags AI_CANONNAME then Some node else None).
    pose proof (grow h0 h first ns es fuel port a (sockaddr_in port a) st I ltac:(lia) eq_refl L4 canon) as GR.
    assert (ONE : forall fl, has fl AI_CANONNAME = false -> forall h1 first1 ns1, length ns1 = S (length ns) ->
        Inv h0 h1 first1 ns1 (es ++ [Ent (sockaddr_in port a) st canon]) ->
        exists h' first' ns', fill fresh fuel given node port st fl l h1 first1 = Ok (h', first', 0) /\ length ns' = (length ns + length (a :: l))%nat /\
          Inv h0 h' first' ns' (es ++ entries port st canon (a :: l))).
    { intros fl FL h1 first1 ns1 LN I1. destruct (IH F4' fuel fl h1 first1 ns1 _ I1 ltac:(lia) ltac:(congruence)) as (h' & f' & ns' & E & LN' & I').
      exists h', f', ns'. split; [exact E|]. split; [cbn [length]; lia|]. rewrite FL in I'. rewrite <- app_assoc in I'.
      cbn [entries app]. rewrite sockaddr_eq in I' by exact P.
      replace (map (fun a0 => Ent (inet_sockaddr port a0) st None) l) with (entries port st None l) by (destruct l; reflexivity). exact I'. }
    assert (HCC : canon = if has flags AI_CANONNAME then Some node else None) by reflexivity. clearbody canon.
    cbn [fill]. unfold box in *.
    destruct (has flags AI_CANONNAME) eqn:HC; subst canon.
    + rewrite (G eq_refl). cbn [negb andb]. destruct GR as (h1 & f1 & ns1 & A & LN & I1). rewrite A. cbn [bind].
      destruct (ONE _ (clear_canon flags) h1 f1 ns1 LN I1) as (h' & f' & ns' & E & LN' & I'). rewrite (G eq_refl) in E. exists h', f', ns'. auto.
    + cbn [andb]. destruct GR as (h1 & f1 & ns1 & A & LN & I1). rewrite A. cbn [bind].
      exact (ONE _ HC h1 f1 ns1 LN I1).
Qed.
End Alloc.

Lemma Inv0 h : Inv h h 0 [] [].
Proof. constructor; [reflexivity|constructor|intros p []|reflexivity|constructor]. Qed.

Lemma release_in h p : get h p <> None -> exists h', release h p = Ok h' /\ forall q, get h' q = if q =? p then None else get h q.
Proof. intros N. unfold release. destruct (get h p); [|congruence]. eexists. split; [reflexivity|]. intros q. apply get_del. Qed.

Lemma free_ok h0 ns : forall fuel h first es, Inv h0 h first ns es -> (length ns < fuel)%nat ->
  exists h', freeaddrinfo fuel h first = Ok h' /\ forall p, get h' p = get h0 p.
Proof.
  induction ns as [|[p n] ns IH]; intros fuel h first es [L ND NW FR SH] LT; (destruct fuel as [|f]; [cbn in LT; lia|]); cbn [freeaddrinfo].
  - cbn [links] in L. subst. change (0 =? 0) with true. cbv iota. exists h. split; [reflexivity|]. intros p. apply FR. intros [].
  - cbn [links] in L. destruct L as (-> & P & G & L). destruct (Z.eqb_spec p 0); [contradiction|]. rewrite G.
    inversion SH as [|e x es' ns' S SH']; subst. destruct S as (S1 & S2 & S3 & S4 & S5 & S6 & S7). cbn [snd] in *.
    rewrite allp_cons in ND. unfold ptrs in ND. cbn [fst snd] in ND. rewrite allp_cons in NW, FR. unfold ptrs in NW, FR. cbn [fst snd] in NW, FR.
    set (c := ai_canonname n) in *. set (own := if c =? 0 then [] else [c]) in *.
    assert (STEP : exists h1, (if c =? 0 then Ok h else release h c) = Ok h1 /\ forall q, get h1 q = if in_dec Z.eq_dec q own then None else get h q).
    { unfold own. destruct (Z.eqb_spec c 0).
      - exists h. split; [reflexivity|]. intros q. destruct (in_dec _ _ _) as [[]|]; reflexivity.
      - destruct (release_in h c) as (h1 & R & Q). { destruct (e_canon e); [destruct S7; congruence|contradiction]. }
        exists h1. split; [exact R|]. intros q. rewrite Q. destruct (Z.eqb_spec q c), (in_dec Z.eq_dec q [c]) as [J|J]; try reflexivity.
        + exfalso. apply J. left. congruence.
        + destruct J as [J|[]]. congruence. }
    destruct STEP as (h1 & R1 & Q1). rewrite R1. cbn [bind].
    assert (NO : ~ In p (ai_addr n :: own ++ allp ns) /\ ~ In (ai_addr n) (own ++ allp ns)).
    { cbn [app] in ND. inversion ND as [|? ? X Y]; subst. inversion Y; subst. split; assumption. }
    destruct NO as [NP NA].
    destruct (Z.eqb_spec (ai_addr n) 0); [contradiction|]. rewrite S5. change ((16 =? 16) || (16 =? 28)) with true. cbv iota.
    destruct (release_in h1 (ai_addr n)) as (h2 & R2 & Q2).
    { rewrite Q1. destruct (in_dec _ _ _) as [J|J]; [exfalso; apply NA, in_app_iff; left; exact J|congruence]. }
    rewrite R2. cbn [bind].
    destruct (release_in h2 p) as (h3 & R3 & Q3).
    { rewrite Q2, Q1. destruct (Z.eqb_spec p (ai_addr n)); [exfalso; apply NP; left; congruence|].
      destruct (in_dec _ _ _) as [J|J]; [exfalso; apply NP; right; apply in_app_iff; left; exact J|congruence]. }
    rewrite R3. cbn [bind].
    assert (K : forall q, In q (allp ns) -> get h3 q = get h q).
    { intros q I. rewrite Q3, Q2, Q1.
      destruct (Z.eqb_spec q p) as [->|]; [exfalso; apply NP; right; apply in_app_iff; right; exact I|].
      destruct (Z.eqb_spec q (ai_addr n)) as [->|]; [exfalso; apply NA, in_app_iff; right; exact I|].
      destruct (in_dec _ _ _) as [J|J]; [|reflexivity]. exfalso. clear -J I ND. cbn [app] in ND.
      inversion ND as [|? ? X Y]; subst. inversion Y as [|? ? X2 Y2]; subst. unfold own in *. destruct (c =? 0); [destruct J|]. destruct J as [->|[]].
      inversion Y2; subst. contradiction. }
    apply (IH f h3 (ai_next n) es'); [|cbn [length] in LT; lia]. constructor.
    + eapply links_ext; [|exact L]. intros q I. apply K. apply in_map_iff in I. destruct I as (x & <- & I). apply fst_in, I.
    + clear -ND. cbn [app] in ND. inversion ND as [|? ? X Y]; subst. inversion Y as [|? ? X2 Y2]; subst.
      unfold own in Y2. destruct (c =? 0); [exact Y2|]. inversion Y2; assumption.
    + intros q I. apply NW. cbn [app]. right. right. apply in_app_iff. right. exact I.
    + intros q NI. rewrite Q3, Q2, Q1.
      destruct (Z.eqb_spec q p) as [->|]; [symmetry; apply NW; left; reflexivity|].
      destruct (Z.eqb_spec q (ai_addr n)) as [->|]; [symmetry; apply NW; right; left; reflexivity|].
      destruct (in_dec _ _ _) as [J|J]; [symmetry; apply NW; right; right; apply in_app_iff; left; exact J|].
      apply FR. cbn [app In]. rewrite in_app_iff. intuition congruence.
    + assert (X : forall x e, In x ns -> shape h e x -> shape h3 e x).
      { intros x e' I (T1 & T2 & T3 & T4 & T5 & T6 & T7).
        assert (Y : forall q, In q (ptrs x) -> get h3 q = get h q).
        { intros q J. apply K. unfold allp. apply in_concat. exists (ptrs x). split; [apply in_map, I|exact J]. }
        unfold shape. split; [exact T1|]. split; [exact T2|]. split; [exact T3|]. split; [rewrite Y; [exact T4|right; left; reflexivity]|].
        split; [exact T5|]. split; [exact T6|]. destruct (e_canon e'); [|exact T7]. destruct T7 as [T7 T8]. split; [exact T7|]. rewrite Y; [exact T8|].
        right. right. destruct (Z.eqb_spec (ai_canonname (snd x)) 0); [contradiction|left; reflexivity]. }
      clear -X SH'. induction SH' as [|e' x es ns S F IH]; constructor; [apply X; [left; reflexivity|exact S]|]. apply IH. intros y e2 I. apply X. right. exact I.
Qed.

(* ---- the calls ---- *)
Lemma walk_mono fuel k : forall h p new h', walk fuel h p new = Ok h' -> walk (fuel + k) h p new = Ok h'.
Proof.
  induction fuel as [|f IH]; intros h p new h' H; [discriminate|]. cbn [walk Nat.add] in *. destruct (get h p) as [[| |n]|]; try discriminate.
  destruct (_ =? _); [exact H|]. apply IH, H.
Qed.
Lemma fill_mono fresh fuel k given node port st : forall flags l h first x, fill fresh fuel given node port st flags l h first = Ok x ->
  fill fresh (fuel + k) given node port st flags l h first = Ok x.
Proof.
  intros flags l. revert flags. induction l as [|a l IH]; intros flags h first x H; [exact H|].
  cbn [fill] in *. unfold box in *. destruct (_ && _); [exact H|].
  destruct (if has flags AI_CANONNAME then _ else _) as [[h2 name] fl]. unfold append in *.
  destruct (first =? 0); [cbn [bind] in *; apply IH, H|].
  destruct (walk fuel _ _ _) as [h3| | |] eqn:W; cbn [bind] in H; try discriminate. rewrite (walk_mono _ k _ _ _ _ W). cbn [bind]. apply IH, H.
Qed.
Definition port_of (service : option (list Z)) (port : Z) : Prop :=
  match service with Some s => s = dec port | None => port = 0 end.
Definition node_of (node : option (list Z)) (flags : Z) : list Z :=
  match node with Some n => n | None => if has flags AI_PASSIVE then ANY_NODE else LOOPBACK_NODE end.
Definition canon_of (node : option (list Z)) (flags : Z) : option (list Z) := if has flags AI_CANONNAME then node else None.

Lemma parse_port p : 0 <= p < 65536 -> parse_int 0 65535 (dec p) = Some p.
Proof. intros P. exact (parse_int_ok 0 65535 p ltac:(lia) ltac:(lia)). Qed.

Section Calls.
Variable fresh : heap -> Z.
Hypothesis FO : fresh_ok fresh.

Lemma gai_ok fuel tid ask node service hs h port l : 0 <= port < 65536 -> port_of service port ->
  (has (flags_of hs) AI_CANONNAME = true -> node <> None) ->
  (if has (flags_of hs) AI_NUMERICHOST then exists a, parse_ipv4_string (node_of node (flags_of hs)) = Some a /\ l = [a]
   else lookup_host fuel tid ask (node_of node (flags_of hs)) = Ok (inl l)) ->
  Forall (fun a => length a = 4%nat) l -> (length l < fuel)%nat ->
  exists h' r, getaddrinfo fresh fuel tid ask node service hs h = Ok (h', r, 0, None) /\
    linked h' r (entries port (type_of hs) (canon_of node (flags_of hs)) l) /\ (forall p b, get h p = Some b -> get h' p = Some b) /\
    exists h2, freeaddrinfo fuel h' r = Ok h2 /\ forall p, get h2 p = get h p.
Proof.
  intros P PO CN LK F4 LT. unfold getaddrinfo. fold (flags_of hs) (type_of hs).
  set (pt := match service with Some _ => _ | None => 0 end).
  assert (EP : pt = port). { unfold pt. destruct service as [s|]; cbn [port_of] in PO; [rewrite PO, parse_port by lia; reflexivity|congruence]. }
  rewrite EP. fold (node_of node (flags_of hs)). set (nm := node_of _ _) in *. set (given := match node with Some _ => true | None => false end).
  assert (G : has (flags_of hs) AI_CANONNAME = true -> given = true). { intros C. specialize (CN C). unfold given. destruct node; congruence. }
  destruct (fill_ok fresh FO h given nm port (type_of hs) l P F4 fuel (flags_of hs) h 0 [] [] (Inv0 h) ltac:(cbn; lia) G) as (h' & r & ns & E & LN & I).
  assert (CE : (if has (flags_of hs) AI_CANONNAME then Some nm else None) = canon_of node (flags_of hs)).
  { unfold canon_of, nm, node_of. destruct (has (flags_of hs) AI_CANONNAME) eqn:C; [|reflexivity]. specialize (CN eq_refl). destruct node; congruence. }
  rewrite CE in I. cbn [app] in I.
  exists h', r. split.
  - destruct (has (flags_of hs) AI_NUMERICHOST).
    + destruct LK as (a & -> & ->). rewrite E. reflexivity.
    + rewrite LK. cbn [bind]. rewrite E. reflexivity.
  - split; [|split].
    + eapply linked_of; [apply I|apply I].
    + intros p b B. destruct I as [_ _ NW FR _]. rewrite FR; [exact B|]. intros J. apply NW in J. destruct J as [_ J]. congruence.
    + apply (free_ok h ns fuel h' r _ I). cbn [length] in LN. lia.
Qed.

(* whatever the arguments: success gives a list that freeaddrinfo releases, failure nothing at all *)
Lemma answers_len p : Forall (fun a => length a = 4%nat) (host_answers p).
Proof.
  unfold host_answers. apply Forall_forall. intros x I. apply in_map_iff in I. destruct I as (a & <- & I). apply filter_In in I.
  destruct I as [_ I]. apply andb_true_iff in I. destruct I as [_ I]. apply Z.eqb_eq in I. unfold len in I. lia.
Qed.
Lemma ipv4_len s a : parse_ipv4_string s = Some a -> length a = 4%nat.
Proof. unfold parse_ipv4_string. intros H. destruct (Z.eqb_spec (len (map octet (Grp_model.split_at 46 [] (Grp_model.trim s)))) 4) as [E|]; [|discriminate]. injection H as <-. unfold len in E. lia. Qed.
Lemma lookup_len fuel tid ask n l : lookup_host fuel tid ask n = Ok (inl l) -> Forall (fun a => length a = 4%nat) l.
Proof.
  unfold lookup_host. destruct (parse_ipv4_string n) as [a|] eqn:E.
  - intros H. injection H as <-. constructor; [exact (ipv4_len _ _ E)|constructor].
  - destruct (parse _ _) as [[[p i]|]| | |]; cbn [bind]; intros H; try discriminate. injection H as <-. apply answers_len.
Qed.
Lemma parse_run_hi neg acc s v : 0 <= acc <= 65535 -> parse_run 0 65535 neg acc s = Some v -> 0 <= v <= 65535.
Proof.
  revert acc. induction s as [|c s IH]; intros acc A; cbn [parse_run]; [congruence|].
  destruct (_ && _); [|discriminate]. cbv zeta. match goal with |- context [if ?c then _ else _] => destruct c eqn:E end; [|discriminate].
  apply andb_true_iff in E. destruct E as [E1 E2]. apply Z.leb_le in E1, E2. apply IH. lia.
Qed.
Lemma port_range service : 0 <= match service with Some s => match parse_int 0 65535 s with Some p => p | None => 0 end | None => 0 end < 65536.
Proof.
  destruct service as [s|]; [|lia]. destruct (parse_int 0 65535 s) as [p|] eqn:E; [|lia].
  assert (0 <= p <= 65535); [|lia]. unfold parse_int in E. destruct s as [|c s]; [discriminate|].
  assert (H : forall neg t, parse_run 0 65535 neg 0 t = Some p -> 0 <= p <= 65535) by (intros neg t; apply parse_run_hi; lia).
  destruct (_ && _); [destruct s; [discriminate|eapply H, E]|]. destruct (_ =? _); [destruct s; [discriminate|eapply H, E]|eapply H, E].
Qed.
Lemma gai_any fuel tid ask node service hs h h' r v e : (node = None -> has (flags_of hs) AI_CANONNAME = false) ->
  getaddrinfo fresh fuel tid ask node service hs h = Ok (h', r, v, e) ->
  (v = 0 -> (forall p b, get h p = Some b -> get h' p = Some b) /\ exists f0, forall f, (f0 <= f)%nat -> exists h2, freeaddrinfo f h' r = Ok h2 /\ forall p, get h2 p = get h p) /\
  (v <> 0 -> h' = h /\ r = 0).
Proof.
  intros CN. unfold getaddrinfo. fold (flags_of hs) (type_of hs).
  set (pt := match service with Some _ => _ | None => 0 end).
  assert (P : 0 <= pt < 65536) by apply port_range. clearbody pt.
  fold (node_of node (flags_of hs)). set (nm := node_of _ _) in *. set (given := match node with Some _ => true | None => false end).
  assert (G : has (flags_of hs) AI_CANONNAME = true -> given = true). { intros C. unfold given. destruct node; [reflexivity|]. rewrite CN in C by reflexivity. discriminate. }
  assert (FILL : forall l, Forall (fun a => length a = 4%nat) l -> forall h' r v, fill fresh fuel given nm pt (type_of hs) (flags_of hs) l h 0 = Ok (h', r, v) ->
    (v = 0 -> (forall p b, get h p = Some b -> get h' p = Some b) /\ exists f0, forall f, (f0 <= f)%nat -> exists h2, freeaddrinfo f h' r = Ok h2 /\ forall p, get h2 p = get h p) /\
    (v <> 0 -> h' = h /\ r = 0)).
  { intros l F4 h1 r1 v1 E.
    destruct (fill_ok fresh FO h given nm pt (type_of hs) l P F4 (fuel + S (length l)) (flags_of hs) h 0 [] [] (Inv0 h) ltac:(cbn; lia) G) as (h2 & r2 & ns & E2 & LN & I).
    rewrite (fill_mono fresh fuel (S (length l)) _ _ _ _ _ _ _ _ _ E) in E2. injection E2 as -> -> ->. split; [|congruence]. intros _. split.
    - intros p b B. destruct I as [_ _ NW FR _]. rewrite FR; [exact B|]. intros J. apply NW in J. destruct J as [_ J]. congruence.
    - exists (S (length ns)). intros f F. exact (free_ok h ns f h2 r2 _ I F). }
  destruct (has (flags_of hs) AI_NUMERICHOST).
  - destruct (parse_ipv4_string nm) as [a|] eqn:IP.
    + destruct (fill _ _ _ _ _ _ _ _ _ _) as [[[h1 r1] v1]| | |] eqn:E; cbn [bind]; intros H; try discriminate. injection H as <- <- <- <-.
      refine (FILL [a] _ h1 r1 v1 E). constructor; [exact (ipv4_len _ _ IP)|constructor].
    + intros H. injection H as <- <- <- <-. split; [discriminate|auto].
  - destruct (lookup_host fuel tid ask nm) as [[l|er]| | |] eqn:LK; cbn [bind]; intros H; try discriminate.
    + destruct (fill _ _ _ _ _ _ _ _ _ _) as [[[h1 r1] v1]| | |] eqn:E; cbn [bind] in H; try discriminate. injection H as <- <- <- <-.
      exact (FILL l (lookup_len _ _ _ _ _ LK) h1 r1 v1 E).
    + injection H as <- <- <- <-. split; [discriminate|auto].
Qed.
End Calls.

(* ---- names that are no dotted quads ---- *)
Lemma split_count l : forall cur, length (Grp_model.split_at 46 cur l) = S (count_occ Z.eq_dec l 46).
Proof.
  induction l as [|c l IH]; intros cur; [reflexivity|]. cbn [Grp_model.split_at count_occ].
  destruct (Z.eqb_spec c 46), (Z.eq_dec c 46); try contradiction; cbn [length]; rewrite IH; reflexivity.
Qed.
Lemma drop_count l : count_occ Z.eq_dec (Grp_model.drop_space l) 46 = count_occ Z.eq_dec l 46.
Proof.
  induction l as [|c l IH]; [reflexivity|]. cbn [Grp_model.drop_space]. destruct (Grp_model.space c) eqn:E; [|reflexivity].
  rewrite IH. cbn [count_occ]. destruct (Z.eq_dec c 46); [subst; discriminate|reflexivity].
Qed.
Lemma rev_count (l : list Z) : count_occ Z.eq_dec (rev l) 46 = count_occ Z.eq_dec l 46.
Proof. induction l as [|c l IH]; [reflexivity|]. cbn [rev]. rewrite count_occ_app, IH. cbn [count_occ]. destruct (Z.eq_dec c 46); lia. Qed.
Lemma dots_ipv4 s : count_occ Z.eq_dec s 46 <> 3%nat -> parse_ipv4_string s = None.
Proof.
  intros C. unfold parse_ipv4_string. match goal with |- context [len ?l =? 4] => destruct (Z.eqb_spec (len l) 4) as [E|] end; [|reflexivity].
  exfalso. apply C. unfold len in E. rewrite map_length, split_count in E. unfold Grp_model.trim in E. rewrite rev_count, drop_count, rev_count, drop_count in E. lia.
Qed.
